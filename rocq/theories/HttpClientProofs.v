(** Lemmas for the streamable HTTP client. *)
From stdpp Require Import strings list sets gmap.
From Coq Require Import ZifyBool.
From Verif Require Import ListLib TextLib Utf8Lib JsonLib SerdeLib TypesModel RpcModel RpcSpec RpcProofs SseModel SseSpec SseProofs JsonFastProofs2 HttpModel HttpSpec HttpProofs HttpClientModel HttpClientSpec.

(** *** Documents are one line *)
Lemma esc_char_printed c : Forall (λ x, x ≠ 10%N ∧ x ≠ 13%N) (esc_char c).
Proof.
  unfold esc_char, hex_lower. set (q := (c / 16)%N). set (r := (c mod 16)%N). clearbody q r.
  destruct (c <? 32)%N eqn:E; repeat case_match; repeat (apply Forall_cons; split); try apply Forall_nil_2; try done; lia.
Qed.
Lemma show_str_printed s : Forall (λ x, x ≠ 10%N ∧ x ≠ 13%N) (show_str s).
Proof.
  unfold show_str. constructor; [lia|]. rewrite Forall_app. split; [|by apply Forall_singleton].
  induction s as [|c s IH]; [constructor|]. rewrite fmap_cons. cbn [concat]. rewrite Forall_app. split; [apply esc_char_printed|done].
Qed.
Lemma join_printed ls : Forall (Forall (λ x, x ≠ 10%N ∧ x ≠ 13%N)) ls → Forall (λ x, x ≠ 10%N ∧ x ≠ 13%N) (join_with [44%N] ls).
Proof.
  induction 1 as [|l ls Hl Hls IH]; [constructor|]. cbn. destruct ls; [done|].
  rewrite Forall_app. split; [done|]. constructor; [lia|done].
Qed.
Lemma show_Z_printed z : Forall (λ x, x ≠ 10%N ∧ x ≠ 13%N) (show_Z z).
Proof.
  assert (∀ n, Forall (λ x, x ≠ 10%N ∧ x ≠ 13%N) (show_N n)) as H. { intros n. apply Forall_forall. intros d Hd. pose proof (TextLib.show_N_digits n d Hd). lia. }
  destruct z; cbn [show_Z]; try apply H. constructor; [lia|apply H].
Qed.
Lemma show_printed v : wf v → Forall (λ x, x ≠ 10%N ∧ x ≠ 13%N) (show v).
Proof.
  induction v as [|b|z|t|s|l IH|l IH] using json_ind'; cbn [show].
  - intros _. by apply (bool_decide_unpack _); vm_compute.
  - intros _. destruct b; by apply (bool_decide_unpack _); vm_compute.
  - intros _. apply show_Z_printed.
  - intros H. apply float_token in H. eapply Forall_impl; [exact H|]. intros c Hc. destruct Hc as [Hc _]. unfold json_ws in Hc. lia.
  - intros _. apply show_str_printed.
  - rewrite wf_arr. intros Hl. constructor; [lia|]. rewrite Forall_app. split; [|by apply Forall_singleton].
    apply join_printed. rewrite Forall_fmap. apply Forall_forall. intros x Hx. rewrite Forall_forall in IH. rewrite Forall_forall in Hl. cbn. eauto.
  - rewrite wf_obj. intros Hl. constructor; [lia|]. rewrite Forall_app. split; [|by apply Forall_singleton].
    apply join_printed. rewrite Forall_fmap. apply Forall_forall. intros x Hx. rewrite Forall_forall in IH. rewrite Forall_forall in Hl.
    change (Forall (λ x, x ≠ 10%N ∧ x ≠ 13%N) (show_str x.1 ++ 58%N :: show x.2)). rewrite Forall_app. split; [by apply show_str_printed|]. constructor; [lia|]. apply (IH x Hx), (Hl x Hx).
Qed.
Lemma show_nonempty v : wf v → show v ≠ [].
Proof. intros Hw E. destruct v as [|[]|z|t|s|l|l]; try done; [destruct z as [|p|p]; cbn [show show_Z] in E; try done; by apply TextLib.show_N_nonempty in E|]. cbn in E, Hw. subst. by vm_compute in Hw. Qed.
Lemma show_writable v i t : wf v → (∀ x, i = Some x → no_break x ∧ 0%N ∉ x) → (∀ x, t = Some x → no_break x) → writable (MkSse i t (show v) None).
Proof.
  intros Hw Hi Ht. pose proof (show_printed v Hw) as Hp. rewrite Forall_forall in Hp.
  assert (∀ c, c = LF ∨ c = CR → c ∉ show v) as Hn. { intros c Hc Hin. apply Hp in Hin. unfold LF, CR in Hc. lia. }
  split_and!; [done|done|done|by apply Hn; right|by apply show_nonempty| |]; cbn [e_data]; intros E.
  - apply (Hn LF); [by left|]. apply head_Some in E as [l ->]. left.
  - apply (Hn LF); [by left|]. apply last_Some in E as [l ->]. apply elem_of_app. right. left.
Qed.

(** *** A check for [storable], for the examples *)
Fixpoint storable_b (v : json) : bool :=
  match v with
  | JInt z => bool_decide (- Z.of_N i64_min_abs <= z <= Z.of_N u64_max)%Z
  | JFloat t => false
  | JStr s => forallb (λ c, c <? 128)%N s
  | JArr l => (fix go l := match l with [] => true | x :: l => storable_b x && go l end) l
  | JObj l => bool_decide (NoDup l.*1) && (fix go (l : list (list N * json)) := match l with [] => true | x :: l => forallb (λ c, c <? 128)%N x.1 && storable_b x.2 && go l end) l
  | _ => true
  end.
Lemma ascii_scalars s : forallb (λ c, c <? 128)%N s = true → Forall scalar s.
Proof. intros H. apply plain_scalar. unfold JsonLib.plain. rewrite Forall_forall. intros c Hc. rewrite forallb_forall in H. apply elem_of_list_In, H in Hc. by apply N.ltb_lt in Hc. Qed.
Lemma storable_check v : storable_b v = true → (depth v < 128)%nat → storable v.
Proof.
  intros H Hd. assert (wf v ∧ keys_ok v ∧ scalars v) as (H1 & H2 & H3); [|done]. clear Hd.
  induction v as [|b|z|t|s|l IH|l IH] using json_ind'; try done.
  - cbn in H. apply bool_decide_eq_true in H. done.
  - cbn in H. split_and!; [done|done|]. by apply ascii_scalars.
  - rewrite wf_arr, keys_ok_arr, scalars_arr. cbn [storable_b] in H. induction IH as [|x l Hx _ IHl]; [done|]. apply andb_true_iff in H as [Ha Hb]. destruct (Hx Ha) as (? & ? & ?). destruct (IHl Hb) as (? & ? & ?). split_and!; by constructor.
  - cbn [storable_b] in H. apply andb_true_iff in H as [Hn H]. apply bool_decide_eq_true in Hn.
    assert (Forall (λ kv, wf kv.2) l ∧ Forall (λ kv, keys_ok kv.2) l ∧ Forall (λ kv, Forall scalar kv.1 ∧ scalars kv.2) l) as (W & K & S).
    { clear Hn. induction IH as [|x l Hx _ IHl]; [done|]. apply andb_true_iff in H as [Ha Hb]. apply andb_true_iff in Ha as [Ha1 Ha2]. destruct (Hx Ha2) as (? & ? & ?). destruct (IHl Hb) as (? & ? & ?). split_and!; constructor; try done. split; [by apply ascii_scalars|done]. }
    rewrite wf_obj, scalars_obj. split; [done|]. split; [|done]. cbn [keys_ok]. split; [done|]. clear -K. induction K as [|x l Hx _ IH]; [done|]. by split.
Qed.
(** *** Messages come back *)
Lemma nameless_unread {A} (tag : A → text) bd all l : assoc (lit "method") l = None → tagged tag bd all l = None.
Proof. intros H. unfold tagged, str_field. by rewrite H. Qed.
Lemma nameless_doc l : assoc (lit "method") l = None → assoc (lit "id") l = None →
  message_of_doc (JObj l) = MsgNotification <$> match decode t_progress (JObj l) with Some p => Some (NProgress p) | None => NCancelled <$> decode t_cancelled (JObj l) end.
Proof.
  intros Hm Hi. unfold message_of_doc. rewrite Hi. cbn [mbind option_bind]. assert (response_of_json (JObj l) = None) as ->.
  { unfold response_of_json. rewrite Hi. cbn [mbind option_bind]. by destruct (str_field "jsonrpc" l). }
  unfold notification_of_doc. by rewrite !nameless_unread.
Qed.
Lemma progress_doc p : is_of t_progress p → message_of_doc p = Some (MsgNotification (NProgress p)).
Proof.
  intros H. pose proof (decode_is_of t_progress progress_ok p H) as Hd. destruct H as (l & r & -> & Hl & Hr). cbn [extra_ok] in Hr. subst r.
  rewrite nameless_doc; [by rewrite Hd| |]; destruct Hl as (v1 & l1 & -> & _ & v2 & l2 & -> & _ & [->|(v3 & l3 & -> & _ & _ & ->)]); done.
Qed.
Lemma cancelled_doc p : is_of t_cancelled p → message_of_doc p = Some (MsgNotification (NCancelled p)).
Proof.
  intros H. pose proof (decode_is_of t_cancelled cancelled_ok p H) as Hd. destruct H as (l & r & -> & Hl & Hr). cbn [extra_ok] in Hr. subst r.
  assert (decode t_progress (JObj (l ++ [])) = None) as Hn.
  { assert (assoc (lit "progressToken") (l ++ []) = None) as E by (destruct Hl as (v1 & l1 & -> & _ & [->|(v3 & l3 & -> & _ & _ & ->)]); done).
    unfold t_progress, struct, req. cbn [decode dec_fields]. by rewrite E. }
  rewrite nameless_doc; [by rewrite Hn, Hd| |]; destruct Hl as (v1 & l1 & -> & _ & [->|(v3 & l3 & -> & _ & _ & ->)]); done.
Qed.
Lemma sent_back m : carried m → message_of_doc (message_doc m) = Some m.
Proof.
  destruct m as [i [c p|c p]|r|[c p|c p|p|p]]; cbn [carried]; try done.
  - intros [Hi Hp]. by apply own_request.
  - intros (Hi & Hp & Hc). cbn [message_doc message_of_doc]. set (d := tagged_doc _ _ _).
    assert (assoc (lit "id") [(lit "id", rid_json i); (lit "request", JObj d)] = Some (rid_json i)) as -> by done.
    assert (assoc (lit "request") [(lit "id", rid_json i); (lit "request", JObj d)] = Some (JObj d)) as -> by done.
    cbn [mbind option_bind]. rewrite rid_roundtrip by done. cbn [request_of_doc]. subst d.
    rewrite tagged_miss; [|destruct c; [done| |]; by apply (bool_decide_unpack _); vm_compute].
    rewrite tagged_back; [done|exact sreq_tags|apply sreq_all|apply sreq_body_ok|done].
  - intros H. by apply own_response.
  - intros Hp. cbn [message_doc message_of_doc]. set (l := tagged_doc _ _ _).
    assert (assoc (lit "id") l = None) as -> by (subst l; unfold tagged_doc; by destruct (cnot_body c)).
    assert (response_of_json (JObj l) = None) as -> by (subst l; unfold tagged_doc; by destruct (cnot_body c)).
    cbn [mbind option_bind notification_of_doc]. subst l.
    rewrite tagged_back; [done|exact cnot_tags|apply cnot_all|apply cnot_body_ok|done].
  - intros [Hp Hc]. cbn [message_doc message_of_doc]. set (l := tagged_doc _ _ _).
    assert (assoc (lit "id") l = None) as -> by (subst l; unfold tagged_doc; by destruct (snot_body c)).
    assert (response_of_json (JObj l) = None) as -> by (subst l; unfold tagged_doc; by destruct (snot_body c)).
    cbn [mbind option_bind notification_of_doc]. subst l.
    rewrite tagged_miss; [|destruct c; try (by apply (bool_decide_unpack _); vm_compute); exfalso; apply Hc; repeat constructor].
    rewrite tagged_back; [done|exact snot_tags|apply snot_all|apply snot_body_ok|done].
  - exact (progress_doc p).
  - exact (cancelled_doc p).
Qed.
Lemma sendable_read m : sendable m → parse_value (show (message_doc m)) ≫= message_of_doc = Some m.
Proof. intros [Hc (Hw & Hk & _ & Hd)]. rewrite parse_value_show by done. cbn [mbind option_bind]. by apply sent_back. Qed.

(** *** Events of a body *)
Definition ids_of (es : list sse_event) : list text := omap e_id es.
Lemma take_events es s : ∃ ms, fold_left take_event es s =
  MkTransport (tp_session s) (tp_version s) (default (tp_last s) (Some <$> last (ids_of es))) (tp_queue s ++ ms) (tp_got s) (tp_flight s) (tp_streams s) (tp_handle s) (tp_tokens s ++ ids_of es) (tp_sent s).
Proof.
  revert s. induction es as [|e es IH]; intros s.
  - exists []. cbn. rewrite !app_nil_r. by destruct s.
  - cbn [fold_left]. destruct (IH (take_event s e)) as [ms ->]. clear IH.
    assert (∃ ns, take_event s e = MkTransport (tp_session s) (tp_version s) (match e_id e with Some i => Some i | None => tp_last s end) (tp_queue s ++ ns) (tp_got s) (tp_flight s) (tp_streams s) (tp_handle s) (tp_tokens s ++ match e_id e with Some i => [i] | None => [] end) (tp_sent s)) as [ns ->].
    { unfold take_event. destruct (e_id e) as [i|]; (destruct (match e_event e with Some t => _ | None => _ end); [destruct (_ ≫= _) as [m|]; [exists [m]|exists []]|exists []]); rewrite ?app_nil_r; by destruct s. }
    exists (ns ++ ms). cbn [tp_session tp_version tp_last tp_queue tp_got tp_flight tp_streams tp_handle tp_tokens tp_sent].
    unfold ids_of. cbn [omap list_omap]. rewrite !app_assoc. destruct (e_id e) as [i|]; [|by rewrite app_nil_r].
    f_equal; [|by rewrite <- app_assoc]. rewrite last_cons. by destruct (last _).
Qed.
Lemma take_event_reads s e o : reads_as e o → tp_queue (take_event s e) = tp_queue s ++ match o with Some m => [m] | None => [] end.
Proof.
  intros H. unfold take_event. set (s1 := match e_id e with Some i => _ | None => _ end).
  assert (tp_queue s1 = tp_queue s) as Hs by (subst s1; by destruct (e_id e)). rewrite <- Hs. clearbody s1. clear Hs. destruct o as [m|]; cbn [reads_as] in H.
  - destruct H as [[Ht ->] Hm]. rewrite sendable_read by done.
    assert (match e_event e with Some t => bool_decide (t = lit "message") | None => true end = true) as ->; [|done].
    destruct Ht as [-> | ->]; [done|]. by apply bool_decide_eq_true.
  - destruct H as (t & -> & Ht). rewrite bool_decide_eq_false_2 by done. by rewrite app_nil_r.
Qed.
Lemma take_events_reads s es ol : Forall2 reads_as es ol → tp_queue (fold_left take_event es s) = tp_queue s ++ omap id ol.
Proof.
  intros H. revert s. induction H as [|e o es ol Ho _ IH]; intros s; [by rewrite app_nil_r|].
  cbn [fold_left]. rewrite IH, (take_event_reads _ _ o) by done. rewrite <- app_assoc. f_equal. by destruct o.
Qed.
Lemma received_reads lastid es ol : Forall2 reads_as es ol → Forall2 reads_as (received lastid es) ol.
Proof.
  intros H. revert lastid. induction H as [|e o es ol Ho _ IH]; intros lastid; cbn [received]; constructor; [|done].
  destruct o; done.
Qed.
Lemma feed_body es : Forall writable es → feed parser0 (concat (display <$> es)) = Some (MkP [] builder0 (fold_left next_id es None), received None es).
Proof.
  intros H. pose proof (round_trip es [concat (display <$> es)] None H) as R. cbn [concat feed_all] in R. rewrite app_nil_r in R. specialize (R eq_refl).
  unfold parser0. destruct (feed (MkP [] builder0 None) (concat (display <$> es))) as [[p es']|]; [|done]. rewrite app_nil_r in R. done.
Qed.

(** *** The step, by what it does *)
Section client.
  Context (cf : tconfig).
  Notation step := (tp_step cf).
  Notation run := (tp_run cf).
  Lemma tp_run_snoc z os o : run z (os ++ [o]) = (step (run z os) o).1.
  Proof. unfold tp_run. by rewrite fold_left_app. Qed.
  Lemma trace_app s os1 os2 : trace cf s (os1 ++ os2) = trace cf s os1 ++ trace cf (fold_left (λ s o, (step s o).1) os1 s) os2.
  Proof. revert s. induction os1 as [|o os1 IH]; intros s; [done|]. cbn [trace app fold_left]. by rewrite IH. Qed.
  Lemma trace_snoc z os o : trace cf (transport_new z) (os ++ [o]) = trace cf (transport_new z) os ++ [(run z os, o)].
  Proof. by rewrite trace_app. Qed.

  Lemma success_202 : is_success 202 = true. Proof. done. Qed.
  Lemma success_spec z : is_success z = true ↔ ok_status z.
  Proof. unfold is_success, ok_status. lia. Qed.
  (** what a reply to a post does *)
  Lemma end_send_spec m r tok s : ∃ ms x, end_send cf m r tok s =
      (match r with
       | Some r => let s := process_headers r s in if is_success (rp_status r) && negb (contains application_json (default [] (rp_type r))) && contains text_event_stream (default [] (rp_type r)) then open_stream false s else push ms s
       | None => s end, Some x) ∧
      (ms = [] ∨ ∃ r', r = Some r' ∧ is_success (rp_status r') = true ∧ contains application_json (default [] (rp_type r')) = true ∧ rp_body r' ≫= json_messages = Some ms).
  Proof.
    destruct r as [r|]; [|exists [], TErr; split; [done|by left]]. unfold end_send.
    assert (∀ s, push [] s = s) as Hp by (intros []; unfold push; cbn; by rewrite app_nil_r).
    destruct (is_success (rp_status r)) eqn:Es; cbn [andb].
    - destruct (contains application_json (default [] (rp_type r))) eqn:Ej; cbn [negb andb].
      + destruct (rp_body r ≫= json_messages) as [ms|] eqn:Eb; [exists ms, TOk|exists [], TErr]; (split; [by rewrite ?Hp|]); [|by left].
        right. by exists r.
      + destruct (contains text_event_stream (default [] (rp_type r))); [exists [], TOk; split; [done|by left]|].
        destruct (rp_status r =? 202)%Z; [exists [], TOk|exists [], TErr]; (split; [by rewrite ?Hp|by left]).
    - destruct (rp_status r =? 202)%Z eqn:E2; [|exists [], TErr; split; [by rewrite Hp|by left]].
      apply Z.eqb_eq in E2. rewrite E2 in Es. by rewrite success_202 in Es.
  Qed.
  Lemma process_headers_spec r s : process_headers r s =
    MkTransport (match rp_session r with Some v => Some v | None => tp_session s end) (match rp_version r with Some v => Some v | None => tp_version s end)
      (tp_last s) (tp_queue s) (tp_got s) (tp_flight s) (tp_streams s) (tp_handle s) (tp_tokens s) (tp_sent s).
  Proof. unfold process_headers. destruct (rp_session r), (rp_version r); by destruct s. Qed.
  Lemma take_body_spec body s : ∃ ms ids, take_body body s =
    MkTransport (tp_session s) (tp_version s) (default (tp_last s) (Some <$> last ids)) (tp_queue s ++ ms) (tp_got s) (tp_flight s) (tp_streams s) (tp_handle s) (tp_tokens s ++ ids) (tp_sent s).
  Proof.
    unfold take_body. destruct (feed parser0 body) as [[p es]|].
    - destruct (take_events es s) as [ms E]. exists ms, (ids_of es). exact E.
    - exists [], []. cbn. rewrite !app_nil_r. by destruct s.
  Qed.
  Lemma abort_fields s : tp_session (abort_stream s) = tp_session s ∧ tp_version (abort_stream s) = tp_version s ∧ tp_last (abort_stream s) = tp_last s ∧
    tp_queue (abort_stream s) = tp_queue s ∧ tp_got (abort_stream s) = tp_got s ∧ tp_flight (abort_stream s) = tp_flight s ∧ tp_tokens (abort_stream s) = tp_tokens s ∧ tp_sent (abort_stream s) = tp_sent s ∧
    (∀ n, tp_streams (abort_stream s) !! n = Some true → tp_streams s !! n = Some true) ∧ length (tp_streams (abort_stream s)) = length (tp_streams s).
  Proof.
    unfold abort_stream. destruct (tp_handle s) as [h|]; cbn; split_and!; try done; [|by rewrite insert_length].
    intros n H. destruct (decide (n = h)) as [->|Hn]; [|by rewrite list_lookup_insert_ne in H].
    apply list_lookup_insert_Some in H as [(_ & ? & _)|[? _]]; done.
  Qed.

  (** what a step sends *)
  Definition sent_by (o : top) (s : transport) (q : crequest) : Prop :=
    ∃ tok hs, build_request cf tok s = Some hs ∧
    match o with
    | TSend m None _ => q = MkRequest Post (hs ++ [(CONTENT_TYPE, application_json); (ACCEPT, accept_streamable)]) (Some (message_doc m))
    | TSend _ token _ | TStart token _ => q = MkRequest Get (hs ++ [(ACCEPT, text_event_stream)] ++ opt_header LAST_EVENT token) None
    | TClose _ => q = MkRequest Delete hs None ∧ is_Some (tp_session s)
    | _ => False
    end.
  Lemma build_request_abort tok s : build_request cf tok (abort_stream s) = build_request cf tok s.
  Proof. unfold build_request. by destruct (abort_fields s) as (-> & -> & _). Qed.
  Lemma begin_get_sent token tok quiet s : tp_sent (begin_get cf token tok quiet s).1 = tp_sent s ∨
    ∃ hs, build_request cf tok s = Some hs ∧ tp_sent (begin_get cf token tok quiet s).1 = tp_sent s ++ [MkRequest Get (hs ++ [(ACCEPT, text_event_stream)] ++ opt_header LAST_EVENT token) None].
  Proof.
    unfold begin_get. rewrite build_request_abort. destruct (abort_fields s) as (_ & _ & _ & _ & _ & _ & _ & E & _).
    destruct (build_request cf tok s) as [hs|] eqn:Eb; [right; exists hs; split; [done|]|left]; cbn [fst request tp_sent]; by rewrite E.
  Qed.
  Lemma step_sent s o : tp_sent (step s o).1 = tp_sent s ∨ ∃ q, sent_by o s q ∧ tp_sent (step s o).1 = tp_sent s ++ [q].
  Proof.
    destruct o as [m token tok|token tok|tok|i r tok|n body| |v|v]; cbn [tp_step].
    - unfold begin_send. destruct token as [t|].
      + destruct (begin_get_sent (Some t) tok false s) as [E|(hs & Eb & E)]; [by left|right; eexists; split; [by exists tok, hs|exact E]].
      + destruct (build_request cf tok s) as [hs|] eqn:Eb; [|by left]. right. eexists. split; [by exists tok, hs|done].
    - destruct (begin_get_sent token tok false s) as [E|(hs & Eb & E)]; [by left|right; eexists; split; [|exact E]]. by exists tok, hs.
    - unfold begin_close. destruct (abort_fields s) as (E1 & _ & _ & _ & _ & _ & _ & E & _). rewrite E1, build_request_abort.
      destruct (tp_session s) as [z|] eqn:Ez; [|left; done]. destruct (build_request cf tok s) as [hs|] eqn:Eb; [|left; done].
      right. eexists. split; [exists tok, hs; rewrite Ez; eauto|]. cbn [fst request tp_sent]. by rewrite E.
    - left. destruct (tp_flight s !! i) as [[[m|quiet|]|]|]; try done.
      + destruct (end_send_spec m r tok (answered i s)) as (ms & x & -> & _). cbn [fst]. destruct r as [r|]; [|done].
        rewrite process_headers_spec. by destruct (_ && _ && _).
      + unfold end_get. destruct r as [r|]; [|done]. destruct (_ =? _)%Z; [done|]. rewrite process_headers_spec. by destruct (is_success _).
    - left. destruct (tp_streams s !! n) as [[]|]; [|done|done]. destruct (take_body_spec body (close_stream n s)) as (ms & ids & ->). done.
    - left. unfold receive. by destruct (tp_queue s).
    - by left.
    - by left.
  Qed.
End client.
