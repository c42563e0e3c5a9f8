(** Histories of the streamable HTTP client. *)
From stdpp Require Import strings list sets gmap.
From Coq Require Import ZifyBool.
From Verif Require Import ListLib TextLib Utf8Lib JsonLib SerdeLib TypesModel RpcModel RpcSpec RpcProofs SseModel SseSpec SseProofs HttpModel HttpSpec HttpProofs HttpClientModel HttpClientSpec HttpClientProofs.

Lemma first_header_cons n x l : first_header n (x :: l) = if decide (x.1 = n) then Some x.2 else first_header n l.
Proof. unfold first_header. cbn [list_find]. destruct (decide (x.1 = n)); [done|]. by destruct (list_find _ l) as [[]|]. Qed.
Lemma first_header_app n l1 l2 : first_header n (l1 ++ l2) = match first_header n l1 with Some v => Some v | None => first_header n l2 end.
Proof. induction l1 as [|x l1 IH]; [done|]. cbn [app]. rewrite !first_header_cons. destruct (decide (x.1 = n)); [done|]. apply IH. Qed.
Lemma first_header_none n l : n ∉ l.*1 → first_header n l = None.
Proof.
  induction l as [|x l IH]; [done|]. rewrite fmap_cons, not_elem_of_cons. intros [Hx Hl]. rewrite first_header_cons.
  rewrite decide_False by done. auto.
Qed.
Lemma first_opt n m v : first_header n (opt_header m v) = if decide (m = n) then v else None.
Proof. destruct v as [v|]; cbn [opt_header]; [rewrite first_header_cons; cbn [fst snd]|]; by destruct (decide (m = n)). Qed.
Definition OWN : list text := [SESSION; VERSION; ACCEPT; CONTENT_TYPE; LAST_EVENT].
Lemma no_clash_own cf n : no_clash cf → n ∈ OWN → n ∉ (tc_extra cf).*1.
Proof. intros H Hn Hin. apply elem_of_list_fmap in Hin as (x & -> & Hx). unfold no_clash in H. rewrite Forall_forall in H. by apply (H x Hx). Qed.
Lemma own_auth n : n ∈ OWN → lit "authorization" ≠ n.
Proof. intros H E. rewrite <- E in H. revert H. by apply (bool_decide_unpack _); vm_compute. Qed.
Section headers.
  Context (cf : tconfig).
  Lemma base_headers tok s hs n : build_request cf tok s = Some hs → n ∈ OWN → first_header n hs =
    match first_header n (tc_extra cf) with Some v => Some v | None => first_header n (opt_header SESSION (tp_session s) ++ opt_header VERSION (tp_version s)) end.
  Proof.
    intros E Hn. unfold build_request in E. destruct (tc_auth cf).
    - destruct tok as [t|]; [|done]. assert (hs = tc_extra cf ++ [(lit "authorization", lit "Bearer " ++ t)] ++ opt_header SESSION (tp_session s) ++ opt_header VERSION (tp_version s)) as -> by congruence.
      rewrite (first_header_app n (tc_extra cf)), (first_header_app n [_]), first_header_cons. cbn [fst]. by rewrite (decide_False (P := _ = n) _ _ (own_auth n Hn)).
    - assert (hs = tc_extra cf ++ opt_header SESSION (tp_session s) ++ opt_header VERSION (tp_version s)) as -> by congruence. by rewrite first_header_app.
  Qed.
  Lemma neq_sv : SESSION ≠ VERSION. Proof. by apply (bool_decide_unpack _); vm_compute. Qed.
  Lemma own_header tok s hs n : no_clash cf → build_request cf tok s = Some hs → n ∈ OWN → first_header n hs = if decide (n = SESSION) then tp_session s else if decide (n = VERSION) then tp_version s else None.
  Proof.
    intros Hc E Hn. rewrite (base_headers tok s hs n E Hn), (first_header_none n (tc_extra cf)) by by apply no_clash_own.
    rewrite first_header_app, !first_opt. pose proof neq_sv. repeat case_decide; try congruence; by repeat case_match.
  Qed.
  (** a header added after [hs] *)
  Lemma shadowed n hs l : first_header n hs = None → first_header n (hs ++ l) = first_header n l.
  Proof. intros E. by rewrite first_header_app, E. Qed.
  Lemma sent_headers o s q : no_clash cf → sent_by cf o s q → first_header SESSION (cr_headers q) = tp_session s ∧ first_header VERSION (cr_headers q) = tp_version s ∧
    first_header LAST_EVENT (cr_headers q) = match o with TSend _ t _ | TStart t _ => t | _ => None end.
  Proof.
    intros Hc (tok & hs & E & Hq).
    assert (first_header SESSION hs = tp_session s) as E1. { rewrite (own_header tok s hs); [|done|done|by apply (bool_decide_unpack _); vm_compute]. by rewrite decide_True. }
    assert (first_header VERSION hs = tp_version s) as E2. { rewrite (own_header tok s hs); [|done|done|by apply (bool_decide_unpack _); vm_compute]. rewrite decide_False by (pose proof neq_sv; congruence). by rewrite decide_True. }
    assert (first_header LAST_EVENT hs = None) as E3. { rewrite (own_header tok s hs); [|done|done|by apply (bool_decide_unpack _); vm_compute]. rewrite !decide_False; [done|by apply (bool_decide_unpack _); vm_compute|by apply (bool_decide_unpack _); vm_compute]. }
    assert (∀ n v a b, match first_header n hs with Some v => Some v | None => first_header n [(ACCEPT, a)] end = v → first_header n (hs ++ [(ACCEPT, a)] ++ b) = match v with Some v => Some v | None => first_header n b end) as Hget.
    { intros n v a b <-. rewrite !first_header_app. by destruct (first_header n hs). }
    assert (∀ t, first_header SESSION (hs ++ [(ACCEPT, text_event_stream)] ++ opt_header LAST_EVENT t) = tp_session s ∧ first_header VERSION (hs ++ [(ACCEPT, text_event_stream)] ++ opt_header LAST_EVENT t) = tp_version s ∧
      first_header LAST_EVENT (hs ++ [(ACCEPT, text_event_stream)] ++ opt_header LAST_EVENT t) = t) as HG.
    { intros t. rewrite !first_header_app, E1, E2, E3, !first_header_cons, !first_opt. cbn [fst].
      assert (∀ n v, n = SESSION ∨ n = VERSION ∨ n = LAST_EVENT → (if decide (ACCEPT = n) then v else first_header n []) = None) as HA.
      { intros n v Hn. rewrite decide_False; [done|]. intros <-. revert Hn. by apply (bool_decide_unpack _); vm_compute. }
      rewrite !HA by auto. rewrite (decide_False (P := LAST_EVENT = SESSION)), (decide_False (P := LAST_EVENT = VERSION)), (decide_True (P := LAST_EVENT = LAST_EVENT)) by (done || by apply (bool_decide_unpack _); vm_compute).
      by destruct (tp_session s), (tp_version s). }
    clear Hget. destruct o as [m token tok'|token tok'|tok'|i r tok'|n body| |v|v]; try done.
    - destruct token as [t|]; subst q; cbn [cr_headers]; [apply HG|].
      rewrite !first_header_app, E1, E2, E3. rewrite !(first_header_none _ [(CONTENT_TYPE, application_json); (ACCEPT, accept_streamable)]) by by apply (bool_decide_unpack _); vm_compute.
      by destruct (tp_session s), (tp_version s).
    - subst q. apply HG.
    - destruct Hq as [-> _]. done.
  Qed.

  Notation step := (tp_step cf).
  Notation run := (tp_run cf).
  (** *** Session and version *)
  Lemma step_session s o : (tp_session (step s o).1 = tp_session s ∧ ∀ w, ¬ sets_session (s, o) w) ∨ sets_session (s, o) (tp_session (step s o).1).
  Proof.
    destruct o as [m token tok|token tok|tok|i r tok|n body| |v|v]; unfold sets_session; cbn [tp_step fst snd].
    - left. split; [|intros w []]. unfold begin_send, begin_get. destruct (abort_fields s) as (E & _).
      destruct token; [destruct (build_request cf tok (abort_stream s))|destruct (build_request cf tok s)]; done.
    - left. split; [|intros w []]. unfold begin_get. destruct (abort_fields s) as (E & _). by destruct (build_request cf tok (abort_stream s)).
    - left. split; [|intros w []]. unfold begin_close. destruct (abort_fields s) as (E & _). destruct (tp_session (abort_stream s)) eqn:Ez; [|cbn [fst]; congruence].
      destruct (build_request cf tok (abort_stream s)); cbn [fst request tp_session]; congruence.
    - unfold waiting. destruct (tp_flight s !! i) as [[[m|quiet|]|]|]; try (left; split; [done|]; intros w []).
      + destruct (end_send_spec cf m r tok (answered i s)) as (ms & x & -> & _). cbn [fst]. destruct r as [r|]; [|left; by split; [|intros w []]].
        rewrite process_headers_spec. assert (∀ b, tp_session (if b : bool then open_stream false (MkTransport (match rp_session r with Some v => Some v | None => tp_session (answered i s) end) (match rp_version r with Some v => Some v | None => tp_version (answered i s) end) (tp_last (answered i s)) (tp_queue (answered i s)) (tp_got (answered i s)) (tp_flight (answered i s)) (tp_streams (answered i s)) (tp_handle (answered i s)) (tp_tokens (answered i s)) (tp_sent (answered i s))) else push ms (MkTransport (match rp_session r with Some v => Some v | None => tp_session (answered i s) end) (match rp_version r with Some v => Some v | None => tp_version (answered i s) end) (tp_last (answered i s)) (tp_queue (answered i s)) (tp_got (answered i s)) (tp_flight (answered i s)) (tp_streams (answered i s)) (tp_handle (answered i s)) (tp_tokens (answered i s)) (tp_sent (answered i s)))) = match rp_session r with Some v => Some v | None => tp_session s end) as H by by intros [].
        rewrite H. destruct (rp_session r) as [v|] eqn:Ev; [right; split; [eauto|done]|left; split; [done|]]. intros w [[? ?] _]; done.
      + destruct r as [r|]; [|left; split; [done|intros w []]]. unfold end_get. destruct (rp_status r =? 405)%Z eqn:E4.
        { left. split; [done|]. intros w (Hs & _). unfold ok_status in Hs. lia. }
        destruct (is_success (rp_status r)) eqn:Es.
        * apply success_spec in Es. rewrite process_headers_spec. cbn [fst open_stream tp_session]. destruct (rp_session r) as [v|] eqn:Ev; [right; split; [done|split; [eauto|done]]|left; split; [done|]]. intros w (_ & [? ?] & _); done.
        * left. split; [done|]. intros w (Hs & _). apply success_spec in Hs. congruence.
      + right. done.
    - left. split; [|intros w []]. destruct (tp_streams s !! n) as [[]|]; [|done|done]. destruct (take_body_spec body (close_stream n s)) as (ms & ids & ->). done.
    - left. split; [|intros w []]. unfold receive. by destruct (tp_queue s).
    - by right.
    - left. split; [done|intros w []].
  Qed.
  Lemma step_version s o : (tp_version (step s o).1 = tp_version s ∧ ∀ w, ¬ sets_version (s, o) w) ∨ sets_version (s, o) (tp_version (step s o).1).
  Proof.
    destruct o as [m token tok|token tok|tok|i r tok|n body| |v|v]; unfold sets_version; cbn [tp_step fst snd].
    - left. split; [|intros w []]. unfold begin_send, begin_get. destruct (abort_fields s) as (E1 & E & _).
      destruct token; [destruct (build_request cf tok (abort_stream s))|destruct (build_request cf tok s)]; done.
    - left. split; [|intros w []]. unfold begin_get. destruct (abort_fields s) as (E1 & E & _). by destruct (build_request cf tok (abort_stream s)).
    - left. split; [|intros w []]. unfold begin_close. destruct (abort_fields s) as (E1 & E & _). destruct (tp_session (abort_stream s)) eqn:Ez; [|cbn [fst]; congruence].
      destruct (build_request cf tok (abort_stream s)); cbn [fst request tp_version]; congruence.
    - unfold waiting. destruct (tp_flight s !! i) as [[[m|quiet|]|]|]; try (left; split; [done|]; intros w Hw; by destruct r).
      + destruct (end_send_spec cf m r tok (answered i s)) as (ms & x & -> & _). cbn [fst]. destruct r as [r|]; [|left; by split; [|intros w []]].
        rewrite process_headers_spec. assert (∀ b, tp_version (if b : bool then open_stream false (MkTransport (match rp_session r with Some v => Some v | None => tp_session (answered i s) end) (match rp_version r with Some v => Some v | None => tp_version (answered i s) end) (tp_last (answered i s)) (tp_queue (answered i s)) (tp_got (answered i s)) (tp_flight (answered i s)) (tp_streams (answered i s)) (tp_handle (answered i s)) (tp_tokens (answered i s)) (tp_sent (answered i s))) else push ms (MkTransport (match rp_session r with Some v => Some v | None => tp_session (answered i s) end) (match rp_version r with Some v => Some v | None => tp_version (answered i s) end) (tp_last (answered i s)) (tp_queue (answered i s)) (tp_got (answered i s)) (tp_flight (answered i s)) (tp_streams (answered i s)) (tp_handle (answered i s)) (tp_tokens (answered i s)) (tp_sent (answered i s)))) = match rp_version r with Some v => Some v | None => tp_version s end) as H by by intros [].
        rewrite H. destruct (rp_version r) as [v|] eqn:Ev; [right; split; [eauto|done]|left; split; [done|]]. intros w [[? ?] _]; done.
      + destruct r as [r|]; [|left; split; [done|intros w []]]. unfold end_get. destruct (rp_status r =? 405)%Z eqn:E4.
        { left. split; [done|]. intros w (Hs & _). unfold ok_status in Hs. lia. }
        destruct (is_success (rp_status r)) eqn:Es.
        * apply success_spec in Es. rewrite process_headers_spec. cbn [fst open_stream tp_version]. destruct (rp_version r) as [v|] eqn:Ev; [right; split; [done|split; [eauto|done]]|left; split; [done|]]. intros w (_ & [? ?] & _); done.
        * left. split; [done|]. intros w (Hs & _). apply success_spec in Hs. congruence.
    - left. split; [|intros w []]. destruct (tp_streams s !! n) as [[]|]; [|done|done]. destruct (take_body_spec body (close_stream n s)) as (ms & ids & ->). done.
    - left. split; [|intros w []]. unfold receive. by destruct (tp_queue s).
    - left. split; [done|intros w []].
    - by right.
  Qed.
  Lemma latest_step {A} (sets : transport * top → A → Prop) (get : transport → A) z init :
    get (transport_new z) = init → (∀ s o, (get (step s o).1 = get s ∧ ∀ w, ¬ sets (s, o) w) ∨ sets (s, o) (get (step s o).1)) →
    ∀ os, latest sets init (trace cf (transport_new z) os) (get (run z os)).
  Proof.
    intros H0 Hs os. induction os as [|o os IH] using rev_ind; [left; split; [done|constructor]|].
    rewrite tp_run_snoc, trace_snoc. destruct (Hs (run z os) o) as [[E Hn]|E].
    - rewrite E. destruct IH as [[E2 Hf]|(t1 & x & t2 & Et & Hx & Hf)].
      + left. split; [done|]. apply Forall_app. split; [done|by apply Forall_singleton].
      + right. exists t1, x, (t2 ++ [(run z os, o)]). rewrite Et, <- app_assoc. split; [done|]. split; [done|]. apply Forall_app. split; [done|by apply Forall_singleton].
    - right. exists (trace cf (transport_new z) os), (run z os, o), []. split; [done|]. split; [done|constructor].
  Qed.
  Lemma session_latest z os : latest sets_session z (trace cf (transport_new z) os) (tp_session (run z os)).
  Proof. apply (latest_step sets_session tp_session); [done|apply step_session]. Qed.
  Lemma version_latest z os : latest sets_version None (trace cf (transport_new z) os) (tp_version (run z os)).
  Proof. apply (latest_step sets_version tp_version); [done|apply step_version]. Qed.

  (** *** Messages *)
  Definition all_of (s : transport) : list message := tp_got s ++ tp_queue s.
  Definition json_reply (m : message) (r : reply) : Prop := ok_status (rp_status r) ∧ ∃ ct, rp_type r = Some ct ∧ mentions (lit "application/json") ct.
  Lemma step_messages s o : ∃ ms, all_of (step s o).1 = all_of s ++ ms ∧
    (ms = [] ∨ (∃ n body, o = TBody n body ∧ reading s n) ∨ (∃ i m r tok, o = TReply i (Some r) tok ∧ waiting s i = Some (XPost m) ∧ ok_status (rp_status r) ∧ ∃ ct, rp_type r = Some ct ∧ mentions (lit "application/json") ct)).
  Proof.
    destruct o as [m token tok|token tok|tok|i r tok|n body| |v|v]; cbn [tp_step].
    - exists []. rewrite app_nil_r. split; [|by left]. unfold all_of, begin_send, begin_get. destruct (abort_fields s) as (_ & _ & _ & E1 & E2 & _).
      destruct token; [destruct (build_request cf tok (abort_stream s))|destruct (build_request cf tok s)]; cbn [fst request tp_got tp_queue]; congruence.
    - exists []. rewrite app_nil_r. split; [|by left]. unfold all_of, begin_get. destruct (abort_fields s) as (_ & _ & _ & E1 & E2 & _).
      destruct (build_request cf tok (abort_stream s)); cbn [fst request tp_got tp_queue]; congruence.
    - exists []. rewrite app_nil_r. split; [|by left]. unfold all_of, begin_close. destruct (abort_fields s) as (_ & _ & _ & E1 & E2 & _).
      destruct (tp_session (abort_stream s)); [destruct (build_request cf tok (abort_stream s))|]; cbn [fst request tp_got tp_queue]; congruence.
    - unfold waiting. destruct (tp_flight s !! i) as [[[m|quiet|]|]|] eqn:Ef; try (exists []; rewrite app_nil_r; by split; [|left]).
      + destruct (end_send_spec cf m r tok (answered i s)) as (ms & x & -> & Hms). cbn [fst]. destruct r as [r|]; [|exists []; rewrite app_nil_r; by split; [|left]].
        rewrite process_headers_spec. destruct (_ && _ && _); [exists []; rewrite app_nil_r; by split; [|left]|]. exists ms. split; [unfold all_of; cbn; by rewrite app_assoc|].
        destruct Hms as [->|(r' & [= <-] & Hs & Hc & _)]; [by left|]. right. right. exists i, m, r, tok. split; [done|]. split; [by rewrite Ef|]. apply success_spec in Hs. split; [done|].
        destruct (rp_type r) as [ct|]; [|by vm_compute in Hc]. exists ct. split; [done|]. by apply contains_spec in Hc.
      + exists []. rewrite app_nil_r. split; [|by left]. unfold end_get. destruct r as [r|]; [|done]. destruct (_ =? _)%Z; [done|]. rewrite process_headers_spec. by destruct (is_success _).
    - destruct (tp_streams s !! n) as [[]|] eqn:E; try (exists []; rewrite app_nil_r; by split; [|left]).
      destruct (take_body_spec body (close_stream n s)) as (ms & ids & ->). exists ms. split; [unfold all_of; cbn; by rewrite app_assoc|]. right. left. by exists n, body.
    - exists []. rewrite app_nil_r. split; [|by left]. unfold all_of, receive. destruct (tp_queue s) as [|m q] eqn:E; cbn; rewrite ?E; [done|by rewrite <- app_assoc].
    - exists []. rewrite app_nil_r. by split; [|left].
    - exists []. rewrite app_nil_r. by split; [|left].
  Qed.
  (** a reply counts once, a body counts once *)
  Lemma flight_step s o i : (i < length (tp_flight s))%nat → waiting s i = None → (i < length (tp_flight (step s o).1))%nat ∧ waiting (step s o).1 i = None.
  Proof.
    intros Hl Hw. assert (Hreq : ∀ s' q x, tp_flight s' = tp_flight s → (i < length (tp_flight (request q x s')))%nat ∧ waiting (request q x s') i = None).
    { intros s' q x E. unfold waiting. cbn [request tp_flight]. rewrite E, app_length, lookup_app_l by done. split; [lia|exact Hw]. }
    assert (Hsame : ∀ s', tp_flight s' = tp_flight s → (i < length (tp_flight s'))%nat ∧ waiting s' i = None) by (intros s' E; unfold waiting; by rewrite E).
    assert (Hans : ∀ s' k, tp_flight s' = <[k := None]> (tp_flight s) → (i < length (tp_flight s'))%nat ∧ waiting s' i = None).
    { intros s' k E. unfold waiting. rewrite E, insert_length. split; [done|]. destruct (decide (i = k)) as [->|Hk]; [by rewrite list_lookup_insert|rewrite list_lookup_insert_ne by done; exact Hw]. }
    destruct o as [m token tok|token tok|tok|k r tok|n body| |v|v]; cbn [tp_step].
    - unfold begin_send, begin_get. destruct (abort_fields s) as (_ & _ & _ & _ & _ & E & _).
      destruct token; [destruct (build_request cf tok (abort_stream s))|destruct (build_request cf tok s)]; cbn [fst]; auto.
    - unfold begin_get. destruct (abort_fields s) as (_ & _ & _ & _ & _ & E & _). destruct (build_request cf tok (abort_stream s)); cbn [fst]; auto.
    - unfold begin_close. destruct (abort_fields s) as (_ & _ & _ & _ & _ & E & _). destruct (tp_session (abort_stream s)); [destruct (build_request cf tok (abort_stream s))|]; cbn [fst]; auto.
    - destruct (tp_flight s !! k) as [[[m|quiet|]|]|]; try (by apply Hsame).
      + apply (Hans _ k). destruct (end_send_spec cf m r tok (answered k s)) as (ms & x & -> & Hms). cbn [fst]. destruct r as [r|]; [|done]. rewrite process_headers_spec. by destruct (_ && _ && _).
      + apply (Hans _ k). unfold end_get. destruct r as [r|]; [|done]. destruct (_ =? _)%Z; [done|]. rewrite process_headers_spec. by destruct (is_success _).
      + by apply (Hans _ k).
    - apply Hsame. destruct (tp_streams s !! n) as [[]|] eqn:E; [|done|done]. destruct (take_body_spec body (close_stream n s)) as (ms & ids & ->). done.
    - apply Hsame. unfold receive. by destruct (tp_queue s).
    - by apply Hsame.
    - by apply Hsame.
  Qed.
  Lemma reply_once s i r tok x : waiting s i = Some x → (i < length (tp_flight (step s (TReply i r tok)).1))%nat ∧ waiting (step s (TReply i r tok)).1 i = None.
  Proof.
    intros Hw. assert (i < length (tp_flight s))%nat as Hl. { unfold waiting in Hw. apply lookup_lt_is_Some. by destruct (tp_flight s !! i). }
    assert (Hans : ∀ s', tp_flight s' = <[i := None]> (tp_flight s) → (i < length (tp_flight s'))%nat ∧ waiting s' i = None).
    { intros s' E. unfold waiting. rewrite E, insert_length. split; [done|]. by rewrite list_lookup_insert. }
    unfold waiting in Hw. cbn [tp_step]. destruct (tp_flight s !! i) as [[[m|quiet|]|]|]; try done; apply Hans.
    + destruct (end_send_spec cf m r tok (answered i s)) as (ms & y & -> & Hms). cbn [fst]. destruct r as [r|]; [|done]. rewrite process_headers_spec. by destruct (_ && _ && _).
    + unfold end_get. destruct r as [r|]; [|done]. destruct (_ =? _)%Z; [done|]. rewrite process_headers_spec. by destruct (is_success _).
    + done.
  Qed.
  Lemma stream_step s o n : (n < length (tp_streams s))%nat → ¬ reading s n → (n < length (tp_streams (step s o).1))%nat ∧ ¬ reading (step s o).1 n.
  Proof.
    intros Hl Hr. unfold reading in *. assert (Hsame : ∀ s', tp_streams s' = tp_streams s → (n < length (tp_streams s'))%nat ∧ ¬ tp_streams s' !! n = Some true) by (by intros s' ->).
    assert (Habort : ∀ s', tp_streams s' = tp_streams (abort_stream s) → (n < length (tp_streams s'))%nat ∧ ¬ tp_streams s' !! n = Some true).
    { intros s' E. destruct (abort_fields s) as (_ & _ & _ & _ & _ & _ & _ & _ & Ha & El). rewrite E, El. split; [done|]. intros H. auto. }
    assert (Hopen : ∀ k s', tp_streams s' = tp_streams s → (n < length (tp_streams (open_stream k s')))%nat ∧ ¬ tp_streams (open_stream k s') !! n = Some true).
    { intros k s' E. cbn [open_stream tp_streams]. rewrite E, app_length, lookup_app_l by done. split; [lia|done]. }
    destruct o as [m token tok|token tok|tok|k r tok|k body| |v|v]; cbn [tp_step].
    - unfold begin_send, begin_get. destruct token; [destruct (build_request cf tok (abort_stream s)); by apply Habort|destruct (build_request cf tok s); by apply Hsame].
    - unfold begin_get. destruct (build_request cf tok (abort_stream s)); by apply Habort.
    - unfold begin_close. destruct (tp_session (abort_stream s)); [destruct (build_request cf tok (abort_stream s))|]; by apply Habort.
    - destruct (tp_flight s !! k) as [[[m|quiet|]|]|]; try (by apply Hsame).
      + destruct (end_send_spec cf m r tok (answered k s)) as (ms & x & -> & Hms). cbn [fst]. destruct r as [r|]; [|by apply Hsame]. rewrite process_headers_spec. destruct (_ && _ && _); [by apply Hopen|by apply Hsame].
      + unfold end_get. destruct r as [r|]; [|by apply Hsame]. destruct (_ =? _)%Z; [by apply Hsame|]. rewrite process_headers_spec. destruct (is_success _); [by apply Hopen|by apply Hsame].
    - destruct (tp_streams s !! k) as [[]|] eqn:E; [|by apply Hsame|by apply Hsame]. destruct (take_body_spec body (close_stream k s)) as (ms & ids & ->). cbn [fst tp_streams close_stream].
      rewrite insert_length. split; [done|]. destruct (decide (n = k)) as [->|Hk]; [by rewrite list_lookup_insert|by rewrite list_lookup_insert_ne].
    - apply Hsame. unfold receive. by destruct (tp_queue s).
    - by apply Hsame.
    - by apply Hsame.
  Qed.
  Lemma body_once s n body : reading s n → (n < length (tp_streams (step s (TBody n body)).1))%nat ∧ ¬ reading (step s (TBody n body)).1 n.
  Proof.
    unfold reading. intros H. cbn [tp_step]. rewrite H. destruct (take_body_spec body (close_stream n s)) as (ms & ids & ->). cbn [fst tp_streams close_stream].
    apply lookup_lt_Some in H. rewrite insert_length. split; [done|]. by rewrite list_lookup_insert.
  Qed.
  Lemma json_arrives s i m0 r tok v ms : waiting s i = Some (XPost m0) → ok_status (rp_status r) → (∃ ct, rp_type r = Some ct ∧ mentions (lit "application/json") ct) →
    rp_body r = Some (to_bytes v) → storable v → Forall carried ms → (v = JArr (message_doc <$> ms) ∨ ∃ m, ms = [m] ∧ v = message_doc m ∧ ∀ l, v ≠ JArr l) →
    (step s (TReply i (Some r) tok)).2 = Some TOk ∧ tp_queue (step s (TReply i (Some r) tok)).1 = tp_queue s ++ ms.
  Proof.
    intros Hw Hs (ct & Ect & Hct) Hb Hv Hms Hd. unfold waiting in Hw. cbn [tp_step]. destruct (tp_flight s !! i) as [[[m|quiet|]|]|]; try done.
    unfold end_send. apply success_spec in Hs. rewrite Hs, Ect. cbn [default]. change (id ct) with ct. assert (contains application_json ct = true) as -> by (by apply contains_spec).
    rewrite Hb. cbn [mbind option_bind]. unfold json_messages. rewrite of_to_bytes by done. rewrite process_headers_spec.
    assert (match v with JArr l => mapM message_of_doc l | _ => (λ m, [m]) <$> message_of_doc v end = Some ms) as Hread; [|].
    { destruct Hd as [->|(m1 & -> & -> & Hn)].
      - apply mapM_Some. clear Hv Hb. induction Hms as [|m1 ms Hm _ IH]; [constructor|]. rewrite fmap_cons. constructor; [by apply sent_back|done].
      - pose proof (proj1 (Forall_singleton _ _) Hms) as Hm1. pose proof (sent_back m1 Hm1) as Hr. destruct (message_doc m1) eqn:E; try (by rewrite Hr). by destruct (Hn l). }
    rewrite Hread. done.
  Qed.
  Lemma stream_arrives s n es ol : reading s n → Forall writable es → Forall2 reads_as es ol →
    tp_queue (step s (TBody n (concat (display <$> es)))).1 = tp_queue s ++ omap id ol.
  Proof.
    unfold reading. intros H Hw Ho. cbn [tp_step]. rewrite H. cbn [fst]. unfold take_body. rewrite feed_body by done. cbn [fst].
    rewrite (take_events_reads _ _ ol); [done|]. by apply received_reads.
  Qed.
  Lemma stream_ids s n es : reading s n → Forall writable es →
    let ids := ids_of (received None es) in
    tp_tokens (step s (TBody n (concat (display <$> es)))).1 = tp_tokens s ++ ids ∧ tp_last (step s (TBody n (concat (display <$> es)))).1 = match last ids with Some i => Some i | None => tp_last s end.
  Proof.
    unfold reading. intros H Hw. cbn [tp_step]. rewrite H. cbn [fst]. unfold take_body. rewrite feed_body by done. destruct (take_events (received None es) (close_stream n s)) as [ms ->].
    cbn [tp_tokens tp_last close_stream]. split; [done|]. by destruct (last _).
  Qed.
  Lemma tokens_step s o : ∃ ids, tp_tokens (step s o).1 = tp_tokens s ++ ids ∧ tp_last (step s o).1 = match last ids with Some i => Some i | None => tp_last s end ∧ ((∀ n body, o ≠ TBody n body) → ids = []).
  Proof.
    destruct o as [m token tok|token tok|tok|k r tok|n body| |v|v]; cbn [tp_step]; [exists []; rewrite app_nil_r|exists []; rewrite app_nil_r|exists []; rewrite app_nil_r|exists []; rewrite app_nil_r| |exists []; rewrite app_nil_r|exists []; by rewrite app_nil_r|exists []; by rewrite app_nil_r].
    - unfold begin_send, begin_get. destruct (abort_fields s) as (_ & _ & E1 & _ & _ & _ & E2 & _).
      destruct token; [destruct (build_request cf tok (abort_stream s))|destruct (build_request cf tok s)]; done.
    - unfold begin_get. destruct (abort_fields s) as (_ & _ & E1 & _ & _ & _ & E2 & _). destruct (build_request cf tok (abort_stream s)); done.
    - unfold begin_close. destruct (abort_fields s) as (_ & _ & E1 & _ & _ & _ & E2 & _). destruct (tp_session (abort_stream s)); [destruct (build_request cf tok (abort_stream s))|]; done.
    - destruct (tp_flight s !! k) as [[[m|quiet|]|]|]; try done.
      + destruct (end_send_spec cf m r tok (answered k s)) as (ms & x & -> & Hms). cbn [fst]. destruct r as [r|]; [|done]. rewrite process_headers_spec. by destruct (_ && _ && _).
      + unfold end_get. destruct r as [r|]; [|done]. destruct (_ =? _)%Z; [done|]. rewrite process_headers_spec. by destruct (is_success _).
    - destruct (tp_streams s !! n) as [[]|] eqn:E; [|exists []; by rewrite app_nil_r|exists []; by rewrite app_nil_r]. destruct (take_body_spec body (close_stream n s)) as (ms & ids & ->).
      exists ids. split; [done|]. split; [|intros H; by destruct (H n body)]. cbn [fst tp_last close_stream]. by destruct (last ids).
    - unfold receive. by destruct (tp_queue s).
  Qed.
  Lemma last_token z os : tp_last (run z os) = last (tp_tokens (run z os)).
  Proof.
    induction os as [|o os IH] using rev_ind; [done|]. rewrite tp_run_snoc. destruct (tokens_step (run z os) o) as (ids & -> & -> & _).
    rewrite last_app. by destruct (last ids).
  Qed.
  Lemma no_get z os : Forall (λ o, ¬ asks_stream o) os → Forall (λ q, cr_verb q ≠ Get) (tp_sent (run z os)).
  Proof.
    induction os as [|o os IH] using rev_ind; [constructor|]. rewrite Forall_app, Forall_singleton. intros [Hos Ho]. rewrite tp_run_snoc.
    destruct (step_sent cf (run z os) o) as [->|(q & (tok & hs & _ & Hq) & ->)]; [auto|]. apply Forall_app. split; [auto|]. apply Forall_singleton.
    destruct o as [m [t|] tok'|token tok'|tok'|k r tok'|n body| |v|v]; try done; try (exfalso; apply Ho; exact I); [by rewrite Hq|]. by destruct Hq as [-> _].
  Qed.
End headers.
