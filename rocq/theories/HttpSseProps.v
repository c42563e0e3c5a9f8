(** C129-C133: the HTTP transport with an event stream. *)
From stdpp Require Import gmap sets list strings.
From Verif Require Import ListLib TextLib Utf8Lib JsonLib SerdeLib TypesModel RpcModel RpcSpec RpcProofs SseModel SseSpec SseProofs ServerModel HttpModel HttpClientModel
  HttpSseModel HttpSseSpec HttpSseProofs HttpSseProofs2 HttpSseProofs3.
Local Open Scope nat_scope.

(** ** C129: what arrives over the event stream is received exactly once and in order *)
(** In every history: what receive returned of a stream, what waits in the channel and what the stream's
    task holds are together the messages in the events of the chunks read, in order.  The same holds for
    the answers to requests.  So nothing is lost, duplicated or reordered by the transport itself. *)
Theorem C129_conserved : ∀ cf os, let s := ht_run cf ht_new os in let tr := ht_trace cf ht_new os in
  (∀ k t, ht_tasks s !! k = Some t → sk_state t ≠ SkPanicked →
     messages_in (lossy <$> chunks_of k tr) = Some (got_of (Some k) tr ++ queued_of (Some k) (ht_queue s) ++ sk_held t)) ∧
  got_of None tr ++ queued_of None (ht_queue s) = answers tr.
Proof. intros cf os s tr. split; [apply stream_received|apply answers_received]. Qed.
Print Assumptions C129_conserved.
(** When the server writes messages as events and no character is cut by the end of a chunk, the messages
    in the chunks are the messages written, however the text is divided. *)
Theorem C129_stream_partial : ∀ es ms texts,
  Forall writable es → Forall2 (λ e m, e_data e = show (message_json m) ∧ good_message m ∧ not_elicitation m ∧ storable (message_json m)) es ms →
  Forall (Forall scalar) texts → concat texts = concat (display <$> es) →
  messages_in (lossy <$> (utf8 <$> texts)) = Some (msg_seen_as <$> ms).
Proof.
  intros es ms texts Hw Hm Ht Hc. assert (lossy <$> (utf8 <$> texts) = texts) as ->.
  { clear Hc. induction Ht as [|t texts H _ IH]; [done|]. rewrite !fmap_cons, IH. by rewrite lossy_utf8. }
  unfold messages_in, parser0. rewrite (round_trip es texts None Hw Hc). f_equal. clear Hc Hw. generalize (@None (list N)).
  induction Hm as [|e m es ms (He & H1 & H2 & H3) _ IH]; intros lastid; [done|]. cbn [received omap list_omap]. rewrite fmap_cons.
  change (e_data (with_default_id lastid e)) with (e_data e). rewrite He. change (utf8 (show (message_json m))) with (serialize_message m).
  rewrite message_bytes by done. f_equal. apply IH.
Qed.
Print Assumptions C129_stream_partial.
(** What a chunk is read as, whatever its bytes: each character as itself, and U+FFFD for every longest
    piece that is part of a character or one stray byte. *)
Theorem C129_mended : ∀ bs t, Forall (λ b, b < 256)%N bs → (mended bs t ↔ t = lossy bs).
Proof. intros bs t Hb. split; [by apply mended_lossy|]. intros ->. by apply lossy_mended. Qed.
Print Assumptions C129_mended.
Example C129_mended_example : lossy [65; 237; 160; 128; 240; 159; 152; 66; 195]%N = [65; 65533; 65533; 65533; 65533; 66; 65533]%N.
Proof. by vm_compute. Qed.
(** False: each chunk is decoded by itself.  When the end of a chunk cuts a character, the event is received
    with two or more replacement characters in its place, for every character that can be cut, wherever it
    stands in the data. *)
Theorem C129_cut_refuted : ∀ c a b d1 d2,
  scalar c → a ≠ [] → b ≠ [] → a ++ b = utf8_char c → Forall scalar (d1 ++ d2) → no_break (d1 ++ d2) →
  let text d := lit "data: " ++ d ++ [LF; LF] in
  let chunks := [utf8 (lit "data: " ++ d1) ++ a; b ++ utf8 (d2 ++ [LF; LF])] in
  concat chunks = utf8 (text (d1 ++ [c] ++ d2)) ∧
  ∃ p q, feed_all parser0 (lossy <$> chunks) = Some (p, [MkSse None None (d1 ++ replicate (S (length b)) REPLACEMENT ++ d2) None]) ∧
         feed parser0 (text (d1 ++ [c] ++ d2)) = Some (q, [MkSse None None (d1 ++ [c] ++ d2) None]).
Proof.
  intros c a b d1 d2 Hc Ha Hb E Hs [Hl Hr] text chunks. apply Forall_app in Hs as [Hs1 Hs2].
  assert (Forall scalar (lit "data: ")) as Hd by (repeat constructor; vm_compute; done).
  assert (Forall scalar [LF; LF]) as He by (repeat constructor; vm_compute; done).
  assert (128 <= c)%N as Hc'. { unfold utf8_char in E. destruct (N.ltb_spec c 128); [|done]. destruct a as [|? [|? ?]]; destruct b; done. }
  assert (∀ d, d ≠ [] → LF ∉ d → CR ∉ d → ∃ q, feed parser0 (text d) = Some (q, [MkSse None None d None]) ∧ writable (MkSse None None d None) ∧ text d = display (MkSse None None d None)) as Hone.
  { intros d Hn Hlf Hcr. assert (text d = display (MkSse None None d None)) as Et.
    { unfold text, display. cbn [e_id e_event e_retry e_data]. rewrite lines_ok; [|done|done|].
      - rewrite split_on_no_sep by done. unfold field_line. cbn [fmap list_fmap concat app]. rewrite app_nil_r. rewrite <- !app_assoc. done.
      - intros Hx. apply last_Some in Hx as [l' ->]. apply Hlf. set_solver. }
    assert (writable (MkSse None None d None)) as Hw.
    { unfold writable. cbn. split; [done|]. split; [done|]. split; [done|]. split; [done|]. split; [done|]. split; [by destruct d; [done|]; cbn; intros [= ->]; apply Hlf; left|].
      intros Hx. apply last_Some in Hx as [l' ->]. apply Hlf. set_solver. }
    pose proof (round_trip [MkSse None None d None] [text d] None) as R. cbn [concat fmap list_fmap] in R. rewrite !app_nil_r, Et in R.
    specialize (R (Forall_cons_2 _ _ _ Hw (Forall_nil_2 _)) eq_refl). cbn [feed_all received] in R. unfold parser0. rewrite Et.
    destruct (feed (MkP [] builder0 None) _) as [[q es]|]; [|done]. rewrite app_nil_r in R. exists q. split; [|done]. injection R as _ ->. done. }
  split.
  { unfold chunks, text. cbn [concat]. rewrite app_nil_r. rewrite !utf8_app. rewrite <- !app_assoc. do 2 f_equal. change (utf8 [c]) with (utf8_char c ++ []). rewrite app_nil_r, <- E. by rewrite <- app_assoc. }
  assert (∀ x, x ∈ d1 ++ replicate (S (length b)) REPLACEMENT ++ d2 → x ∈ d1 ++ d2 ∨ x = REPLACEMENT) as Hin.
  { intros x. rewrite !elem_of_app, elem_of_replicate. naive_solver. }
  destruct (Hone (d1 ++ [c] ++ d2)) as (q & Hq & _ & _).
  { by destruct d1. } { rewrite !elem_of_app, elem_of_list_singleton. rewrite elem_of_app in Hl. intros [?|[?|?]]; [tauto| |tauto]. subst. unfold LF in Hc'. lia. }
  { rewrite !elem_of_app, elem_of_list_singleton. rewrite elem_of_app in Hr. intros [?|[?|?]]; [tauto| |tauto]. subst. unfold CR in Hc'. lia. }
  destruct (Hone (d1 ++ replicate (S (length b)) REPLACEMENT ++ d2)) as (_ & _ & Hw & Et).
  { by destruct d1. } { intros Hx. by destruct (Hin _ Hx). } { intros Hx. by destruct (Hin _ Hx). }
  eexists _, q. split; [|exact Hq].
  pose proof (round_trip [MkSse None None (d1 ++ replicate (S (length b)) REPLACEMENT ++ d2) None] (lossy <$> chunks) None (Forall_cons_2 _ _ _ Hw (Forall_nil_2 _))) as R.
  unfold parser0. rewrite R; [done|]. unfold chunks. cbn [fmap list_fmap concat]. rewrite !app_nil_r, <- Et.
  rewrite (lossy_cut c a b) by (try done; by apply Forall_app). unfold text. rewrite <- !app_assoc. done.
Qed.
Print Assumptions C129_cut_refuted.
(** An answer with "é" in it, cut there: it is received, with "??" for "é". *)
Definition said (t : list N) : message := MsgResponse (success (IdNum 1) (JStr t)).
Example C129_example :
  let bytes := utf8 (lit "data: ") ++ serialize_message (said [233%N]) ++ utf8 [LF; LF] in
  let cut := (length (utf8 (lit "data: {""jsonrpc"":""2.0"",""id"":1,""result"":""")) + 1) in
  utf8_char 233 = [195%N] ++ [169%N] ∧
  messages_in (lossy <$> [bytes]) = Some [said [233%N]] ∧
  messages_in (lossy <$> [take 9 bytes; drop 9 bytes]) = Some [said [233%N]] ∧
  messages_in (lossy <$> [take cut bytes; drop cut bytes]) = Some [said [REPLACEMENT; REPLACEMENT]].
Proof. by vm_compute. Qed.
Definition ce : hconf := MkHConf true [(lit "authorization", lit "Bearer x")].
Definition event_bytes (m : message) : list N := utf8 (lit "data: ") ++ serialize_message m ++ utf8 [LF; LF].
Definition ops1 : list htop := [HConnect (Some 200%Z); HStart 0; HFrame 0 (BfData (event_bytes (said [65%N]) ++ event_bytes (said [66%N]))); HSend (said [67%N]) (Some (200%Z, Some (serialize_message (said [68%N]))));
  HPut 0; HReceive; HReceive; HPut 0; HFrame 0 BfEnd].
Example C129_example_history : let s := ht_run ce ht_new ops1 in let tr := ht_trace ce ht_new ops1 in
  got_of (Some 0) tr = [said [65%N]] ∧ queued_of (Some 0) (ht_queue s) = [said [66%N]] ∧ got_of None tr = [said [68%N]] ∧ answers tr = [said [68%N]] ∧
  sk_state <$> (ht_tasks s !! 0) = Some SkEnded ∧ posted tr = [said [67%N]].
Proof. by vm_compute. Qed.

(** ** C130: send *)
(** A call of send makes one request, with the message as its body; the requests made are those of the calls,
    in order, none is repeated. *)
Theorem C130_posted : ∀ cf os, hq_body <$> posts (ht_made (ht_run cf ht_new os)) = serialize_message <$> posted (ht_trace cf ht_new os).
Proof. intros cf os. rewrite requests_made, <- list_fmap_compose. done. Qed.
Print Assumptions C130_posted.
(** It succeeds exactly if the reply's status is 200 and its body is a message, which is then queued for
    receive; otherwise nothing is queued.  (It waits if 100 messages are queued already, see C131.) *)
Theorem C130_result_partial : ∀ cf s m r, ht_call s = None → length (ht_queue s) < 100 →
  (∀ b x, r = Some (200%Z, Some b) → parse_message b = Some x →
     (ht_step cf s (HSend m r)).2 = HOk ∧ ht_queue (ht_step cf s (HSend m r)).1 = ht_queue s ++ [(None, x)]) ∧
  ((∀ b x, ¬ (r = Some (200%Z, Some b) ∧ parse_message b = Some x)) →
     (ht_step cf s (HSend m r)).2 = HErr ∧ ht_queue (ht_step cf s (HSend m r)).1 = ht_queue s).
Proof.
  intros cf s m r Hc Hl. cbn [ht_step]. rewrite Hc. split.
  - intros b x -> Hx. cbn [Z.eqb Pos.eqb mbind option_bind]. rewrite Hx. assert (room (make (post_request m) s) = true) as ->; [|done].
    unfold room. by apply Nat.ltb_lt.
  - intros H. destruct r as [[z b]|]; [|done]. destruct (Z.eqb_spec z 200) as [->|]; [|done]. destruct b as [b|]; [|done]. cbn [mbind option_bind].
    destruct (parse_message b) as [x|] eqn:E; [|done]. by destruct (H b x).
Qed.
Print Assumptions C130_result_partial.
(** False: a message that calls for no answer cannot be sent successfully to a server that gives none: neither
    with "202 Accepted" nor with an empty body, nor with any status but 200. *)
Theorem C130_accepted_refuted : ∀ cf s m z b, ht_call s = None → z ≠ 200%Z ∨ b = [] →
  (ht_step cf s (HSend m (Some (z, Some b)))).2 = HErr.
Proof.
  intros cf s m z b Hc H. cbn [ht_step]. rewrite Hc. destruct (Z.eqb_spec z 200) as [->|]; [|done]. destruct H as [?| ->]; [done|].
  cbn [mbind option_bind]. assert (parse_message [] = None) as -> by by vm_compute. done.
Qed.
Print Assumptions C130_accepted_refuted.

(** ** C131: send returns when the server has answered *)
(** It does while fewer than 100 messages wait to be received. *)
Theorem C131_returns_partial : ∀ cf s m r, ht_call s = None → length (ht_queue s) < 100 →
  (ht_step cf s (HSend m r)).2 ≠ HWaits ∧ ht_call (ht_step cf s (HSend m r)).1 = None.
Proof.
  intros cf s m r Hc Hl. cbn [ht_step]. rewrite Hc. destruct r as [[z b]|]; [|done]. destruct (z =? 200)%Z; [|done].
  destruct (b ≫= parse_message); [|done]. assert (room (make (post_request m) s) = true) as ->; [|done]. unfold room. by apply Nat.ltb_lt.
Qed.
Print Assumptions C131_returns_partial.
(** False: with 100 messages queued, send waits for someone to receive one, which nobody can do while send
    has the transport for itself.  Unless its caller gives up, it never returns: whatever else happens, no
    receive and no close is possible and the channel stays as it is. *)
Theorem C131_stuck_refuted : ∀ cf s m b x os, ht_call s = None → length (ht_queue s) = 100 → parse_message b = Some x → HDrop ∉ os →
  (ht_step cf s (HSend m (Some (200%Z, Some b)))).2 = HWaits ∧
  let s' := ht_run cf s (HSend m (Some (200%Z, Some b)) :: os) in
  ht_call s' = Some x ∧ ht_queue s' = ht_queue s ∧
  (∀ s1 r, (s1, HReceive, r) ∈ ht_trace cf (ht_step cf s (HSend m (Some (200%Z, Some b)))).1 os → r = HBusy) ∧
  (∀ s1 r, (s1, HRetry, r) ∈ ht_trace cf (ht_step cf s (HSend m (Some (200%Z, Some b)))).1 os → r = HWaits).
Proof.
  intros cf s m b x os Hc Hl Hx Hd.
  assert (ht_step cf s (HSend m (Some (200%Z, Some b))) = (set_call (Some x) (make (post_request m) s), HWaits)) as E.
  { cbn [ht_step Z.eqb Pos.eqb mbind option_bind]. rewrite Hc, Hx. assert (room (make (post_request m) s) = false) as ->; [|done]. unfold room. apply Nat.ltb_ge. cbn. lia. }
  split; [by rewrite E|]. cbn zeta. unfold ht_run. cbn [foldl]. rewrite E. cbn [fst]. set (s0 := set_call _ _).
  assert (ht_call s0 = Some x) as H0 by done. assert (ht_queue s0 = ht_queue s) as Hq by done. clearbody s0. clear E Hc. revert s0 H0 Hq.
  induction os as [|o os IH]; intros s0 H0 Hq; [split; [done|]; split; [done|]; split; intros ? ? Hn; by apply elem_of_nil in Hn|].
  apply not_elem_of_cons in Hd as [Ho Hd]. assert (room s0 = false) as Hr. { unfold room. rewrite Hq. apply Nat.ltb_ge. lia. }
  assert (ht_call (ht_step cf s0 o).1 = Some x ∧ ht_queue (ht_step cf s0 o).1 = ht_queue s) as [H1 H2].
  { destruct o as [r|m' r| | | | |j|j f|j]; cbn [ht_step]; rewrite ?H0, ?Hr; try done.
    - by destruct (ht_tasks s0 !! j) as [[[] ? ?]|].
    - destruct (ht_tasks s0 !! j) as [[[] p [|? ?]]|]; try done. destruct f as [bs| | |]; try done. by destruct (feed p (lossy bs)) as [[? ?]|].
    - destruct (ht_tasks s0 !! j) as [[? ? [|? ?]]|]; done. }
  destruct (IH Hd _ H1 H2) as (I1 & I2 & I3 & I4). cbn [foldl ht_trace]. split; [done|]. split; [done|]. split; intros s1 r; rewrite elem_of_cons; intros [Hh|Hh]; try by eauto.
  - injection Hh as -> <- ->. cbn [ht_step]. by rewrite H0.
  - injection Hh as -> <- ->. cbn [ht_step]. by rewrite H0, Hr.
Qed.
Print Assumptions C131_stuck_refuted.
(** A hundred answered calls of send without a receive lead there. *)
Definition ping_op : htop := HSend (said [65%N]) (Some (200%Z, Some (serialize_message (said [66%N])))).
Example C131_example : let s := ht_run ce ht_new (replicate 100 ping_op) in
  ht_call s = None ∧ length (ht_queue s) = 100 ∧ parse_message (serialize_message (said [66%N])) = Some (said [66%N]).
Proof. by vm_compute. Qed.

(** ** C132: is_connected and close *)
(** Without an event stream: is_connected is true exactly when connect_sse was called and close has not been
    called since. *)
Theorem C132_simple_partial : ∀ cf os, hf_sse cf = false → Forall (λ o, match o with HConnect _ | HSend _ (Some (_, None)) | HSend _ None | HReceive | HClose => True | _ => False end) os →
  ht_is_connected (ht_run cf ht_new os) = true ↔ ∃ os1 r os2, os = os1 ++ HConnect r :: os2 ∧ HClose ∉ os2.
Proof.
  intros cf os Hf. induction os as [|o os IH] using rev_ind; intros Ho.
  { split; [done|]. intros (os1 & r & os2 & E & _). by destruct os1. }
  apply Forall_app in Ho as [Ho1 Ho2]. apply Forall_cons in Ho2 as [Ho2 _]. specialize (IH Ho1). rewrite ht_run_snoc.
  assert (ht_call (ht_run cf ht_new os) = None) as Hc.
  { clear IH Ho2. induction os as [|o' os IH] using rev_ind; [done|]. apply Forall_app in Ho1 as [Ho1 Ho3]. apply Forall_cons in Ho3 as [Ho3 _]. specialize (IH Ho1).
    rewrite ht_run_snoc. destruct o' as [r|m' r| | | | |j|j f|j]; try done; cbn [ht_step]; rewrite ?IH, ?Hf; try done.
    - destruct r as [[z [?|]]|]; [done| |done]. by destruct (z =? 200)%Z.
    - by destruct (ht_queue _) as [|[? ?] ?]. }
  assert (∀ P : Prop, (∃ os1 r os2, os ++ [o] = os1 ++ HConnect r :: os2 ∧ HClose ∉ os2) ↔
    (∃ r, o = HConnect r) ∨ (o ≠ HClose ∧ ∃ os1 r os2, os = os1 ++ HConnect r :: os2 ∧ HClose ∉ os2)) as Hsnoc.
  { intros _. split.
    - intros (os1 & r & os2 & E & Hn). destruct os2 as [|y os2 _] using rev_ind.
      + apply app_inj_tail in E as [-> ->]. left. by eexists.
      + rewrite app_comm_cons, app_assoc in E. apply app_inj_tail in E as [-> ->]. apply not_elem_of_app in Hn as [Hn1 Hn2]. right. split; [set_solver|]. by eauto.
    - intros [[r ->]|[Hn (os1 & r & os2 & -> & Hn2)]].
      + exists os, r, []. split; [done|]. apply not_elem_of_nil.
      + exists os1, r, (os2 ++ [o]). split; [by rewrite <- app_assoc|]. apply not_elem_of_app. split; [done|]. by rewrite elem_of_list_singleton. }
  rewrite (Hsnoc True). clear Hsnoc. destruct o as [r|m' r| | | | |j|j f|j]; try done; cbn [ht_step]; rewrite ?Hc, ?Hf.
  - cbn. split; [intros _; left; by eexists|done].
  - assert (ht_is_connected (match r with Some (z, body) => if (z =? 200)%Z then match body ≫= parse_message with Some x => if room (make (post_request m') (ht_run cf ht_new os)) then (enqueue None x (make (post_request m') (ht_run cf ht_new os)), HOk) else (set_call (Some x) (make (post_request m') (ht_run cf ht_new os)), HWaits) | None => (make (post_request m') (ht_run cf ht_new os), HErr) end else (make (post_request m') (ht_run cf ht_new os), HErr) | None => (make (post_request m') (ht_run cf ht_new os), HErr) end).1
      = ht_is_connected (ht_run cf ht_new os)) as ->. { destruct r as [[z [?|]]|]; [done| |done]. by destruct (z =? 200)%Z. }
    rewrite IH. split; [intros ?; right; by split|intros [[? ?]|[_ ?]]; done].
  - assert (ht_is_connected (match ht_queue (ht_run cf ht_new os) with [] => (ht_run cf ht_new os, HWaits) | (_, m0) :: q => (MkHT (ht_connected (ht_run cf ht_new os)) q (ht_tasks (ht_run cf ht_new os)) None (ht_made (ht_run cf ht_new os)), HGot m0) end).1 = ht_is_connected (ht_run cf ht_new os)) as ->.
    { by destruct (ht_queue _) as [|[? ?] ?]. }
    rewrite IH. split; [intros ?; right; by split|intros [[? ?]|[_ ?]]; done].
  - cbn. split; [done|]. intros [[? ?]|[? _]]; done.
Qed.
Print Assumptions C132_simple_partial.
(** False with an event stream.  The task that reads it sets the flag when it first runs and resets it at its
    end: so a successful connect_sse leaves is_connected false; close before the task runs is undone by
    it; and the end of an old stream makes is_connected false although a newer one is read. *)
Theorem C132_flag_refuted :
  (∀ cf s z, hf_sse cf = true → ht_call s = None → (ht_step cf s (HConnect z)).2 = HOk → ht_is_connected (ht_step cf s (HConnect z)).1 = ht_is_connected s) ∧
  (∀ cf s k p h, ht_call s = None → ht_tasks s !! k = Some (MkSk SkNew p h) → ht_is_connected (ht_run cf s [HClose; HStart k]) = true) ∧
  (∀ cf s j k p q h, ht_tasks s !! j = Some (MkSk SkRuns p []) → ht_tasks s !! k = Some (MkSk SkRuns q h) → j ≠ k →
     let s' := (ht_step cf s (HFrame j BfEnd)).1 in ht_is_connected s' = false ∧ ht_tasks s' !! k = Some (MkSk SkRuns q h)).
Proof.
  split; [|split].
  - intros cf s z Hf Hc. cbn [ht_step]. rewrite Hc, Hf. destruct z as [z|]; [|done]. by destruct (z =? 200)%Z.
  - intros cf s k p h Hc Hk. unfold ht_run. cbn [foldl ht_step]. rewrite Hc. cbn [fst set_connected ht_tasks]. rewrite Hk. done.
  - intros cf s j k p q h Hj Hk Hn. cbn [ht_step]. rewrite Hj. cbn. split; [done|]. by rewrite list_lookup_insert_ne.
Qed.
Print Assumptions C132_flag_refuted.
(** False: close does not end anything.  A stream is read on as before, and its messages still reach receive. *)
Theorem C132_close_refuted : ∀ cf s k p bs p' es m ms, ht_call s = None → ht_queue s = [] → ht_tasks s !! k = Some (MkSk SkRuns p []) →
  feed p (lossy bs) = Some (p', es) → events_messages es = m :: ms →
  ((λ x, x.2) <$> ht_trace cf s [HClose; HFrame k (BfData bs); HPut k; HReceive]) = [HOk; HOk; HOk; HGot m].
Proof.
  intros cf s k p bs p' es m ms Hc Hq Hk Hf He. pose proof (lookup_lt_Some _ _ _ Hk) as Hlt.
  cbn [ht_trace fmap list_fmap snd]. assert (ht_step cf s HClose = (set_connected false s, HOk)) as -> by (cbn; by rewrite Hc). cbn [fst snd].
  assert (ht_step cf (set_connected false s) (HFrame k (BfData bs)) = (set_task k (MkSk SkRuns p' (m :: ms)) (set_connected false s), HOk)) as ->.
  { cbn [ht_step set_connected ht_tasks]. rewrite Hk, Hf, He. done. }
  cbn [fst snd]. assert (ht_step cf (set_task k (MkSk SkRuns p' (m :: ms)) (set_connected false s)) (HPut k) =
    (enqueue (Some k) m (set_task k (MkSk SkRuns p' ms) (set_task k (MkSk SkRuns p' (m :: ms)) (set_connected false s))), HOk)) as ->.
  { cbn [ht_step]. change (ht_tasks (set_task k (MkSk SkRuns p' (m :: ms)) (set_connected false s))) with (<[k := MkSk SkRuns p' (m :: ms)]> (ht_tasks s)).
    rewrite list_lookup_insert by done. unfold room. cbn. rewrite Hq. done. }
  cbn [fst snd]. f_equal. f_equal. f_equal. f_equal. cbn. rewrite Hc, Hq. done.
Qed.
Print Assumptions C132_close_refuted.
(** False: receive does not fail when nothing can arrive any more.  After close, and with all streams at their
    end, it waits for ever. *)
Theorem C132_receive_refuted : ∀ cf s n, ht_call s = None → ht_queue s = [] →
  Forall (λ t, sk_state t = SkEnded ∧ sk_held t = []) (ht_tasks s) →
  (λ x, x.2) <$> ht_trace cf s (HClose :: replicate n HReceive) = HOk :: replicate n HWaits.
Proof.
  intros cf s n Hc Hq _. cbn [ht_trace fmap list_fmap snd]. assert (ht_step cf s HClose = (set_connected false s, HOk)) as -> by (cbn; by rewrite Hc). cbn [fst snd]. f_equal.
  induction n as [|n IH]; [done|]. cbn [replicate ht_trace fmap list_fmap snd]. assert (ht_step cf (set_connected false s) HReceive = (set_connected false s, HWaits)) as ->; [|cbn [fst snd]; f_equal; exact IH].
  cbn. by rewrite Hc, Hq.
Qed.
Print Assumptions C132_receive_refuted.
Example C132_example : let s := ht_run ce ht_new [HConnect (Some 200%Z); HConnect (Some 200%Z); HStart 0; HStart 1] in
  ht_call s = None ∧ ht_is_connected s = true ∧ ht_queue s = [] ∧ ht_tasks s !! 0 = Some (MkSk SkRuns parser0 []) ∧ ht_tasks s !! 1 = Some (MkSk SkRuns parser0 []) ∧
  ht_tasks (ht_run ce ht_new [HConnect (Some 200%Z)]) !! 0 = Some (MkSk SkNew parser0 []) ∧
  (events_messages ∘ snd) <$> feed parser0 (lossy (event_bytes (said [65%N]))) = Some [said [65%N]].
Proof. by vm_compute. Qed.

(** ** C133: requests carry the configured headers and are understood by the SDK's own server *)
(** False: every request ever made has one of two fixed sets of headers; the configured ones (say, credentials)
    are never sent. *)
Theorem C133_headers_refuted : ∀ cf os q, q ∈ ht_made (ht_run cf ht_new os) → hq_headers q = hq_headers get_request ∨ ∃ m, hq_headers q = hq_headers (post_request m).
Proof.
  intros cf os. induction os as [|o os IH] using rev_ind; intros q; [intros H; by apply elem_of_nil in H|]. rewrite ht_run_snoc.
  set (s := ht_run cf ht_new os) in *. clearbody s.
  assert (∃ l, ht_made (ht_step cf s o).1 = ht_made s ++ l ∧ Forall (λ q, hq_headers q = hq_headers get_request ∨ ∃ m, hq_headers q = hq_headers (post_request m)) l) as (l & -> & Hl).
  { assert (∀ s', ht_made s' = ht_made s → ∃ l, ht_made s' = ht_made s ++ l ∧ Forall (λ q, hq_headers q = hq_headers get_request ∨ ∃ m, hq_headers q = hq_headers (post_request m)) l) as H0.
    { intros s' ->. exists []. by rewrite app_nil_r. }
    destruct o as [r|m r| | | | |j|j f|j]; cbn [ht_step].
    - destruct (ht_call s); [by apply H0|]. destruct (hf_sse cf); [|by apply H0]. exists [get_request]. split; [destruct r as [z|]; [by destruct (z =? 200)%Z|done]|]. constructor; [by left|done].
    - destruct (ht_call s); [by apply H0|]. exists [post_request m]. split; [|constructor; [right; by exists m|done]]. destruct r as [[z b]|]; [|done]. destruct (z =? 200)%Z; [|done].
      destruct (b ≫= parse_message); [|done]. by destruct (room _).
    - destruct (ht_call s); [|by apply H0]. destruct (room s); by apply H0.
    - by apply H0.
    - destruct (ht_call s); [by apply H0|]. destruct (ht_queue s) as [|[? ?] ?]; by apply H0.
    - destruct (ht_call s); by apply H0.
    - destruct (ht_tasks s !! j) as [[[] ? ?]|]; by apply H0.
    - destruct (ht_tasks s !! j) as [[[] p [|? ?]]|]; destruct f as [bs| | |]; try by apply H0. destruct (feed p (lossy bs)) as [[? ?]|]; by apply H0.
    - destruct (ht_tasks s !! j) as [[? ? [|? ?]]|]; try by apply H0. destruct (room s); by apply H0. }
  rewrite elem_of_app. intros [?|Hq]; [by apply IH|]. rewrite Forall_forall in Hl. by apply Hl.
Qed.
Print Assumptions C133_headers_refuted.
(** False: the streamable HTTP server of this SDK refuses every request send makes, for want of an Accept
    header, whatever the message, the session and the configuration; so send to it always fails. *)
Theorem C133_server_refuted : ∀ cf hcf answer s t m fresh,
  let q := post_request m in
  post_start hcf (seen_headers (hq_headers q)) (of_bytes (hq_body q) ≫= message_of_doc) fresh s = (s, Some (refuse 406)) ∧
  (h_step hcf answer s (HPost (seen_headers (hq_headers q)) (of_bytes (hq_body q) ≫= message_of_doc) fresh)).2 = Some (refuse 406) ∧
  (ht_call t = None → ∀ b, (ht_step cf t (HSend m (Some (hr_status (refuse 406), b)))).2 = HErr).
Proof.
  intros cf hcf answer s t m fresh q. assert (∀ b, post_start hcf (seen_headers (hq_headers q)) b fresh s = (s, Some (refuse 406))) as H.
  { intros b. unfold post_start. assert (validate_headers (seen_headers (hq_headers q)) Post = Some 406%Z) as -> by by vm_compute. done. }
  split; [apply H|]. split; [cbn [h_step]; by rewrite H|]. intros Hc b. cbn [ht_step]. rewrite Hc. done.
Qed.
Print Assumptions C133_server_refuted.
(** The event stream it can open: the GET request is acceptable. *)
Theorem C133_stream_partial : validate_headers (seen_headers (hq_headers get_request)) Get = None.
Proof. by vm_compute. Qed.
Print Assumptions C133_stream_partial.
