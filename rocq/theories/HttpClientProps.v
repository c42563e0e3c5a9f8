(** Properties of the streamable HTTP client. *)
From stdpp Require Import strings list sets gmap.
From Verif Require Import ListLib TextLib Utf8Lib JsonLib SerdeLib TypesModel RpcModel RpcSpec SseModel SseSpec HttpModel HttpSpec HttpProofs HttpClientModel HttpClientSpec HttpClientProofs HttpClientProofs2 HttpClientProofs3 HttpClientProofs4.

(** ** C115: messages in replies are received *)
(** The messages of a JSON reply, one or an array, are queued in their order and the call succeeds. *)
Theorem C115_json : ∀ cf s i m0 r tok v ms, waiting s i = Some (XPost m0) → ok_status (rp_status r) → (∃ ct, rp_type r = Some ct ∧ mentions (lit "application/json") ct) →
  rp_body r = Some (to_bytes v) → storable v → Forall carried ms → (v = JArr (message_doc <$> ms) ∨ ∃ m, ms = [m] ∧ v = message_doc m ∧ ∀ l, v ≠ JArr l) →
  (tp_step cf s (TReply i (Some r) tok)).2 = Some TOk ∧ tp_queue (tp_step cf s (TReply i (Some r) tok)).1 = tp_queue s ++ ms.
Proof. exact json_arrives. Qed.
Print Assumptions C115_json.
(** Of an event stream that has ended, exactly the messages are queued, in their order. *)
Theorem C115_stream_partial : ∀ cf s n es ol, reading s n → Forall writable es → Forall2 reads_as es ol →
  tp_queue (tp_step cf s (TBody n (concat (display <$> es)))).1 = tp_queue s ++ omap id ol.
Proof. exact stream_arrives. Qed.
Print Assumptions C115_stream_partial.
(** Receive returns the queue's messages in order, each once, and waits when there is none. *)
Theorem C115_received : ∀ cf s, match tp_queue s with
  | [] => tp_step cf s TReceive = (s, None)
  | m :: q => (tp_step cf s TReceive).2 = Some (TMsg m) ∧ tp_queue (tp_step cf s TReceive).1 = q ∧ tp_got (tp_step cf s TReceive).1 = tp_got s ++ [m]
  end.
Proof. intros cf s. cbn [tp_step]. unfold receive. by destruct (tp_queue s) as [|m q]. Qed.
Print Assumptions C115_received.
(** Nothing is lost, repeated or invented: what was received, followed by what is queued, only grows, and
    only when a stream being read ends or a JSON reply to a waiting post comes in. *)
Theorem C115_conserved : ∀ cf s o, ∃ ms, tp_got (tp_step cf s o).1 ++ tp_queue (tp_step cf s o).1 = (tp_got s ++ tp_queue s) ++ ms ∧
  (ms = [] ∨ (∃ n body, o = TBody n body ∧ reading s n) ∨
   (∃ i m r tok, o = TReply i (Some r) tok ∧ waiting s i = Some (XPost m) ∧ ok_status (rp_status r) ∧ ∃ ct, rp_type r = Some ct ∧ mentions (lit "application/json") ct)).
Proof. exact step_messages. Qed.
Print Assumptions C115_conserved.
(** A reply counts once and a stream's body counts once, whatever happens later. *)
Theorem C115_once : ∀ cf z os os' o, let s := tp_run cf z os in let s' := tp_run cf z (os ++ [o] ++ os') in
  (∀ i r tok x, o = TReply i r tok → waiting s i = Some x → waiting s' i = None) ∧ (∀ n body, o = TBody n body → reading s n → ¬ reading s' n).
Proof.
  intros cf z os os' o. cbn zeta. rewrite app_assoc. split.
  - intros i r tok x -> Hw. assert ((i < length (tp_flight (tp_run cf z ((os ++ [TReply i r tok]) ++ os'))))%nat ∧ waiting (tp_run cf z ((os ++ [TReply i r tok]) ++ os')) i = None) as [_ H]; [|done].
    induction os' as [|o os' IH] using rev_ind; [rewrite app_nil_r, tp_run_snoc; by eapply reply_once|]. rewrite app_assoc, tp_run_snoc. destruct IH. by apply flight_step.
  - intros n body -> Hr. assert ((n < length (tp_streams (tp_run cf z ((os ++ [TBody n body]) ++ os'))))%nat ∧ ¬ reading (tp_run cf z ((os ++ [TBody n body]) ++ os')) n) as [_ H]; [|done].
    induction os' as [|o os' IH] using rev_ind; [rewrite app_nil_r, tp_run_snoc; by apply body_once|]. rewrite app_assoc, tp_run_snoc. destruct IH. by apply stream_step.
Qed.
Print Assumptions C115_once.
(** Refuted: if one entry of an array is not a message, none of them is received. *)
Theorem C115_array_refuted : ∀ cf s i m0 r tok l x, waiting s i = Some (XPost m0) → ok_status (rp_status r) → (∃ ct, rp_type r = Some ct ∧ mentions (lit "application/json") ct) →
  rp_body r = Some (to_bytes (JArr l)) → storable (JArr l) → x ∈ l → message_of_doc x = None →
  (tp_step cf s (TReply i (Some r) tok)).2 = Some TErr ∧ tp_queue (tp_step cf s (TReply i (Some r) tok)).1 = tp_queue s.
Proof.
  intros cf s i m0 r tok l x Hw Hs (ct & Ect & Hct) Hb Hv Hx Hn. unfold waiting in Hw. cbn [tp_step]. destruct (tp_flight s !! i) as [[[m|quiet|]|]|]; try done.
  unfold end_send. apply success_spec in Hs. rewrite Hs, Ect. cbn [default]. change (id ct) with ct. assert (contains application_json ct = true) as -> by (by apply contains_spec).
  rewrite Hb. cbn [mbind option_bind]. unfold json_messages. rewrite of_to_bytes by done. rewrite process_headers_spec.
  destruct (mapM message_of_doc l) as [ms|] eqn:E; [|done]. exfalso. apply mapM_Some in E. apply elem_of_list_lookup in Hx as [k Hk].
  destruct (Forall2_lookup_l _ _ _ _ _ E Hk) as (y & _ & Hy). congruence.
Qed.
Print Assumptions C115_array_refuted.
(** Refuted: opening a stream again throws away what the server has written to the one being read. *)
Theorem C115_restart_refuted : ∀ cf s h token tok, tp_handle s = Some h → reading s h →
  let s' := (tp_step cf s (TStart token tok)).1 in ∀ os body, let s2 := fold_left (λ s o, (tp_step cf s o).1) os s' in tp_step cf s2 (TBody h body) = (s2, None).
Proof.
  intros cf s h token tok Hh Hr. cbn zeta. intros os body.
  assert ((h < length (tp_streams (tp_step cf s (TStart token tok)).1))%nat ∧ ¬ reading (tp_step cf s (TStart token tok)).1 h) as H0.
  { cbn [tp_step]. unfold begin_get. assert ((h < length (tp_streams (abort_stream s)))%nat ∧ ¬ tp_streams (abort_stream s) !! h = Some true) as Ha.
    { unfold reading in Hr. apply lookup_lt_Some in Hr. unfold abort_stream. rewrite Hh. cbn [close_stream tp_streams]. rewrite insert_length. split; [done|]. by rewrite list_lookup_insert. }
    by destruct (build_request cf tok (abort_stream s)). }
  set (s' := (tp_step cf s (TStart token tok)).1) in *. clearbody s'.
  assert (¬ reading (fold_left (λ s o, (tp_step cf s o).1) os s') h) as Hn.
  { revert s' H0. induction os as [|o os IH]; intros s' H0; [by destruct H0|]. cbn [fold_left]. apply IH. destruct H0. by apply stream_step. }
  set (s2 := fold_left _ os s') in *. clearbody s2. cbn [tp_step]. unfold reading in Hn. by destruct (tp_streams s2 !! h) as [[]|].
Qed.
Print Assumptions C115_restart_refuted.
Definition ccf : tconfig := MkTConfig [] false.
Definition jhdr (sid ver : option text) : headers := MkHeaders (Some (lit "application/json")) (Some (lit "application/json, text/event-stream")) sid ver None.
Definition ghdr (sid last : option text) : headers := MkHeaders None (Some (lit "text/event-stream")) sid None last.
Definition cping (i : Z) : message := MsgRequest (IdNum i) (RClient CPing JNull).
Definition crep (i : Z) : message := MsgResponse (success (IdNum i) (JObj [])).
Example C115_example :
  sendable (crep 1) ∧ reads_as (event_for (lit "7") (crep 1)) (Some (crep 1)) ∧ writable (event_for (lit "7") (crep 1)) ∧ reads_as (MkSse None (Some (lit "ping")) (lit "x") None) None ∧
  let s := tp_run ccf None [TSend (cping 1) None None; TReply 0 (Some (MkReply 200 None None (Some (lit "text/event-stream")) (Some []))) None] in reading s 0 ∧
  tp_got (tp_run ccf None [TSend (cping 1) None None; TSend (cping 2) None None; TReply 1 (Some (MkReply 200 None None (Some (lit "application/json; charset=utf-8")) (Some (to_bytes (JArr (message_doc <$> [crep 2; crep 3])))))) None;
    TReply 0 (Some (MkReply 200 None None (Some (lit "text/event-stream")) (Some []))) None; TReceive; TBody 0 (display (event_for (lit "7") (crep 1)) ++ display (MkSse None (Some (lit "ping")) (lit "x") None)); TReceive; TReceive; TReceive]) = [crep 2; crep 3; crep 1].
Proof.
  assert (sendable (crep 1)) as Hs. { split; [split; [split; by vm_compute|done]|]. apply storable_check; [by vm_compute|vm_compute; lia]. }
  destruct (event_says (lit "7") (crep 1) Hs) as [H1 H2]; [by apply (bool_decide_unpack _); vm_compute|by apply (bool_decide_unpack _); vm_compute|].
  split; [exact Hs|]. split; [exact H2|]. split; [exact H1|]. split; [|split; by vm_compute].
  exists (lit "ping"). split; [done|by apply (bool_decide_unpack _); vm_compute].
Qed.

(** ** C116: requests carry the session and the version *)
(** Every request carries the session id and the version set last: by the caller, by a reply's header, or
    none after the session was deleted. *)
Theorem C116_carried_partial : ∀ cf z os o, no_clash cf → let s := tp_run cf z os in let tr := trace cf (transport_new z) os in
  tp_sent (tp_step cf s o).1 = tp_sent s ∨
  ∃ q, tp_sent (tp_step cf s o).1 = tp_sent s ++ [q] ∧ latest sets_session z tr (first_header SESSION (cr_headers q)) ∧ latest sets_version None tr (first_header VERSION (cr_headers q)).
Proof.
  intros cf z os o Hc. cbn zeta. destruct (step_sent cf (tp_run cf z os) o) as [E|(q & Hq & E)]; [by left|right]. exists q. split; [done|].
  destruct (sent_headers cf o (tp_run cf z os) q Hc Hq) as (-> & -> & _). split; [apply session_latest|apply version_latest].
Qed.
Print Assumptions C116_carried_partial.
(** Closing deletes the session: with a session id the request is a DELETE, without one there is none. *)
Theorem C116_closed : ∀ cf s tok, authorized cf tok → 
  match tp_session s with
  | None => tp_sent (tp_step cf s (TClose tok)).1 = tp_sent s ∧ (tp_step cf s (TClose tok)).2 = Some TOk
  | Some _ => ∃ q, tp_sent (tp_step cf s (TClose tok)).1 = tp_sent s ++ [q] ∧ cr_verb q = Delete ∧ waiting (tp_step cf s (TClose tok)).1 (length (tp_flight s)) = Some XDelete ∧
      ∀ r tok', tp_session (tp_step cf (tp_step cf s (TClose tok)).1 (TReply (length (tp_flight s)) r tok')).1 = None
  end.
Proof.
  intros cf s tok Ha. destruct (abort_fields s) as (E1 & _ & _ & _ & _ & E6 & _ & E8 & _). destruct (tp_session s) as [v|] eqn:Ev.
  - cbn [tp_step]. unfold begin_close. rewrite E1, build_request_abort. destruct (build_request cf tok s) as [hs|] eqn:Eb.
    + exists (MkRequest Delete hs None). cbn [fst request tp_sent tp_flight]. rewrite E8. split; [done|]. split; [done|]. unfold waiting. cbn [request tp_flight]. rewrite ?E6.
      split; [by rewrite lookup_app_r, Nat.sub_diag|]. intros r tok'. rewrite ?E6. by rewrite lookup_app_r, Nat.sub_diag.
    + exfalso. unfold build_request in Eb. unfold authorized in Ha. destruct (tc_auth cf); [|done]. destruct Ha as [t ->]; done.
  - cbn [tp_step]. unfold begin_close. rewrite E1. by split.
Qed.
Print Assumptions C116_closed.
(** Refuted: an extra header of the same name hides the session id in every request. *)
Theorem C116_extra_refuted : ∀ cf z os v, first_header SESSION (tc_extra cf) = Some v → Forall (λ q, first_header SESSION (cr_headers q) = Some v) (tp_sent (tp_run cf z os)).
Proof.
  intros cf z os v Hv. induction os as [|o os IH] using rev_ind; [constructor|]. rewrite tp_run_snoc.
  destruct (step_sent cf (tp_run cf z os) o) as [->|(q & (tok & hs & Eb & Hq) & ->)]; [done|]. apply Forall_app. split; [done|]. apply Forall_singleton.
  assert (first_header SESSION hs = Some v) as Eh. { rewrite (base_headers cf tok _ hs SESSION Eb); [by rewrite Hv|by apply (bool_decide_unpack _); vm_compute]. }
  assert (∀ l, first_header SESSION (hs ++ l) = Some v) as HA by (intros l; by rewrite first_header_app, Eh).
  destruct o as [m [t|] tok'|token tok'|tok'|k r tok'|n body| |w|w]; try done; try (rewrite Hq; apply HA). by destruct Hq as [-> _].
Qed.
Print Assumptions C116_extra_refuted.
(** Refuted: a session the server no longer knows is kept.  After a 404 every later request still carries
    it, until the caller sets another one or closes; and initializing again with the library's server is
    answered but does not make the session known: the next request fails again. *)
Theorem C116_dead_refuted : ∀ cf s i m r tok, waiting s i = Some (XPost m) → rp_status r = 404%Z → rp_session r = None →
  (tp_step cf s (TReply i (Some r) tok)).2 = Some TErr ∧ tp_session (tp_step cf s (TReply i (Some r) tok)).1 = tp_session s.
Proof.
  intros cf s i m r tok Hw H4 Hs. unfold waiting in Hw. cbn [tp_step]. destruct (tp_flight s !! i) as [[[m'|quiet|]|]|]; try done.
  unfold end_send. rewrite H4, process_headers_spec, Hs. done.
Qed.
Print Assumptions C116_dead_refuted.
Theorem C116_again_refuted : ∀ cf hcf answer c os id p tok fresh e1 e2 sid, no_clash cf → authorized cf tok → hc_stateful hcf = true → tp_session c = Some sid → ¬ live sid (sx_log (h_run hcf answer os)) →
  sx_streams (h_run hcf answer os) !! sid = None → sendable (MsgRequest id (RClient CInitialize p)) → sendable (MsgResponse (answer (sx_log (h_run hcf answer os)) id (RClient CInitialize p))) → no_break e2 → 0%N ∉ e2 →
  ∃ c' sv' x, exchanged cf hcf answer c (h_run hcf answer os) (MsgRequest id (RClient CInitialize p)) tok fresh e1 e2 c' sv' x ∧
    tp_queue c' = tp_queue c ++ [MsgResponse (answer (sx_log (h_run hcf answer os)) id (RClient CInitialize p))] ∧ tp_session c' = Some sid ∧ ¬ live sid (sx_log sv').
Proof. exact dead_exchange. Qed.
Print Assumptions C116_again_refuted.
Example C116_example :
  no_clash ccf ∧ authorized ccf None ∧
  let heads os := (λ q, (cr_verb q, first_header SESSION (cr_headers q), first_header VERSION (cr_headers q))) <$> tp_sent (tp_run ccf None os) in
  heads [TSend (cping 1) None None; TReply 0 (Some (MkReply 200 (Some (lit "s")) (Some (lit "2025-06-18")) (Some (lit "application/json")) (Some (to_bytes (message_doc (crep 1)))))) None; TStart None None; TClose None; TReply 2 None None; TSend (cping 2) None None] =
    [(Post, None, None); (Get, Some (lit "s"), Some (lit "2025-06-18")); (Delete, Some (lit "s"), Some (lit "2025-06-18")); (Post, None, Some (lit "2025-06-18"))] ∧
  first_header SESSION (cr_headers (default (MkRequest Get [] None) (last (tp_sent (tp_run (MkTConfig [(SESSION, lit "x")] false) (Some (lit "s")) [TSend (cping 1) None None]))))) = Some (lit "x").
Proof. split; [by apply Forall_nil_2|]. split; [done|]. split; by vm_compute. Qed.

(** ** C117: resumption tokens *)
(** Every event with an id of a stream is reported in order and the last one is remembered. *)
Theorem C117_reported : ∀ cf s n es, reading s n → Forall writable es → let s' := (tp_step cf s (TBody n (concat (display <$> es)))).1 in let ids := omap e_id (received None es) in
  tp_tokens s' = tp_tokens s ++ ids ∧ tp_last s' = match last ids with Some i => Some i | None => tp_last s end.
Proof. exact stream_ids. Qed.
Print Assumptions C117_reported.
(** At any time the remembered id is the one reported last. *)
Theorem C117_last : ∀ cf z os, tp_last (tp_run cf z os) = last (tp_tokens (tp_run cf z os)).
Proof. exact last_token. Qed.
Print Assumptions C117_last.
(** Starting a stream with a token asks for the events after it. *)
Theorem C117_resumed_partial : ∀ cf s token tok, no_clash cf → authorized cf tok → ∃ q, (tp_step cf s (TStart token tok)).2 = None ∧
  tp_sent (tp_step cf s (TStart token tok)).1 = tp_sent s ++ [q] ∧ cr_verb q = Get ∧ first_header LAST_EVENT (cr_headers q) = token.
Proof.
  intros cf s token tok Hc Ha. cbn [tp_step]. unfold begin_get. rewrite build_request_abort. destruct (abort_fields s) as (_ & _ & _ & _ & _ & _ & _ & E8 & _).
  destruct (build_request cf tok s) as [hs|] eqn:Eb.
  - eexists. split; [done|]. cbn [fst request tp_sent]. rewrite E8. split; [done|]. split; [done|].
    by destruct (sent_headers cf (TStart token tok) s (MkRequest Get (hs ++ [(ACCEPT, text_event_stream)] ++ opt_header LAST_EVENT token) None) Hc) as (_ & _ & E); [by exists tok, hs|].
  - exfalso. unfold build_request in Eb. unfold authorized in Ha. destruct (tc_auth cf); [|done]. destruct Ha as [t ->]; done.
Qed.
Print Assumptions C117_resumed_partial.
(** Refuted: sending a message with a resumption token opens a stream instead, and the call succeeds
    although the message is never posted. *)
Theorem C117_unsent_refuted : ∀ cf s m t tok, authorized cf tok → ∃ q, tp_sent (tp_step cf s (TSend m (Some t) tok)).1 = tp_sent s ++ [q] ∧ cr_verb q = Get ∧ cr_body q = None ∧
  ∀ r tok', ok_status (rp_status r) → (tp_step cf (tp_step cf s (TSend m (Some t) tok)).1 (TReply (length (tp_flight s)) (Some r) tok')).2 = Some TOk.
Proof.
  intros cf s m t tok Ha. cbn [tp_step]. unfold begin_send, begin_get. rewrite build_request_abort. destruct (abort_fields s) as (_ & _ & _ & _ & _ & E6 & _ & E8 & _).
  destruct (build_request cf tok s) as [hs|] eqn:Eb.
  - eexists. cbn [fst request tp_sent tp_flight]. rewrite E8, E6. split; [done|]. split; [done|]. split; [done|]. intros r tok' Hr. rewrite lookup_app_r, Nat.sub_diag by done. cbn [lookup list_lookup]. unfold end_get.
    apply success_spec in Hr. rewrite Hr. by destruct (_ =? _)%Z.
  - exfalso. unfold build_request in Eb. unfold authorized in Ha. destruct (tc_auth cf); [|done]. destruct Ha as [t' ->]; done.
Qed.
Print Assumptions C117_unsent_refuted.
(** Refuted: a stream whose connection breaks leaves no id to resume from: its events are never seen. *)
Theorem C117_broken_refuted : ∀ cf s n, reading s n → let s' := (tp_step cf s (TBody n [])).1 in tp_last s' = tp_last s ∧ tp_tokens s' = tp_tokens s ∧ tp_queue s' = tp_queue s ∧ ¬ reading s' n.
Proof.
  intros cf s n Hr. cbn zeta. pose proof (body_once cf s n [] Hr) as [_ Hn]. unfold reading in Hr. revert Hn. cbn [tp_step]. rewrite Hr. cbn [fst]. unfold take_body. 
  assert (∃ p, feed parser0 [] = Some (p, [])) as [p ->] by (eexists; by vm_compute). done.
Qed.
Print Assumptions C117_broken_refuted.
(** Refuted: a stream started without a token does not use the remembered id. *)
Theorem C117_forgotten_refuted : ∀ cf z os tok, no_clash cf → authorized cf tok → ∃ q, tp_sent (tp_step cf (tp_run cf z os) (TStart None tok)).1 = tp_sent (tp_run cf z os) ++ [q] ∧ first_header LAST_EVENT (cr_headers q) = None.
Proof. intros cf z os tok Hc Ha. destruct (C117_resumed_partial cf (tp_run cf z os) None tok Hc Ha) as (q & _ & E & _ & H). by exists q. Qed.
Print Assumptions C117_forgotten_refuted.
Example C117_example :
  let s := tp_run ccf None [TStart (Some (lit "4")) None; TReply 0 (Some (MkReply 200 None None None None)) None] in reading s 0 ∧
  let s := tp_run ccf None [TStart (Some (lit "4")) None; TReply 0 (Some (MkReply 200 None None None None)) None; TBody 0 (lit "id: 5" ++ [10%N] ++ lit "data: x" ++ [10; 10]%N ++ lit "data: y" ++ [10; 10]%N ++ lit "id: 6" ++ [10%N] ++ lit "data: z" ++ [10; 10]%N)] in
  tp_tokens s = [lit "5"; lit "5"; lit "6"] ∧ tp_last s = Some (lit "6") ∧ tp_queue s = [].
Proof. split_and!; by vm_compute. Qed.

(** ** C118: the server's stream after the initialized notification *)
(** What the caller asks for is opened: a GET that succeeds is read, and 405 is not an error. *)
Theorem C118_asked_partial : ∀ cf s i r tok, waiting s i = Some (XGet false) →
  (ok_status (rp_status r) → (tp_step cf s (TReply i (Some r) tok)).2 = Some TOk ∧ reading (tp_step cf s (TReply i (Some r) tok)).1 (length (tp_streams s))) ∧
  (rp_status r = 405%Z → (tp_step cf s (TReply i (Some r) tok)).2 = Some TOk ∧ tp_streams (tp_step cf s (TReply i (Some r) tok)).1 = tp_streams s).
Proof.
  intros cf s i r tok Hw. unfold waiting in Hw. cbn [tp_step]. destruct (tp_flight s !! i) as [[[m'|quiet|]|]|]; try done. injection Hw as ->. unfold end_get. split.
  - intros Hs. assert ((rp_status r =? 405)%Z = false) as ->. { unfold ok_status in Hs. apply Z.eqb_neq. lia. } apply success_spec in Hs. rewrite Hs, process_headers_spec. split; [done|].
    unfold reading. cbn [open_stream fst tp_streams answered]. by rewrite lookup_app_r, Nat.sub_diag.
  - intros ->. done.
Qed.
Print Assumptions C118_asked_partial.
(** Any other reply, or none, is reported as an error; no stream is open after it. *)
Theorem C118_failed : ∀ cf s i r tok, waiting s i = Some (XGet false) → (∀ x, r = Some x → ¬ ok_status (rp_status x) ∧ rp_status x ≠ 405%Z) →
  (tp_step cf s (TReply i r tok)).2 = Some TErr ∧ tp_streams (tp_step cf s (TReply i r tok)).1 = tp_streams s ∧ tp_sent (tp_step cf s (TReply i r tok)).1 = tp_sent s.
Proof.
  intros cf s i r tok Hw Hr. unfold waiting in Hw. cbn [tp_step]. destruct (tp_flight s !! i) as [[[m'|quiet|]|]|]; try done. injection Hw as ->. unfold end_get.
  destruct r as [r|]; [|done]. destruct (Hr r eq_refl) as [Hs H4]. rewrite (proj2 (Z.eqb_neq _ _) H4). destruct (is_success (rp_status r)) eqn:E; [|done]. by apply success_spec in E.
Qed.
Print Assumptions C118_failed.
(** Without a token from the configured provider nothing is requested and the caller is told. *)
Theorem C118_no_token : ∀ cf s token m, tc_auth cf = true →
  ((tp_step cf s (TStart token None)).2 = Some TErr ∧ tp_sent (tp_step cf s (TStart token None)).1 = tp_sent s) ∧
  (tp_step cf s (TSend m token None)).2 = Some TErr ∧ tp_sent (tp_step cf s (TSend m token None)).1 = tp_sent s.
Proof.
  intros cf s token m Ha. destruct (abort_fields s) as (_ & _ & _ & _ & _ & _ & _ & E & _). cbn [tp_step]. unfold begin_send, begin_get, build_request. rewrite Ha.
  destruct token; cbn [fst snd]; by rewrite ?E.
Qed.
Print Assumptions C118_no_token.
(** Refuted: no reply to a sent message, 202 to a notification included, makes the client open a stream. *)
Theorem C118_never_refuted : ∀ cf z os, Forall (λ o, ¬ asks_stream o) os → Forall (λ q, cr_verb q ≠ Get) (tp_sent (tp_run cf z os)).
Proof. exact no_get. Qed.
Print Assumptions C118_never_refuted.
Example C118_example :
  let os := [TSend (MsgNotification (NClient CInitialized JNull)) None None; TReply 0 (Some (MkReply 202 None None None (Some []))) None] in
  Forall (λ o, ¬ asks_stream o) os ∧ cr_verb <$> tp_sent (tp_run ccf None os) = [Post] ∧ (tp_step ccf (tp_run ccf None (take 1 os)) (TReply 0 (Some (MkReply 202 None None None (Some []))) None)).2 = Some TOk ∧
  reading (tp_run ccf None [TStart None None; TReply 0 (Some (MkReply 200 None None None None)) None]) 0.
Proof. split_and!; [repeat constructor; by intros []|by vm_compute..]. Qed.

(** ** C119: the client and the library's server *)
(** Initializing opens a session both know, with the same version, and the answer arrives. *)
Theorem C119_initialized : ∀ cf hcf answer c os id p tok fresh e1 e2, no_clash cf → authorized cf tok → hc_stateful hcf = true → tp_session c = None → sendable (MsgRequest id (RClient CInitialize p)) →
  sendable (MsgResponse (answer (sx_log (h_run hcf answer os) ++ [LOpened fresh]) id (RClient CInitialize p))) → no_break e2 → 0%N ∉ e2 →
  ∃ c' sv' x, exchanged cf hcf answer c (h_run hcf answer os) (MsgRequest id (RClient CInitialize p)) tok fresh e1 e2 c' sv' x ∧
    tp_queue c' = tp_queue c ++ [MsgResponse (answer (sx_log (h_run hcf answer os) ++ [LOpened fresh]) id (RClient CInitialize p))] ∧ tp_session c' = Some fresh ∧ live fresh (sx_log sv') ∧
    ∃ w, tp_version c' = Some w ∧ sx_sessions sv' !! fresh = Some (MkSession true (Some w)) ∧
      (∀ res v, rs_payload (answer (sx_log (h_run hcf answer os) ++ [LOpened fresh]) id (RClient CInitialize p)) = PResult res → is_of t_initialize_result res → ServerModel.field "protocolVersion" res = JStr v → w = v) ∧
      (∀ e, rs_payload (answer (sx_log (h_run hcf answer os) ++ [LOpened fresh]) id (RClient CInitialize p)) = PError e → w = lit "2025-03-26").
Proof.
  intros cf hcf answer c os id p tok fresh e1 e2 H1 H2 H3 H4 H5 H6 H7 H8. destruct (init_exchange cf hcf answer c os id p tok fresh e1 e2 H1 H2 H3 H4 H5 H6 H7 H8) as (c' & sv' & x & E1 & E2 & E3 & E4 & w & E5 & E6 & E7).
  exists c', sv', x. split; [exact E1|]. split; [exact E2|]. split; [exact E3|]. split; [exact E4|]. exists w. split; [exact E5|]. split; [exact E6|]. rewrite E7. clear. set (resp := answer _ _ _). clearbody resp. split.
  - intros res v Hp Ho Hf. unfold negotiated. rewrite Hp. assert (decode t_initialize_result res = Some res) as -> by (apply decode_is_of; [repeat constructor|exact Ho]). cbn [default from_option]. by rewrite Hf.
  - intros e Hp. unfold negotiated. by rewrite Hp.
Qed.
Print Assumptions C119_initialized.
(** In a live session every request is processed once, as sent, and its answer arrives, as JSON or as an
    event, as long as the session has no stream. *)
Theorem C119_answered_partial : ∀ cf hcf answer c os id r tok fresh e1 e2 sid, no_clash cf → authorized cf tok → hc_stateful hcf = true → tp_session c = Some sid → live sid (sx_log (h_run hcf answer os)) →
  version_agrees (h_run hcf answer os) sid (tp_version c) → ¬ init_request r → sendable (MsgRequest id r) → sendable (MsgResponse (answer (sx_log (h_run hcf answer os)) id r)) → no_break e2 → 0%N ∉ e2 →
  (hc_json hcf = true ∨ sx_streams (h_run hcf answer os) !! sid = None) →
  ∃ c' sv' x, exchanged cf hcf answer c (h_run hcf answer os) (MsgRequest id r) tok fresh e1 e2 c' sv' x ∧ sx_log sv' = sx_log (h_run hcf answer os) ++ [LProcessed (Some sid) id r] ∧
    tp_queue c' = tp_queue c ++ [MsgResponse (answer (sx_log (h_run hcf answer os)) id r)] ∧ tp_got c' = tp_got c ∧ tp_session c' = Some sid.
Proof. exact answered_exchange. Qed.
Print Assumptions C119_answered_partial.
(** Refuted: once the session has a stream, the answer is written to it, the post is acknowledged without
    a body and the client receives nothing until that stream ends. *)
Theorem C119_stream_refuted : ∀ cf hcf answer c os id r tok fresh e1 e2 sid n, no_clash cf → authorized cf tok → hc_stateful hcf = true → tp_session c = Some sid → live sid (sx_log (h_run hcf answer os)) →
  version_agrees (h_run hcf answer os) sid (tp_version c) → ¬ init_request r → sendable (MsgRequest id r) → hc_json hcf = false → sx_streams (h_run hcf answer os) !! sid = Some n →
  ∃ c' sv' x, exchanged cf hcf answer c (h_run hcf answer os) (MsgRequest id r) tok fresh e1 e2 c' sv' x ∧ hr_status x = 202%Z ∧ hr_body x = BNone ∧
    tp_queue c' = tp_queue c ∧ tp_got c' = tp_got c ∧ sx_log sv' = sx_log (h_run hcf answer os) ++ [LProcessed (Some sid) id r].
Proof. exact stream_exchange. Qed.
Print Assumptions C119_stream_refuted.
Definition pong (l : list logged) (id : rid) (r : RpcModel.request) : rpc_response := success id (JObj []).
Definition hcf0 : hconfig := MkHConfig true false true.
Example C119_example :
  let sos := [HPost (jhdr None None) (Some (cping 0)) []; HPost (jhdr None None) (Some (MsgRequest (IdNum 0) (RClient CInitialize JNull))) (lit "s"); HContinue 0 (lit "1") (lit "2")] in
  let sv := h_run hcf0 pong sos in let c := tp_run ccf (Some (lit "s")) [] in
  no_clash ccf ∧ live (lit "s") (sx_log sv) ∧ version_agrees sv (lit "s") (tp_version c) ∧ sendable (cping 1) ∧ sendable (MsgResponse (pong (sx_log sv) (IdNum 1) (RClient CPing JNull))) ∧ sx_streams sv !! lit "s" = None ∧
  is_Some (sx_streams (h_run hcf0 pong (sos ++ [HGet (ghdr (Some (lit "s")) None) []; HContinue 0 [] []])) !! lit "s") ∧
  (* the answer, as an event *)
  let q := default (MkRequest Get [] None) (last (tp_sent (tp_step ccf c (TSend (cping 1) None None)).1)) in
  let sv1 := (h_step hcf0 pong sv (HPost (seen_headers (cr_headers q)) (parsed (cr_body q)) [])).1 in
  let x := default (refuse 0) (h_step hcf0 pong sv1 (HContinue 0 (lit "3") (lit "4"))).2 in
  hr_body x = BEvent (lit "4") (crep 1) ∧
  tp_queue (tp_run ccf (Some (lit "s")) [TSend (cping 1) None None; TReply 0 (Some (reply_of x)) None; TBody 0 (stream_text x)]) = [crep 1].
Proof.
  split; [by apply Forall_nil_2|]. split; [|split; [|split; [|split; [exact (proj1 C115_example)|split; [by vm_compute|split; [eexists; by vm_compute|split; by vm_compute]]]]]].
  - apply sessions_live; [done|]. eexists. by vm_compute.
  - done.
  - split; [split; [split; by vm_compute|done]|]. apply storable_check; [by vm_compute|vm_compute; lia].
Qed.

(** ** C191: which streams are read, and until when *)
(** A stream that answers a request is read from its reply until it ends, whatever is called in between:
    opening the listening stream again or closing does not stop it. *)
Theorem C191_answer : ∀ cf z os i m r tok os2, let s := tp_run cf z os in let n := length (tp_streams s) in
  waiting s i = Some (XPost m) → ok_status (rp_status r) → streamed r → (∀ b, TBody n b ∉ os2) → reading (tp_run cf z (os ++ TReply i (Some r) tok :: os2)) n.
Proof.
  intros cf z os i m r tok os2 s n Hw Hs Hr Hb. unfold tp_run. rewrite fold_left_app. cbn [fold_left]. change (fold_left _ os (transport_new z)) with s.
  destruct (opens_answer cf s i m r tok Hw Hs Hr) as [E1 E2]. apply undisturbed; [|rewrite E2|done].
  - unfold reading. rewrite E1. by apply list_lookup_middle.
  - intros E. apply handle_bound in E. fold s in E. lia.
Qed.
Print Assumptions C191_answer.
(** The listening stream is read until it ends, another is asked for, or the client is closed. *)
Theorem C191_listening : ∀ cf z os i q r tok os2, let s := tp_run cf z os in let n := length (tp_streams s) in let s1 := tp_run cf z (os ++ [TReply i (Some r) tok]) in
  waiting s i = Some (XGet q) → ok_status (rp_status r) → Forall (λ x, ¬ listens x.2 ∧ ¬ listen_reply x) (trace cf s1 os2) →
  ((∀ b, TBody n b ∉ os2) → reading (tp_run cf z (os ++ TReply i (Some r) tok :: os2)) n) ∧
  ∀ o, listens o → ¬ reading (tp_run cf z (os ++ TReply i (Some r) tok :: os2 ++ [o])) n.
Proof.
  intros cf z os i q r tok os2 s n s1 Hw Hs Hf. destruct (opens_listen cf s i q r tok Hw Hs) as [E1 E2].
  assert (s1 = (tp_step cf s (TReply i (Some r) tok)).1) as Es1 by apply tp_run_snoc. rewrite <-Es1 in E1, E2.
  assert (∀ l, tp_run cf z (os ++ TReply i (Some r) tok :: l) = fold_left (λ s o, (tp_step cf s o).1) l s1) as Hrun.
  { intros l. rewrite Es1. unfold tp_run. rewrite fold_left_app. done. }
  split.
  - intros Hb. rewrite Hrun. apply listening; try done. unfold reading. rewrite E1. by apply list_lookup_middle.
  - intros o Ho. rewrite Hrun, fold_left_app. cbn [fold_left]. pose proof (handle_kept cf os2 s1 n E2 Hf) as Hk. set (s2 := fold_left _ os2 s1) in *. clearbody s2.
    destruct (step_streams cf s2 o) as [(_ & _ & ?)|[(_ & E & _)|[(k & r' & tok' & -> & _)|[(k & r' & tok' & -> & _)|(k & body & -> & _)]]]]; try done.
    unfold reading. rewrite E, Hk. intros H. apply list_lookup_insert_Some in H as [(_ & ? & _)|[? _]]; done.
Qed.
Print Assumptions C191_listening.
(** Refuted: a listening stream opened while another was being asked for is read on after a later start
    or close, until the server ends it. *)
Theorem C191_overlap_refuted : ∀ cf z os i j q q' r r' tok tok' os2, let s := tp_run cf z os in let n := length (tp_streams s) in
  waiting s i = Some (XGet q) → waiting s j = Some (XGet q') → i ≠ j → ok_status (rp_status r) → ok_status (rp_status r') → (∀ b, TBody n b ∉ os2) →
  reading (tp_run cf z (os ++ TReply i (Some r) tok :: TReply j (Some r') tok' :: os2)) n.
Proof.
  intros cf z os i j q q' r r' tok tok' os2 s n Hi Hj Hij Hr Hr' Hb. unfold tp_run. rewrite fold_left_app. cbn [fold_left]. change (fold_left _ os (transport_new z)) with s.
  destruct (opens_listen cf s i q r tok Hi Hr) as [E1 E2]. pose proof (waiting_other cf s i j q r tok Hi Hij) as Hw. rewrite Hj in Hw.
  destruct (opens_listen cf _ j q' r' tok' Hw Hr') as [E3 E4]. apply undisturbed; [..|done].
  - unfold reading. rewrite E3, E1. rewrite lookup_app_l by (rewrite app_length; cbn; lia). by apply list_lookup_middle.
  - rewrite E4, E1, app_length. cbn. intros [=]. lia.
Qed.
Print Assumptions C191_overlap_refuted.
Definition sse_reply : reply := MkReply 200 None None (Some (lit "text/event-stream")) (Some []).
Example C191_example :
  let os := [TSend (cping 1) None None; TStart None None; TStart None None] in let s := tp_run ccf None os in
  waiting s 0 = Some (XPost (cping 1)) ∧ waiting s 1 = Some (XGet false) ∧ waiting s 2 = Some (XGet false) ∧ streamed sse_reply ∧ ok_status (rp_status sse_reply) ∧
  (* the answer and the listening stream are read, and closing stops the second *)
  tp_streams (tp_run ccf None (os ++ [TReply 0 (Some sse_reply) None; TReply 1 (Some sse_reply) None])) = [true; true] ∧
  tp_streams (tp_run ccf None (os ++ [TReply 0 (Some sse_reply) None; TReply 1 (Some sse_reply) None; TClose None])) = [true; false] ∧
  tp_streams (tp_run ccf None (os ++ [TReply 1 (Some sse_reply) None; TReply 2 (Some sse_reply) None; TClose None])) = [true; false].
Proof.
  cbn zeta. split; [by vm_compute|]. split; [by vm_compute|]. split; [by vm_compute|]. split; [|split; [split; vm_compute; congruence|split; [by vm_compute|split; by vm_compute]]].
  exists (lit "text/event-stream"). split; [done|]. split.
  - intros H. apply contains_spec in H. revert H. by vm_compute.
  - exists [], []. by vm_compute.
Qed.
