(** C42, C43, C92–C95: the client. *)
From stdpp Require Import gmap strings list.
From Verif Require Import TextLib JsonLib SerdeLib TypesModel RpcModel RpcSpec RpcProofs ManagersModel ServerModel ServerSpec ServerProofs ClientModel ClientSpec ClientProofs.

(** ** C42: nothing is sent that may not be sent *)
(** Every request a call sends, except initialize itself, follows a handshake whose capabilities allow
    it. *)
Theorem C42_gated : ∀ es c rs e c' r id k p, c_run client_new es = (c, rs) → c_step c e = (c', r) → MsgRequest id (RClient k p) ∈ news c c' →
  k = CInitialize ∨ ∃ w, handshake c w ∧ allows (field "capabilities" w) k.
Proof. intros es c rs e c' r id k p H1 H2 H3. destruct (gated _ _ _ _ _ _ _ _ _ H1 H2 H3) as [H|(w & Hw & _ & Ha)]; [by left|]. right. by exists w. Qed.
Print Assumptions C42_gated.
(** There is only one handshake (ids are fresh: UUIDs), and it is what the client goes by. *)
Theorem C42_one_handshake : ∀ es c rs w1 w2, NoDup (e_id <$> es) → c_run client_new es = (c, rs) → handshake c w1 → handshake c w2 →
  field "capabilities" w1 = field "capabilities" w2.
Proof.
  intros es c rs w1 w2 Hn Hr H1 H2. destruct (handshake_unique _ _ _ Hn Hr _ H1) as [_ E1]. destruct (handshake_unique _ _ _ Hn Hr _ H2) as [_ E2].
  rewrite E1 in E2. by injection E2.
Qed.
Print Assumptions C42_one_handshake.
(** A call that is not allowed fails and changes nothing: nothing is sent, nothing received. *)
Theorem C42_refused : ∀ es c rs e k p, c_run client_new es = (c, rs) → e_op e = OCall k p → (∀ w, handshake c w → ¬ allows (field "capabilities" w) k) →
  ∃ err, c_step c e = (c, CErr err).
Proof.
  intros es c rs e k p Hr Ho Ha. unfold c_step. rewrite Ho. destruct (is_method k) eqn:Hm; [|by eexists].
  destruct (refused k c) as [err|] eqn:E; [by exists err|]. exfalso. apply refused_allows in E as [Hi H]; [|done].
  destruct (initialized_by _ _ _ Hr Hi) as (w & Hw & Hs). apply (Ha w Hw). destruct H as [H|(caps & Hs' & H)].
  - split; [by intros cap; rewrite H|]. by intros ->.
  - rewrite Hs in Hs'. by injection Hs' as <-.
Qed.
Print Assumptions C42_refused.
(** Without any handshake every call is refused, ping included. *)
Theorem C42_uninitialized : ∀ c e k p, cl_initialized c = false → e_op e = OCall k p → c_step c e = (c, CErr (EInvalidState (lit "Client not initialized"))).
Proof. intros c e k p Hi Ho. unfold c_step. rewrite Ho. destruct (is_method k); [|done]. by rewrite not_initialized_refused. Qed.
Print Assumptions C42_uninitialized.

Definition ver : json := JStr (lit "2025-06-18").
Definition impl : json := JObj [(lit "name", JStr (lit "s")); (lit "version", JStr (lit "1"))].
Definition hello (caps : json) (id : rid) : cevent :=
  MkEvent (OInitialize (JObj []) impl) id true [MsgResponse (success id (JObj [(lit "protocolVersion", ver); (lit "capabilities", caps); (lit "serverInfo", impl)]))] true.
Definition tools_only : json := JObj [(lit "tools", JObj [])].
Example C42_example :
  (c_run client_new [hello tools_only (IdNum 1);
     MkEvent (OCall CListTools (JObj [])) (IdNum 2) true [MsgResponse (success (IdNum 2) (JObj [(lit "tools", JArr [])]))] true;
     MkEvent (OCall CListPrompts (JObj [])) (IdNum 3) true [] true]).2
  = [COk (JObj [(lit "protocolVersion", ver); (lit "capabilities", tools_only); (lit "serverInfo", impl)]);
     COk (JObj [(lit "tools", JArr [])]);
     CErr (EUnsupported (lit "Server does not support prompts (required for prompts/list)"))].
Proof. by vm_compute. Qed.

(** ** C43: a call returns the response to its own request *)
(** Calls one after the other over a transport that delivers one response per request, and nothing
    else: each call receives the response with its own id. *)
Theorem C43_sequential_partial : ∀ es c rs id m, answered_only es → c_run client_new es = (c, rs) → (id, m) ∈ cl_got c → response_to id m.
Proof. intros es c rs id m Ha Hr Hin. destruct (own_responses _ _ _ Ha Hr) as [_ H]. rewrite Forall_forall in H. apply (H _ Hin). Qed.
Print Assumptions C43_sequential_partial.
(** In any interleaving of concurrent calls messages are received once each and in order of arrival;
    no call receives two. *)
Theorem C43_conserved : ∀ os, (snd <$> x_got (x_run os)) ++ x_in (x_run os) = arrivals os ∧ (fst <$> x_got (x_run os)) ++ x_waiting (x_run os) ≡ₚ sends os.
Proof. exact conserved. Qed.
Print Assumptions C43_conserved.
(** So calls that get the lock in the order of their requests get their own responses if the server
    answers in that order too. *)
Theorem C43_in_turn_partial : ∀ os, in_turn os → (∀ i w id m, sends os !! i = Some (w, id) → arrivals os !! i = Some m → response_to id m) →
  ∀ w id m, (w, id, m) ∈ x_got (x_run os) → response_to id m.
Proof. intros os Ht H w id m Hin. apply elem_of_list_lookup in Hin as (i & Hi). destruct (turn_pairs os i w id m Ht Hi) as [H1 H2]. by eapply H. Qed.
Print Assumptions C43_in_turn_partial.
(** Refuted: the id is not looked at.  Whatever response comes first is the call's, whoever it is
    for. *)
Theorem C43_any_id_refuted : ∀ c e k p x ms, e_op e = OCall k p → open_to k c → e_ok e = true →
  cl_in c ++ e_arrived e = MsgResponse x :: ms →
  (c_step c e).2 = match rs_payload x with PResult v => match result_ty k with None => COk JNull | Some t => match decode t v with Some w => COk w | None => CErr parse_failed end end
                                         | PError er => CErr (of_rpc_error er) end.
Proof. intros c e k p x ms H1 [H2 H3]%open_allowed H4 H5. destruct (call_exact c e k p _ _ H1 H2 H3 H4 H5) as (c' & -> & _). done. Qed.
Print Assumptions C43_any_id_refuted.
(** Refuted: one message nobody asked for (a notification, say) makes its call fail, and from then on
    every call receives the response to the call before it. *)
Theorem C43_shift_refuted : ∀ c m l, cl_initialized c = true → cl_in c = [m] →
  cl_got (c_run c ((λ ix, MkEvent (OCall CPing JNull) ix.1 true [MsgResponse ix.2] true) <$> l)).1 = cl_got c ++ zip (fst <$> l) (m :: (MsgResponse <$> (snd <$> l))).
Proof. exact shifted. Qed.
Print Assumptions C43_shift_refuted.
(** Refuted: two concurrent calls whose requests are answered in order get each other's response
    when the second gets the lock first. *)
Theorem C43_swap_refuted : ∀ w1 w2 id1 id2 m1 m2,
  x_got (x_run [XSend w1 id1; XSend w2 id2; XArrive m1; XArrive m2; XReceive 1; XReceive 0]) = [(w2, id2, m1); (w1, id1, m2)].
Proof. done. Qed.
Print Assumptions C43_swap_refuted.
Example C43_example :
  let c := (c_run client_new [hello tools_only (IdNum 1)]).1 in
  (c_step c (MkEvent (OCall CListTools (JObj [])) (IdNum 2) true [MsgResponse (success (IdNum 99) (JObj [(lit "tools", JArr [])]))] true)).2 = COk (JObj [(lit "tools", JArr [])])
  ∧ in_turn [XSend 0 (IdNum 1); XSend 1 (IdNum 2); XArrive (MsgResponse (success (IdNum 1) JNull)); XReceive 0]
  ∧ answered_only [hello tools_only (IdNum 1)].
Proof.
  split; [by vm_compute|]. split.
  - unfold in_turn. repeat apply Forall_cons_2; try done; try (by constructor); by intros i [= <-].
  - apply Forall_singleton. split; [done|]. by eexists.
Qed.

(** ** C92: what the server advertises can be called *)
Theorem C92_reachable_partial : ∀ c e k p, e_op e = OCall k p → open_to k c → e_ok e = true →
  news c (c_step c e).1 = [MsgRequest (e_id e) (RClient k p)].
Proof.
  intros c e k p Ho [Hm Ha]%open_allowed Hok. unfold news, c_step. rewrite Ho, Hm, Ha.
  destruct (send_request _ _ _ _ c) as [c1 res] eqn:E. apply sending in E as (_ & _ & _ & _ & H & _). cbn [fst]. rewrite H, Hok, drop_app. done.
Qed.
Print Assumptions C92_reachable_partial.
(** Refuted: create_message never reaches a server, whatever it advertises. *)
Theorem C92_sampling_refuted : ∀ c e p, e_op e = OCall CCreateMessage p → ∃ err, c_step c e = (c, CErr err).
Proof. intros c e p Ho. unfold c_step. rewrite Ho. cbn [is_method]. destruct (sampling_refused c) as [err ->]. by exists err. Qed.
Print Assumptions C92_sampling_refuted.
Example C92_example :
  let c := (c_run client_new [hello (JObj [(lit "tools", JObj []); (lit "sampling", JObj [])]) (IdNum 1)]).1 in
  cl_initialized c = true ∧ allows (JObj [(lit "tools", JObj []); (lit "sampling", JObj [])]) CCreateMessage ∧
  (c_step c (MkEvent (OCall CCreateMessage JNull) (IdNum 2) true [] true)).2 = CErr (EUnsupported (lit "Server does not support sampling (required for sampling/createMessage)")).
Proof. split; [by vm_compute|]. split; [|by vm_compute]. split; [|done]. intros cap [= <-]. by vm_compute. Qed.

(** ** C93: the handshake *)
(** A successful initialize has sent the request, in the latest version, and then the notification; the
    answer is of a supported version and what the client goes by from now on. *)
Theorem C93_success : ∀ c e caps info c' w, e_op e = OInitialize caps info → c_step c e = (c', COk w) →
  cl_initialized c = false ∧ cl_initialized c' = true ∧ cl_server c' = Some (field "capabilities" w) ∧ cl_version c' = Some (field "serverInfo" w) ∧
  text_of (field "protocolVersion" w) ∈ [lit "2025-06-18"; lit "2025-03-26"; lit "2024-11-05"; lit "2024-10-07"] ∧
  news c c' = [MsgRequest (e_id e) (RClient CInitialize (JObj [(lit "protocolVersion", JStr (lit "2025-06-18")); (lit "capabilities", caps); (lit "clientInfo", info)])); MsgNotification (NClient CInitialized JNull)].
Proof.
  intros c e caps info c' w Ho H. unfold c_step in H. rewrite Ho in H.
  apply initialize_cases in H as [(_ & _ & er & Her)|(Hi & c1 & res & Hs & [(_ & (er & Her) & _)|(x & v & w' & Hr & _ & _ & Hv & H)])]; [done..|].
  destruct (e_nok e); destruct H as [-> Hw]; [|done]. injection Hw as <-.
  apply sending in Hs as (_ & _ & _ & _ & Hsent & g & _ & _ & Hg). destruct (Hg x Hr) as [Hok _]. rewrite Hok in Hsent.
  split; [done|]. split; [done|]. split; [done|]. split; [done|]. split; [done|].
  unfold news. cbn [cl_sent send set_server]. rewrite Hsent. cbn [cl_sent set_caps]. rewrite <- app_assoc, drop_app. done.
Qed.
Print Assumptions C93_success.
(** It happens once: a client that is initialized stays so, and refuses to be initialized again. *)
Theorem C93_once : ∀ c es e caps info, cl_initialized c = true → e_op e = OInitialize caps info →
  c_step (c_run c es).1 e = ((c_run c es).1, CErr (EInvalidState (lit "Client already initialized"))).
Proof. intros c es e caps info Hi Ho. unfold c_step. rewrite Ho. unfold initialize. by rewrite (stays_initialized es c Hi). Qed.
Print Assumptions C93_once.
(** A failed initialize leaves the client uninitialized, so that it can be tried again – unless it was
    only the notification that could not be sent. *)
Theorem C93_failure_partial : ∀ c e caps info c' err, e_op e = OInitialize caps info → cl_initialized c = false → e_nok e = true → c_step c e = (c', CErr err) →
  cl_initialized c' = false ∧ cl_server c' = cl_server c.
Proof.
  intros c e caps info c' err Ho Hi Hn H. unfold c_step in H. rewrite Ho in H.
  apply initialize_cases in H as [(Hi2 & _)|(_ & c1 & res & Hs & [(-> & _)|(x & v & w' & Hr & _ & _ & Hv & H)])]; [congruence| |].
  - apply sending in Hs as (_ & Hsv & _ & Hi1 & _). cbn [cl_initialized cl_server set_caps] in *. by rewrite Hi1, Hsv.
  - rewrite Hn in H. by destruct H as [_ H].
Qed.
Print Assumptions C93_failure_partial.
(** Refuted: if the notification cannot be sent, initialize fails, yet the client counts as initialized: it may
    send requests, will not initialize again and so never sends the notification. *)
Theorem C93_half_refuted : ∀ c e caps info x v w ms, e_op e = OInitialize caps info → cl_initialized c = false → (∀ m, m ∈ cl_sent c → m ≠ MsgNotification (NClient CInitialized JNull)) →
  e_ok e = true → e_nok e = false → cl_in c ++ e_arrived e = MsgResponse x :: ms → rs_payload x = PResult v → decode t_initialize_result v = Some w →
  text_of (field "protocolVersion" w) ∈ supported_versions →
  ∃ c' err, c_step c e = (c', CErr err) ∧ cl_initialized c' = true ∧ ∀ es m, m ∈ cl_sent (c_run c' es).1 → m ≠ MsgNotification (NClient CInitialized JNull).
Proof.
  intros c e caps info x v w ms Ho Hi Hno Hok Hn Hin Hx Hd Hv.
  destruct (send_request_exact (e_id e) (RClient CInitialize (initialize_params caps info)) (e_arrived e) (set_caps caps c) (MsgResponse x) ms Hin) as (c1 & Hs & _ & _ & _ & _ & Hsent).
  exists (set_server (field "capabilities" w) (field "serverInfo" w) c1), send_failed.
  split; [unfold c_step; rewrite Ho; unfold initialize; rewrite Hi, Hok, Hs, Hx, Hd, decide_True, Hn by done; done|]. split; [done|].
  intros es. apply (not_announced es); [done|]. cbn [cl_sent set_server]. rewrite Hsent. cbn [cl_sent set_caps].
  intros m. rewrite elem_of_app, elem_of_list_singleton. intros [H| ->]; [by apply Hno|]. intros H. discriminate H.
Qed.
Print Assumptions C93_half_refuted.
Definition half : cevent := let e := hello tools_only (IdNum 1) in MkEvent (e_op e) (e_id e) true (e_arrived e) false.
Example C93_example :
  (c_run client_new [half; hello tools_only (IdNum 2)]).2 = [CErr (ETransport []); CErr (EInvalidState (lit "Client already initialized"))] ∧
  (c_run client_new [MkEvent (OInitialize (JObj []) impl) (IdNum 1) true [MsgResponse (failure (IdNum 1) not_supported)] true]).2 = [CErr (of_rpc_error not_supported)] ∧
  cl_initialized (c_run client_new [MkEvent (OInitialize (JObj []) impl) (IdNum 1) true [MsgResponse (failure (IdNum 1) not_supported)] true; hello tools_only (IdNum 2)]).1 = true.
Proof. repeat split; by vm_compute. Qed.

(** ** C94: no trace of finished calls *)
Theorem C94_clean_partial : ∀ es c rs, works es → c_run client_new es = (c, rs) → cl_active c = [].
Proof. exact no_leak. Qed.
Print Assumptions C94_clean_partial.
(** Refuted: a call whose request could not be sent leaves its entry behind for good – only a
    cancellation of that very id, which the caller never learns, removes it. *)
Theorem C94_leak_refuted : ∀ c e k p es, e_op e = OCall k p → open_to k c → e_ok e = false →
  Forall (λ e', e_id e' ≠ e_id e ∧ e_op e' ≠ OCancel (e_id e)) es → e_id e ∈ cl_active (c_run (c_step c e).1 es).1.
Proof. intros c e k p es H1 [H2 H3]%open_allowed H4 H5. apply stays_active; [by eapply failed_send_active|done]. Qed.
Print Assumptions C94_leak_refuted.
Example C94_example :
  works [hello tools_only (IdNum 1)] ∧
  cl_active (c_run client_new [hello tools_only (IdNum 1); MkEvent (OCall CPing JNull) (IdNum 2) false [] true; MkEvent (OCall CPing JNull) (IdNum 3) true [MsgResponse (success (IdNum 3) JNull)] true]).1 = [IdNum 2].
Proof. split; [by apply Forall_singleton|by vm_compute]. Qed.

(** ** C95: client and server of this library understand each other *)
(** Every successful answer of the server – except to completion/complete – is one the client's method
    returns as it is. *)
Theorem C95_understood_partial : ∀ cf behave key id k p s s' v, typed behave → k ∉ [CInitialize; CElicitResponse; CComplete] →
  handle_request cf behave key id (RClient k p) s = (s', Some (success id v)) →
  finish k (inl (success id v)) = COk (match result_ty k with Some _ => v | None => JNull end).
Proof. intros cf behave key id k p s s' v Ht Hk H. assert (is_method k = true ∧ k ≠ CComplete) as [Hm Hnc] by (destruct k; first [done|exfalso; apply Hk; apply (bool_decide_unpack _); by vm_compute]). apply finish_typed. by eapply server_result_typed. Qed.
Print Assumptions C95_understood_partial.
(** Every handshake with such a server succeeds, and the client then knows the server's
    capabilities. *)
Theorem C95_handshake : ∀ cf behave key sv c e caps info, scaps_ok (cf_caps cf) → cl_initialized c = false → cl_in c = [] → e_op e = OInitialize caps info → e_ok e = true → e_nok e = true →
  e_arrived e = match (handle_request cf behave key (e_id e) (RClient CInitialize (initialize_params caps info)) sv).2 with Some x => [MsgResponse x] | None => [] end →
  ∃ c', c_step c e = (c', COk (initialize_result cf)) ∧ cl_initialized c' = true ∧ cl_server c' = Some (scaps_json (cf_caps cf)).
Proof. exact handshake_works. Qed.
Print Assumptions C95_handshake.
(** Refuted: the server's answer to completion/complete is never one: the client's call always fails. *)
Theorem C95_complete_refuted : ∀ cf behave key id p s, ∃ s' x, handle_request cf behave key id (RClient CComplete p) s = (s', Some x) ∧ finish CComplete (inl x) = CErr parse_failed.
Proof. intros cf behave key id p s. eexists _, _. split; [done|]. by vm_compute. Qed.
Print Assumptions C95_complete_refuted.
Example C95_example :
  let cf := MkConfig (lit "s") (lit "1") (MkScaps (Some (JObj [])) None None None None None None) {[lit "t" := 0%nat]} ∅ None None in
  scaps_ok (cf_caps cf) ∧ ∃ s', handle_request cf (λ _, HOk (JInt 7)) (λ _, "") (IdNum 1) (RClient CCallTool (JObj [(lit "name", JStr (lit "t")); (lit "arguments", JNull)])) server_new
    = (s', Some (success (IdNum 1) (JObj [(lit "content", JArr [JObj [(lit "type", JStr (lit "text")); (lit "text", JStr (lit "7"))]]); (lit "isError", JBool false)]))).
Proof.
  split.
  - apply is_struct. right. eexists _, _. split; [done|]. split; [done|]. split; [apply is_struct; by left|]. repeat left. done.
  - eexists. by vm_compute.
Qed.

(** ** C96: the client notifies only as it declared *)
(** Before the handshake, or if the client declared roots without list changes, no
    roots/list_changed is sent. *)
Theorem C96_roots_partial : ∀ c e, e_op e = ORootsChanged →
  (cl_initialized c = false ∨ ∃ caps roots, cl_caps c = Some caps ∧ has_key "roots" caps = true ∧ field "roots" caps = roots ∧ field "listChanged" roots = JBool false) →
  ∃ err, c_step c e = (c, CErr err).
Proof.
  intros c e Ho H. unfold c_step. rewrite Ho. destruct (cl_initialized c); [|by eexists]. destruct H as [H|(caps & roots & -> & Hk & <- & Hl)]; [done|].
  rewrite Hk, Hl. by eexists.
Qed.
Print Assumptions C96_roots_partial.
(** When it did say so, the notification is what is sent. *)
Theorem C96_declared_partial : ∀ c e caps, e_op e = ORootsChanged → cl_initialized c = true → cl_caps c = Some caps → field "listChanged" (field "roots" caps) = JBool true → e_nok e = true →
  news c (c_step c e).1 = [MsgNotification (NClient CRootsListChanged JNull)] ∧ (c_step c e).2 = COk JNull.
Proof.
  intros c e caps Ho Hi Hc Hl Hn. unfold news, c_step. rewrite Ho, Hi, Hc, Hl, Hn. destruct (has_key "roots" caps); cbn [fst snd send_notification send cl_sent]; by rewrite drop_app.
Qed.
Print Assumptions C96_declared_partial.
(** Refuted: a client that did not declare roots at all sends it. *)
Theorem C96_undeclared_refuted : ∀ c e caps, e_op e = ORootsChanged → cl_initialized c = true → cl_caps c = Some caps → has_key "roots" caps = false → e_nok e = true →
  news c (c_step c e).1 = [MsgNotification (NClient CRootsListChanged JNull)].
Proof. intros c e caps Ho Hi Hc Hk Hn. unfold news, c_step. rewrite Ho, Hi, Hc, Hk, Hn. cbn [fst send_notification send cl_sent]. by rewrite drop_app. Qed.
Print Assumptions C96_undeclared_refuted.
(** Refuted: progress and cancellation notifications are sent before any handshake. *)
Theorem C96_early_refuted : ∀ c e p id, e_nok e = true →
  (e_op e = OProgress p → news c (c_step c e).1 = [MsgNotification (NProgress p)]) ∧
  (e_op e = OCancel id → news c (c_step c e).1 = [MsgNotification (NCancelled (cancel_params id))]).
Proof. intros c e p id Hn. unfold news, c_step. split; intros ->; rewrite Hn; cbn [fst send_notification send untrack cl_sent]; by rewrite drop_app. Qed.
Print Assumptions C96_early_refuted.
Example C96_example :
  let c := (c_run client_new [hello tools_only (IdNum 1)]).1 in
  length (cl_sent (c_step c (MkEvent ORootsChanged (IdNum 2) true [] true)).1) = 3%nat ∧
  (c_step client_new (MkEvent ORootsChanged (IdNum 2) true [] true)).2 = CErr (EInvalidState (lit "Client not initialized")) ∧
  length (cl_sent (c_step client_new (MkEvent (OProgress JNull) (IdNum 2) true [] true)).1) = 1%nat.
Proof. repeat split; by vm_compute. Qed.
