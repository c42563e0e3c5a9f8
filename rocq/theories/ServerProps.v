(** C38–C41, C84–C91: the server. *)
From stdpp Require Import gmap strings list.
From Verif Require Import TextLib JsonLib SerdeLib TypesModel RpcModel RpcSpec RpcProofs ManagersModel ServerModel ServerSpec ServerProofs.

(** ** C38: one response per request, in order *)
Theorem C38_answers_partial : ∀ cf behave key es, never_panics behave → no_failure es →
  rs_id <$> sv_sent (v_run cf behave key es) = request_ids es.
Proof. intros cf behave key es Hb He. by apply answered. Qed.
Print Assumptions C38_answers_partial.
(** Whatever fails or panics: the responses are those of a prefix of the requests, and of all of them
    as long as the server listens. *)
Theorem C38_prefix : ∀ cf behave key es,
  rs_id <$> sv_sent (v_run cf behave key es) `prefix_of` request_ids es ∧
  (sv_listening (v_run cf behave key es) = true → rs_id <$> sv_sent (v_run cf behave key es) = request_ids es).
Proof. exact answered_prefix. Qed.
Print Assumptions C38_prefix.
(** The i-th response is what handling the i-th request gave, at that time. *)
Theorem C38_own : ∀ cf behave key es i resp, sv_sent (v_run cf behave key es) !! i = Some resp →
  ∃ es1 id r es2, es = es1 ++ EMessage (MsgRequest id r) true :: es2 ∧ length (request_ids es1) = i ∧ sv_listening (v_run cf behave key es1) = true ∧
    (handle_request cf behave key id r (v_run cf behave key es1)).2 = Some resp.
Proof. exact answered_by. Qed.
Print Assumptions C38_own.
(** After a transport failure nothing more is sent. *)
Theorem C38_failure : ∀ cf behave key es1 e es2, e = EReceiveError ∨ (∃ id r, e = EMessage (MsgRequest id r) false) →
  sv_sent (v_run cf behave key (es1 ++ e :: es2)) = sv_sent (v_run cf behave key es1).
Proof.
  intros cf behave key es1 e es2 He. rewrite cons_middle, app_assoc. destruct (sv_listening (v_run cf behave key es1)) eqn:El.
  - assert (sv_listening (v_step cf behave key (v_run cf behave key es1) e) = false ∧ sv_sent (v_step cf behave key (v_run cf behave key es1) e) = sv_sent (v_run cf behave key es1)) as [H1 H2].
    { destruct He as [->|(id & r & ->)]; [done|]. cbn [v_step]. rewrite El. cbn [handle_message].
      destruct (handle_request cf behave key id r (v_run cf behave key es1)) as [s' [resp|]] eqn:E; pose proof (handle_rest _ _ _ _ _ _ _ _ E) as (_ & _ & Hs & Hl); by split. }
    rewrite (proj1 (stopped cf behave key (es1 ++ [e]) es2 ltac:(by rewrite run_snoc))). by rewrite run_snoc.
  - rewrite <- app_assoc. by apply stopped.
Qed.
Print Assumptions C38_failure.
(** One panicking handler silences the server for good: that request and all later ones stay
    unanswered, although the transport is intact. *)
Theorem C38_panic_refuted : ∀ cf behave key es id name args h, sv_listening (v_run cf behave key es) = true → cf_tools cf !! name = Some h →
  (∀ tok, behave (sv_calls (v_run cf behave key es) ++ [MkInvocation KTool h args (rid_show id) tok]) = HPanic) →
  ∀ es2, sv_sent (v_run cf behave key (es ++ EMessage (MsgRequest id (RClient CCallTool (call_params name args))) true :: es2)) = sv_sent (v_run cf behave key es).
Proof. intros cf behave key es id name args h Hl Hh Hb es2. by eapply (panic_stops cf behave key es id _ name h args). Qed.
Print Assumptions C38_panic_refuted.

(** ** C39: routing *)
(** Handling a request calls exactly the handler last registered for it – with its arguments – or none. *)
Theorem C39_routed : ∀ os cf behave key id r s, build os = inl cf → good_request r →
  invoked <$> sv_calls (handle_request cf behave key id r s).1 = (invoked <$> sv_calls s) ++ (match destination os r with Some d => [d] | None => [] end).
Proof. intros os cf behave key id r s Hb Hg. apply routed; [by apply built|]. by destruct r. Qed.
Print Assumptions C39_routed.
(** What the parser hands to the server has the shape the destination is read from. *)
Theorem C39_shape : ∀ p, (is_of t_call_tool_request p ∨ is_of t_get_prompt_request p → ∃ name args, p = call_params name args) ∧
  (is_of t_list_request p → p = JObj [] ∨ ∃ c, p = JObj [(lit "cursor", JStr c)]) ∧ (is_of t_uri_params p → ∃ u, p = JObj [(lit "uri", JStr u)]).
Proof.
  intros p. split; [intros [H|H]; [by apply call_shape|by apply prompt_shape]|]. split; [apply list_shape|apply uri_shape].
Qed.
Print Assumptions C39_shape.
(** The response to a tool call: the handler's value as JSON text, its error, or "not found". *)
Theorem C39_tool : ∀ os cf behave key id name args s, build os = inl cf →
  ∀ s' resp, handle_request cf behave key id (RClient CCallTool (call_params name args)) s = (s', Some resp) →
  match told (tool_of name) os with
  | None => s' = s ∧ ∃ e, resp = failure id e ∧ er_message e = error_display (ENotFound (lit "Tool '" ++ name ++ lit "' not found"))
  | Some h => match behave (sv_calls s') with
              | HOk v => resp = success id (JObj [(lit "content", JArr [JObj [(lit "type", JStr (lit "text")); (lit "text", JStr (show v))]]); (lit "isError", JBool false)])
              | HErr e => ∃ e', resp = failure id e' ∧ er_message e' = error_display e
              | HPanic => False end
  end.
Proof.
  intros os cf behave key id name args s Hb s' resp. destruct (built _ _ Hb) as [H1 _ _ _ _ _]. cbn [handle_request process_client_request].
  assert (text_of (field "name" (call_params name args)) = name) as -> by done. rewrite H1. destruct (told (tool_of name) os) as [h|].
  - assert (field "arguments" (call_params name args) = args) as -> by done. unfold invoke. cbn zeta.
    set (calls := sv_calls s ++ _). clearbody calls. destruct (behave calls) eqn:E; intros [= <- <-]; cbn [sv_calls]; rewrite E; [done|]. by eexists.
  - intros [= <- <-]. split; [done|]. by eexists.
Qed.
Print Assumptions C39_tool.

(** ** C40: initialization *)
(** Whether the server was initialized makes no difference to any request. *)
Theorem C40_ungated_refuted : ∀ cf behave key id r s,
  let s0 := MkServer (sv_client s) false (sv_canceller s) (sv_subs s) (sv_calls s) (sv_sent s) (sv_listening s) in
  (handle_request cf behave key id r s0).2 = (handle_request cf behave key id r s).2 ∧
  sv_calls (handle_request cf behave key id r s0).1 = sv_calls (handle_request cf behave key id r s).1.
Proof. intros cf behave key id r s s0. apply (handle_flag cf behave key id r false s). Qed.
Print Assumptions C40_ungated_refuted.
(** is_initialized and get_client_capabilities report the initialize requests received: the last one
    wins – a second one is not refused. *)
Theorem C40_reported_partial : ∀ cf behave key es, never_panics behave → no_failure es →
  sv_client (v_run cf behave key es) = last (omap initialize_of es) ∧ (sv_initialized (v_run cf behave key es) = true ↔ omap initialize_of es ≠ []).
Proof. exact init_run. Qed.
Print Assumptions C40_reported_partial.

(** ** C41: error codes *)
(** Every failing request is answered with code -32603, whatever the error. *)
Theorem C41_code_refuted : ∀ cf behave key id c p s s' e, c ≠ CInitialize → process_client_request cf behave key id c p s = (s', Err e) →
  ∃ e', (handle_request cf behave key id (RClient c p) s).2 = Some (failure id e') ∧ er_code e' = (-32603)%Z ∧ er_data e' = None.
Proof. intros cf behave key id c p s s' e Hc Hp. rewrite handle_process by done. rewrite Hp. by eexists. Qed.
Print Assumptions C41_code_refuted.
(** Errors without a code of their own are reported as the error conversion says. *)
Theorem C41_other_partial : ∀ cf behave key id c p s s' e, c ≠ CInitialize → process_client_request cf behave key id c p s = (s', Err e) →
  (∀ code m d, e ≠ EProtocol code m d) → (handle_request cf behave key id (RClient c p) s).2 = Some (failure id (to_rpc_error e)).
Proof. intros cf behave key id c p s s' e Hc Hp Hn. rewrite handle_process by done. rewrite Hp. destruct e; try done. by destruct (Hn code msg data). Qed.
Print Assumptions C41_other_partial.
(** The message names the error. *)
Theorem C41_message_partial : ∀ cf behave key id c p s s' e, c ≠ CInitialize → process_client_request cf behave key id c p s = (s', Err e) →
  ∃ e', (handle_request cf behave key id (RClient c p) s).2 = Some (failure id e') ∧ er_message e' = error_display e.
Proof. intros cf behave key id c p s s' e Hc Hp. rewrite handle_process by done. rewrite Hp. by eexists. Qed.
Print Assumptions C41_message_partial.

(** ** C84: listings *)
Definition listed (member : string) (v : json) (names : list (list N)) : Prop :=
  ∃ items, v = JObj [(lit member, JArr items)] ∧ items = (λ n, JObj ((lit "name", JStr n) :: (if String.eqb member "tools" then [(lit "inputSchema", JObj [])] else []))) <$> names.
Theorem C84_tools : ∀ os cf behave key id p s, build os = inl cf → ∃ v names, (handle_request cf behave key id (RClient CListTools p) s) = (s, Some (success id v)) ∧
  listed "tools" v names ∧ NoDup names ∧ (∀ n, n ∈ names ↔ is_Some (told (tool_of n) os)).
Proof.
  intros os cf behave key id p s Hb. destruct (built _ _ Hb) as [H1 _ _ _ _ _]. eexists _, (map_to_list (cf_tools cf)).*1. split; [done|].
  split; [by eexists|]. split; [apply NoDup_fst_map_to_list|]. intros n. rewrite <-H1, elem_of_list_fmap. split.
  - intros ([m x] & -> & Hx). apply elem_of_map_to_list in Hx. by eexists.
  - intros [x Hx]. exists (n, x). split; [done|]. by apply elem_of_map_to_list.
Qed.
Print Assumptions C84_tools.
Theorem C84_prompts : ∀ os cf behave key id p s, build os = inl cf → ∃ v names, (handle_request cf behave key id (RClient CListPrompts p) s) = (s, Some (success id v)) ∧
  listed "prompts" v names ∧ NoDup names ∧ (∀ n, n ∈ names ↔ is_Some (told (prompt_of n) os)).
Proof.
  intros os cf behave key id p s Hb. destruct (built _ _ Hb) as [_ H1 _ _ _ _]. eexists _, (map_to_list (cf_prompts cf)).*1. split; [done|].
  split; [by eexists|]. split; [apply NoDup_fst_map_to_list|]. intros n. rewrite <-H1, elem_of_list_fmap. split.
  - intros ([m x] & -> & Hx). apply elem_of_map_to_list in Hx. by eexists.
  - intros [x Hx]. exists (n, x). split; [done|]. by apply elem_of_map_to_list.
Qed.
Print Assumptions C84_prompts.
(** The listings are values of the documented types. *)
Theorem C84_typed : ∀ cf, is_of t_list_tools_result (handle_list_tools cf) ∧ is_of t_list_prompts_result (handle_list_prompts cf).
Proof.
  intros cf. split.
  - eexists _, []. split; [by rewrite app_nil_r|]. split; [|done]. eexists _, []. split; [done|]. split; [|by left]. eexists. split; [done|]. apply Forall_fmap, Forall_true. intros n.
    eexists _, []. split; [by rewrite app_nil_r|]. split; [|done]. eexists _, _. split; [done|]. split; [by eexists|]. left. eexists _, []. done.
  - eexists _, []. split; [by rewrite app_nil_r|]. split; [|done]. eexists _, []. split; [done|]. split; [|by left]. eexists. split; [done|]. apply Forall_fmap, Forall_true. intros n.
    eexists _, []. split; [by rewrite app_nil_r|]. split; [|done]. eexists _, _. split; [done|]. split; [by eexists|]. left. by left.
Qed.
Print Assumptions C84_typed.

(** ** C85: advertised capabilities *)
(** A server with tools, prompts and resources advertises nothing unless it is told to. *)
Theorem C85_silent_refuted : ∀ os cf behave key id p s, build os = inl cf → Forall (λ o, match o with BCaps _ | BSampling _ => False | _ => True end) os →
  ∃ v, (handle_request cf behave key id (RClient CInitialize p) s).2 = Some (success id v) ∧ field "capabilities" v = JObj [].
Proof.
  intros os cf behave key id p s Hb Ho. eexists. split; [done|]. unfold build in Hb. cbn zeta in Hb. destruct (b_name _); [|done]. destruct (b_version _); [|done].
  injection Hb as <-. unfold initialize_result. cbn [cf_caps]. by rewrite caps_default.
Qed.
Print Assumptions C85_silent_refuted.
(** A sampling handler is advertised, if the capabilities are not set afterwards. *)
Theorem C85_sampling_partial : ∀ os1 h os2 cf behave key id p s, build (os1 ++ BSampling h :: os2) = inl cf → Forall (λ o, match o with BCaps _ => False | _ => True end) os2 →
  ∃ v c, (handle_request cf behave key id (RClient CInitialize p) s).2 = Some (success id v) ∧ field "capabilities" v = scaps_json c ∧ is_Some (sc_sampling c).
Proof.
  intros os1 h os2 cf behave key id p s Hb Ho. pose proof (caps_sampling os1 h os2 Ho) as Hs. unfold build in Hb. cbn zeta in Hb. destruct (b_name _); [|done]. destruct (b_version _); [|done].
  injection Hb as <-. eexists _, _. split; [done|]. split; [|exact Hs]. done.
Qed.
Print Assumptions C85_sampling_partial.
Theorem C85_overwritten_refuted : ∀ os h c cf behave key id p s, build (os ++ [BSampling h; BCaps c]) = inl cf → sc_sampling c = None →
  cf_sampling cf = Some h ∧ ∃ v, (handle_request cf behave key id (RClient CInitialize p) s).2 = Some (success id v) ∧ field "capabilities" v = scaps_json c.
Proof.
  intros os h c cf behave key id p s Hb Hs. split.
  - destruct (built _ _ Hb) as [_ _ _ H _ _]. rewrite H, cons_middle, app_assoc, !told_snoc. done.
  - unfold build in Hb. rewrite fold_left_app in Hb. cbn in Hb. destruct (b_name _); [|done]. destruct (b_version _); [|done]. injection Hb as <-. by eexists.
Qed.
Print Assumptions C85_overwritten_refuted.

(** ** C86: cancellation *)
(** No handler ever gets a token that cancel_request could reach, and cancel_request does nothing. *)
Theorem C86_unreachable_refuted : ∀ cf behave key es,
  Forall (λ i, i_token i = None) (sv_calls (v_run cf behave key es)) ∧ ∀ id r, v_run cf behave key (es ++ [ECancel id r]) = v_run cf behave key es.
Proof. intros cf behave key es. split; [by apply tokens_empty|]. intros id r. rewrite run_snoc. apply cancel_nothing. Qed.
Print Assumptions C86_unreachable_refuted.
(** Nor do a client's notifications do anything. *)
Theorem C86_ignored_refuted : ∀ cf behave key es n ok, v_run cf behave key (es ++ [EMessage (MsgNotification n) ok]) = v_run cf behave key es.
Proof. intros cf behave key es n ok. rewrite run_snoc. cbn. by destruct (sv_listening _). Qed.
Print Assumptions C86_ignored_refuted.

(** ** C87: subscriptions *)
(** What clients send makes no difference to the notifications of an update. *)
Theorem C87_requests_refuted : ∀ cf behave key es u,
  resource_updated u (v_run cf behave key es) = resource_updated u (v_run cf behave key (filter (λ e, is_message e = false) es)).
Proof. intros cf behave key es u. unfold resource_updated. by rewrite subs_messages. Qed.
Print Assumptions C87_requests_refuted.
(** Subscriptions made through the API are those of the subscription manager (C31). *)
Definition api_call (e : event) : option sop :=
  match e with
  | ESubscribe u c => if nonempty u && nonempty c then Some (SSub u c) else None
  | EUnsubscribe u c => if nonempty u && nonempty c then Some (SUnsub u c) else None
  | _ => None end.
Theorem C87_api_partial : ∀ cf behave key es, sv_subs (v_run cf behave key es) = s_run (omap api_call es).
Proof.
  intros cf behave key es. induction es as [|e es IH] using rev_ind; [done|]. rewrite run_snoc, subs_step, omap_app, IH. unfold s_run. rewrite fold_left_app.
  destruct e as [m ok| |id r|u c|u c]; cbn; try done; by destruct (nonempty u && nonempty c).
Qed.
Print Assumptions C87_api_partial.

(** ** C88: outgoing notifications *)
(** Accepted notifications are sent in order, each at most once, and stay available until sent; up to
    100 waiting ones are all accepted. *)
Theorem C88_order_partial : ∀ (M R P : Type) (needs : M → bool) os, ∃ accepted rest, accepted `sublist_of` posts os ∧
  accepted = notified (t_wire (@t_run M R P needs tasks_new os)) ++ rest ∧ ((length (posts os) ≤ 100)%nat → accepted = posts os).
Proof.
  intros M R P needs os. destruct (notes_run needs tasks_new os) as (k & Hk & He & Hall). exists k, (waiting (t_run needs tasks_new os)). split; [done|].
  split; [by rewrite He|]. exact Hall.
Qed.
Print Assumptions C88_order_partial.
(** One that waits when a message arrives is the next thing sent. *)
Theorem C88_next_partial : ∀ (M R P : Type) (needs : M → bool) os n m, let s := @t_run M R P needs tasks_new os in t_message s = MReceiving → t_notify s = NToSend n →
  t_wire (t_run needs s [TArrive m; TNotify]) = t_wire s ++ [SNotification n].
Proof. intros M R P needs os n m s Hm Hn. by destruct (waiting_next needs os n m Hm Hn) as [_ H]. Qed.
Print Assumptions C88_next_partial.
(** But as long as no message arrives from the client, nothing is sent: the task that waits for a
    message holds the transport. *)
Theorem C88_blocked_refuted : ∀ (M R P : Type) (needs : M → bool) os os2, t_message (@t_run M R P needs tasks_new os) = MReceiving → silent os2 →
  t_wire (t_run needs tasks_new (os ++ os2)) = t_wire (t_run needs tasks_new os).
Proof.
  intros M R P needs os os2 Hm Hs. unfold t_run. rewrite fold_left_app. fold (t_run needs tasks_new os). fold (t_run needs (t_run needs tasks_new os) os2).
  by apply (blocked needs _ _ Hm (li_receiving _ (lock_run needs os) Hm) Hs).
Qed.
Print Assumptions C88_blocked_refuted.

(** ** C89: version negotiation *)
Theorem C89_fixed_refuted : ∀ cf behave key id p s, ∃ v, (handle_request cf behave key id (RClient CInitialize p) s).2 = Some (success id v) ∧
  field "protocolVersion" v = JStr (lit "2024-11-05").
Proof. intros cf behave key id p s. by eexists. Qed.
Print Assumptions C89_fixed_refuted.
(** The answer is an InitializeResult with the server's name and version. *)
Theorem C89_info_partial : ∀ os cf behave key id p s, build os = inl cf → ∃ v n w, (handle_request cf behave key id (RClient CInitialize p) s).2 = Some (success id v) ∧
  told name_of os = Some n ∧ told version_of os = Some w ∧ field "serverInfo" v = JObj [(lit "name", JStr n); (lit "version", JStr w)].
Proof. intros os cf behave key id p s Hb. destruct (built _ _ Hb) as [_ _ _ _ Hn Hv]. eexists _, _, _. split; [done|]. by rewrite <-Hn, <-Hv. Qed.
Print Assumptions C89_info_partial.

(** ** C90: building a server *)
Theorem C90_build : ∀ os, (∃ cf, build os = inl cf) ↔ is_Some (told name_of os) ∧ is_Some (told version_of os).
Proof. exact build_ok. Qed.
Print Assumptions C90_build.
Theorem C90_last : ∀ os cf, build os = inl cf →
  Some (cf_name cf) = told name_of os ∧ Some (cf_version cf) = told version_of os ∧ cf_resources cf = told resources_of os ∧ cf_sampling cf = told sampling_of os ∧
  (∀ n, cf_tools cf !! n = told (tool_of n) os) ∧ (∀ n, cf_prompts cf !! n = told (prompt_of n) os).
Proof. intros os cf H. by destruct (built _ _ H). Qed.
Print Assumptions C90_last.

(** ** C91: batches through the server *)
Theorem C91_ids : ∀ cf behave key q s s' resp, batch_handler cf behave key q s = (s', Some resp) → rs_id resp = rq_id q.
Proof.
  intros cf behave key q s s' resp. unfold batch_handler. destruct (parse_request q) as [[id r]|] eqn:E.
  - intros H. apply handle_id in H as [-> _]. unfold parse_request in E. destruct (parse_client_request _ _) as [[c b]|]; [by simplify_eq|]. destruct (parse_server_request _ _) as [[c b]|]; by simplify_eq.
  - by intros [= <- <-].
Qed.
Print Assumptions C91_ids.
(** A request that is no request of the protocol calls no handler and is answered with the code for
    text that is not JSON. *)
Theorem C91_unknown_refuted : ∀ cf behave key q s, parse_request q = None →
  ∃ e, batch_handler cf behave key q s = (s, Some (failure (rq_id q) e)) ∧ er_code e = (-32700)%Z.
Proof. intros cf behave key q s H. unfold batch_handler. rewrite H. by eexists. Qed.
Print Assumptions C91_unknown_refuted.
Theorem C91_same : ∀ cf behave key q id r s, parse_request q = Some (id, r) → batch_handler cf behave key q s = handle_request cf behave key id r s.
Proof. intros cf behave key q id r s H. unfold batch_handler. by rewrite H. Qed.
Print Assumptions C91_same.

(** ** Examples *)
Definition demo_builder : list bop := [BTool (lit "a") 1; BName (lit "x"); BTool (lit "b") 2; BVersion (lit "1"); BTool (lit "a") 3; BPrompt (lit "a") 4].
Definition demo_config : option config := match build demo_builder with inl c => Some c | inr _ => None end.
Definition demo_behave (l : list invocation) : hresult :=
  match last l with
  | Some i => match i_args i with JInt 0 => HErr (EProtocol (-32602) (lit "bad") None) | JInt 13 => HPanic | v => HOk v end
  | None => HOk JNull end.
Definition demo_call (id : Z) (name : string) (n : Z) : event := EMessage (MsgRequest (IdNum id) (RClient CCallTool (call_params (lit name) (JInt n)))) true.
Definition code_of (r : rpc_response) : option Z := match rs_payload r with PError e => Some (er_code e) | _ => None end.
(** A tool is called before initialization, an error's code is lost, a panic ends the service. *)
Example C38_example : match demo_config with
  | None => False
  | Some cf =>
    let s := v_run cf demo_behave (λ _, "") [demo_call 7 "a" 5; demo_call 8 "b" 0; demo_call 9 "zz" 1; EMessage (MsgRequest (IdNum 10) (RServer SListRoots JNull)) true; demo_call 11 "a" 13; demo_call 12 "a" 1] in
    ((λ r, (rs_id r, code_of r)) <$> sv_sent s) = [(IdNum 7, None); (IdNum 8, Some (-32603)%Z); (IdNum 9, Some (-32603)%Z); (IdNum 10, Some (-32601)%Z)] ∧
    (i_handler <$> sv_calls s) = [3; 2; 3] ∧ sv_listening s = false ∧ sv_initialized s = false
  end.
Proof. by vm_compute. Qed.
Example C84_example : match demo_config with
  | None => False
  | Some cf => match handle_list_tools cf with JObj [(_, JArr l)] => length l = 2%nat ∧ tool_info (lit "a") ∈ l ∧ tool_info (lit "b") ∈ l | _ => False end end.
Proof. vm_compute. repeat split; repeat constructor. Qed.
Example C87_example : match demo_config with
  | None => False
  | Some cf =>
    let sub := MsgRequest (IdNum 1) (RClient CSubscribe (JObj [(lit "uri", JStr (lit "u"))])) in
    resource_updated "u" (v_run cf demo_behave (λ _, "") [EMessage sub true]) = ([], 0%nat) ∧
    resource_updated "u" (v_run cf demo_behave (λ _, "") [EMessage sub true; ESubscribe "u" "c"; ESubscribe "" "d"]) = (["u"], 1%nat) end.
Proof. by vm_compute. Qed.
(** A notification posted while the server listens goes out only when a message arrives. *)
Example C88_example :
  let r := @t_run nat nat nat (λ _, true) tasks_new in
  t_message (r [TListen; TPost 5; TTake; TPost 6]) = MReceiving ∧ t_notify (r [TListen; TPost 5; TTake; TPost 6]) = NToSend 5 ∧
  t_wire (r [TListen; TPost 5; TTake; TPost 6; TNotify; TTake; TNotify]) = [] ∧
  t_wire (r [TListen; TPost 5; TTake; TPost 6; TArrive 1; TNotify; TTake; TNotify; THandled 2; TRespond; TListen; TPost 7; TTake; TNotify]) =
    [SNotification 5; SNotification 6; SResponse 2].
Proof. by vm_compute. Qed.
