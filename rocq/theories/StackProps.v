(** C197: a client and a server of this library connected over stdio. *)
From stdpp Require Import gmap strings list.
From Verif Require HttpClientProofs.
From Verif Require Import TextLib JsonLib SerdeLib TypesModel RpcModel RpcSpec RpcProofs ManagersModel ServerModel ServerSpec ServerProofs ClientModel ClientSpec ClientProofs StdioModel StdioSpec StackModel StackSpec StackProofs StackProofs2.

(** ** C197: what a caller gets is what the handlers did *)
(** In every session over stdio – any calls, one after the other – the handlers run exactly once for
    each request sent, in the order of the requests, each with the arguments of its request. *)
Theorem C197_once : ∀ os cf behave key ops y rs, build os = inl cf → never_panics behave → session cf behave key stack_new ops = (y, rs) → travels y →
  invoked <$> sv_calls (y_server y) = omap (destination os) (requests (cl_sent (y_client y))).
Proof. intros os cf behave key ops y rs Hb Hp Hs Ht. apply (session_ready os cf behave key Hb Hp ops stack_new y rs (ready_new os) Hs Ht). Qed.
Print Assumptions C197_once.
(** Whenever the client is not initialized yet, initialize succeeds: the client learns the server's
    capabilities, name and version, and the server the client's capabilities. *)
Theorem C197_handshake : ∀ os cf behave key ops y rs caps info id y' r, build os = inl cf → never_panics behave → scaps_ok (cf_caps cf) →
  session cf behave key stack_new ops = (y, rs) → cl_initialized (y_client y) = false →
  call cf behave key y (OInitialize caps info) id = (y', r) → travels y' →
  (∃ n v, told name_of os = Some n ∧ told version_of os = Some v ∧
    r = COk (JObj [(lit "protocolVersion", JStr (lit "2024-11-05")); (lit "capabilities", scaps_json (cf_caps cf)); (lit "serverInfo", JObj [(lit "name", JStr n); (lit "version", JStr v)])])) ∧
  cl_initialized (y_client y') = true ∧ sv_initialized (y_server y') = true ∧ sv_client (y_server y') = Some caps.
Proof.
  intros os cf behave key ops y rs caps info id y' r Hb Hp Hok Hs Hi Hc Ht.
  assert (ready os y) as Hr.
  { destruct (call_grows cf behave key _ _ _ _ _ Hc) as [G1 G2]. apply (session_ready os cf behave key Hb Hp ops stack_new y rs (ready_new os) Hs). by eapply travels_back. }
  destruct (call_ready os cf behave key Hb Hp _ _ _ _ _ Hr Hc Ht) as [_ H]. unfold opening in H. rewrite Hi in H. destruct H as (s1 & x & Hh & Hsv & _ & Hst & _).
  destruct (handshake_works cf behave key (y_server y) (y_client y) (MkEvent (OInitialize caps info) id true [MsgResponse x] true) caps info) as (c' & Hs' & H1 & H2);
    [done|done|by apply Hr|done|done|done|cbn [e_id e_arrived]; by rewrite Hh|].
  rewrite Hst in Hs'. apply pair_equal_spec in Hs' as [-> ->]. cbn [handle_request] in Hh. apply pair_equal_spec in Hh as [<- _]. rewrite Hsv. cbn [sent sv_initialized sv_client].
  split; [|done]. destruct (built _ _ Hb) as [_ _ _ _ E1 E2]. exists (cf_name cf), (cf_version cf). done.
Qed.
Print Assumptions C197_handshake.
(** After that, a call the server's capabilities allow runs the handler it is for, with the arguments
    given and under the request's id, and returns what the handler returned – a tool's value as JSON
    text – or, if the handler failed, the text of its error with code -32603. *)
Theorem C197_result : ∀ os cf behave key ops y rs k p id y' r kd h args, build os = inl cf → never_panics behave → typed behave → scaps_ok (cf_caps cf) →
  session cf behave key stack_new ops = (y, rs) → cl_initialized (y_client y) = true → k ≠ CCreateMessage → allows (scaps_json (cf_caps cf)) k →
  call cf behave key y (OCall k p) id = (y', r) → travels y' → destination os (RClient k p) = Some (kd, h, args) →
  ∃ i, sv_calls (y_server y') = sv_calls (y_server y) ++ [i] ∧ invoked i = (kd, h, args) ∧ i_request i = rid_show id ∧
    match behave (sv_calls (y_server y')) with
    | HOk v => r = COk (shown_as kd v)
    | HErr e => r = CErr (EProtocol (-32603) (error_display e) None)
    | HPanic => False
    end.
Proof.
  intros os cf behave key ops y rs k p id y' r kd h args Hb Hp Hty Hok Hs Hi Hk Ha Hc Ht Hd.
  destruct (call_grows cf behave key _ _ _ _ _ Hc) as [G1 G2]. pose proof (travels_back _ _ G1 G2 Ht) as Hty0.
  pose proof (session_ready os cf behave key Hb Hp ops stack_new y rs (ready_new os) Hs Hty0) as Hr.
  assert (cl_server (y_client y) = Some (scaps_json (cf_caps cf))) as Hsv by (by eapply (session_caps os cf behave key Hb Hp ops stack_new y rs Hok (ready_new os))).
  assert (is_method k = true) as Hm by (destruct k; first [done|discriminate Hd]).
  assert (k ≠ CComplete) as Hnc by (intros ->; discriminate Hd).
  pose proof (allowed k (y_client y) _ Hm Hk Hi Hsv Ha) as Hn.
  by eapply (call_reaches os cf behave key Hb Hp y k p id y' r).
Qed.
Print Assumptions C197_result.
(** A tool or prompt that is not there: the caller is told so by name, and no handler runs. *)
Theorem C197_absent : ∀ os cf behave key ops y rs k name args id y' r, build os = inl cf → never_panics behave → scaps_ok (cf_caps cf) →
  session cf behave key stack_new ops = (y, rs) → cl_initialized (y_client y) = true → allows (scaps_json (cf_caps cf)) k →
  call cf behave key y (OCall k (call_params name args)) id = (y', r) → travels y' →
  (k = CCallTool ∧ told (tool_of name) os = None → r = CErr (EProtocol (-32603) (lit "Resource not found: Tool '" ++ name ++ lit "' not found") None) ∧ sv_calls (y_server y') = sv_calls (y_server y)) ∧
  (k = CGetPrompt ∧ told (prompt_of name) os = None → r = CErr (EProtocol (-32603) (lit "Resource not found: Prompt '" ++ name ++ lit "' not found") None) ∧ sv_calls (y_server y') = sv_calls (y_server y)).
Proof.
  intros os cf behave key ops y rs k name args id y' r Hb Hp Hok Hs Hi Ha Hc Ht.
  destruct (call_grows cf behave key _ _ _ _ _ Hc) as [G1 G2]. pose proof (travels_back _ _ G1 G2 Ht) as Hty0.
  pose proof (session_ready os cf behave key Hb Hp ops stack_new y rs (ready_new os) Hs Hty0) as Hr.
  assert (cl_server (y_client y) = Some (scaps_json (cf_caps cf))) as Hsv by (by eapply (session_caps os cf behave key Hb Hp ops stack_new y rs Hok (ready_new os))).
  destruct (built _ _ Hb) as [E1 E2 _ _ _ _].
  split; intros [-> Hn].
  - destruct (call_permitted os cf behave key Hb Hp y CCallTool _ id y' r Hr (eq_refl true) (allowed CCallTool (y_client y) _ (eq_refl true) ltac:(discriminate) Hi Hsv Ha) Hc Ht) as (s1 & x & Hh & -> & -> & _).
    rewrite handle_other in Hh by done; cbn [process_client_request] in Hh; change (text_of (field "name" (call_params name args))) with name in Hh.
    rewrite E1, Hn in Hh. apply pair_equal_spec in Hh as [<- Hx]. injection Hx as <-. split; reflexivity.
  - destruct (call_permitted os cf behave key Hb Hp y CGetPrompt _ id y' r Hr (eq_refl true) (allowed CGetPrompt (y_client y) _ (eq_refl true) ltac:(discriminate) Hi Hsv Ha) Hc Ht) as (s1 & x & Hh & -> & -> & _).
    rewrite handle_other in Hh by done; cbn [process_client_request] in Hh; change (text_of (field "name" (call_params name args))) with name in Hh.
    rewrite E2, Hn in Hh. apply pair_equal_spec in Hh as [<- Hx]. injection Hx as <-. split; reflexivity.
Qed.
Print Assumptions C197_absent.
(** Listing the tools gives exactly the registered ones, each once. *)
Theorem C197_list : ∀ os cf behave key ops y rs p id y' r, build os = inl cf → never_panics behave → typed behave → scaps_ok (cf_caps cf) →
  session cf behave key stack_new ops = (y, rs) → cl_initialized (y_client y) = true → allows (scaps_json (cf_caps cf)) CListTools →
  call cf behave key y (OCall CListTools p) id = (y', r) → travels y' →
  ∃ names, r = COk (JObj [(lit "tools", JArr ((λ n, JObj [(lit "name", JStr n); (lit "inputSchema", JObj [])]) <$> names))]) ∧
    NoDup names ∧ (∀ n, n ∈ names ↔ is_Some (told (tool_of n) os)) ∧ sv_calls (y_server y') = sv_calls (y_server y).
Proof.
  intros os cf behave key ops y rs p id y' r Hb Hp Hty Hok Hs Hi Ha Hc Ht.
  destruct (call_grows cf behave key _ _ _ _ _ Hc) as [G1 G2]. pose proof (travels_back _ _ G1 G2 Ht) as Hty0.
  pose proof (session_ready os cf behave key Hb Hp ops stack_new y rs (ready_new os) Hs Hty0) as Hr.
  assert (cl_server (y_client y) = Some (scaps_json (cf_caps cf))) as Hsv by (by eapply (session_caps os cf behave key Hb Hp ops stack_new y rs Hok (ready_new os))).
  destruct (call_permitted os cf behave key Hb Hp y CListTools p id y' r Hr (eq_refl true) (allowed CListTools (y_client y) _ (eq_refl true) ltac:(discriminate) Hi Hsv Ha) Hc Ht) as (s1 & x & Hh & -> & -> & _).
  pose proof Hh as Hh'. rewrite handle_other in Hh by done. cbn [process_client_request] in Hh. apply pair_equal_spec in Hh as [<- Hx]. injection Hx as <-.
  exists (map_to_list (cf_tools cf)).*1. split.
  - cbn [create_response]. rewrite finish_typed; [done|]. intros t E. eapply server_result_typed; [done| | |exact Hh'|done]; done.
  - destruct (built _ _ Hb) as [E1 _ _ _ _ _]. split; [apply NoDup_fst_map_to_list|]. split; [|done]. intros n. rewrite <-E1, elem_of_list_fmap. split.
    + intros ([m w] & -> & Hx). apply elem_of_map_to_list in Hx. by eexists.
    + intros [w Hx]. exists (n, w). split; [done|]. by apply elem_of_map_to_list.
Qed.
Print Assumptions C197_list.
(** A call that is not allowed does not reach the server. *)
Theorem C197_refused : ∀ os cf behave key ops y rs k p id y' r, build os = inl cf → never_panics behave → scaps_ok (cf_caps cf) →
  session cf behave key stack_new ops = (y, rs) → cl_initialized (y_client y) = false ∨ ¬ allows (scaps_json (cf_caps cf)) k →
  call cf behave key y (OCall k p) id = (y', r) → travels y' →
  (∃ e, r = CErr e) ∧ y_server y' = y_server y ∧ y_client y' = y_client y.
Proof.
  intros os cf behave key ops y rs k p id y' r Hb Hp Hok Hs Hn Hc Ht.
  destruct (call_grows cf behave key _ _ _ _ _ Hc) as [G1 G2]. pose proof (travels_back _ _ G1 G2 Ht) as Hty0.
  pose proof (session_ready os cf behave key Hb Hp ops stack_new y rs (ready_new os) Hs Hty0) as Hr.
  destruct (call_ready os cf behave key Hb Hp _ _ _ _ _ Hr Hc Ht) as [_ H]. unfold opening in H.
  assert (is_method k = false ∨ is_Some (refused k (y_client y))) as Hk.
  { destruct (is_method k) eqn:Hm; [right|by left]. destruct (refused k (y_client y)) eqn:E; [by eexists|]. exfalso.
    apply refused_allows in E as [Hi E]; [|done]. destruct Hn as [Hn|Hn]; [congruence|]. apply Hn.
    assert (cl_server (y_client y) = Some (scaps_json (cf_caps cf))) as Hsv by (by eapply (session_caps os cf behave key Hb Hp ops stack_new y rs Hok (ready_new os))).
    destruct E as [E|(caps & Hs' & E)]; [|rewrite Hsv in Hs'; by injection Hs' as <-]. split; [by intros cap; rewrite E|]. by intros ->. }
  unfold c_step in H. cbn [e_op e_id e_ok e_arrived e_nok] in H.
  destruct Hk as [Hm|[e He]].
  - rewrite Hm in H. destruct H as [H1 H2]. apply pair_equal_spec in H2 as [<- <-]. split; [by eexists|]. done.
  - rewrite He in H. destruct (is_method k); destruct H as [H1 H2]; apply pair_equal_spec in H2 as [<- <-]; (split; [by eexists|]; done).
Qed.
Print Assumptions C197_refused.

Definition demo : list bop := [BName (lit "s"); BVersion (lit "1"); BCaps (MkScaps (Some (JObj [])) None None None None None None); BTool (lit "add") 4].
Definition demo_config : config := MkConfig (lit "s") (lit "1") (MkScaps (Some (JObj [])) None None None None None None) {[lit "add" := 4%nat]} ∅ None None.
(** A tool that counts its calls and fails on the second one. *)
Definition demo_tool (is : list invocation) : hresult :=
  match i_kind <$> last is with
  | Some KTool => if decide (length is = 2)%nat then HErr (EInternal (lit "no")) else HOk (JArr [JInt (Z.of_nat (length is)); JStr (lit "a""b")])
  | _ => HErr (EInternal (lit "no"))
  end.
Definition demo_ops : list (cop * rid) :=
  [(OCall CPing JNull, IdStr (lit "a")); (OInitialize (JObj []) (JObj [(lit "name", JStr (lit "c")); (lit "version", JStr (lit "2"))]), IdStr (lit "b"));
   (OCall CCallTool (call_params (lit "add") (JObj [(lit "x", JInt 3)])), IdStr (lit "c")); (OProgress (JObj [(lit "progressToken", JStr (lit "t")); (lit "progress", JInt 1)]), IdStr (lit "d"));
   (OCall CCallTool (call_params (lit "add") JNull), IdStr (lit "e")); (OCall CCallTool (call_params (lit "sub") JNull), IdStr (lit "f")); (OCall CListPrompts (JObj []), IdStr (lit "g")); (OCall CListTools (JObj []), IdStr (lit "h"))].
Definition demo_end : stack := (session demo_config demo_tool (λ _, EmptyString) stack_new demo_ops).1.
Ltac can_travel := split; [|split; [done|split; [apply HttpClientProofs.storable_check; [by vm_compute|vm_compute; lia]|by vm_compute]]].
Lemma typed_request k p t : creq_body k = BTy t → storable p → decode t p = Some p → good_request (RClient k p).
Proof. intros E (_ & Hk & _) Hd. pose proof (creq_body_ok k) as Ho. cbn [good_request]. rewrite E in *. by apply (decode_sound t Ho p). Qed.
Lemma typed_progress p : storable p → decode t_progress p = Some p → good_message (MsgNotification (NProgress p)).
Proof. intros (_ & Hk & _) Hd. refine (decode_sound t_progress _ p p Hk Hd). repeat constructor. Qed.
Ltac kept := apply HttpClientProofs.storable_check; [by vm_compute|vm_compute; lia].
Example C197_travels : travels demo_end.
Proof.
  assert (cl_sent (y_client demo_end) =
    [MsgRequest (IdStr (lit "b")) (RClient CInitialize (initialize_params (JObj []) (JObj [(lit "name", JStr (lit "c")); (lit "version", JStr (lit "2"))]))); MsgNotification (NClient CInitialized JNull);
     MsgRequest (IdStr (lit "c")) (RClient CCallTool (call_params (lit "add") (JObj [(lit "x", JInt 3)]))); MsgNotification (NProgress (JObj [(lit "progressToken", JStr (lit "t")); (lit "progress", JInt 1)]));
     MsgRequest (IdStr (lit "e")) (RClient CCallTool (call_params (lit "add") JNull)); MsgRequest (IdStr (lit "f")) (RClient CCallTool (call_params (lit "sub") JNull));
     MsgRequest (IdStr (lit "h")) (RClient CListTools (JObj []))]) as E1 by by vm_compute.
  assert (sv_sent (y_server demo_end) =
    [success (IdStr (lit "b")) (initialize_result demo_config); success (IdStr (lit "c")) (shown_as KTool (JArr [JInt 1; JStr (lit "a""b")]));
     failure (IdStr (lit "e")) {| er_code := -32603; er_message := lit "Internal error: no"; er_data := None |};
     failure (IdStr (lit "f")) {| er_code := -32603; er_message := lit "Resource not found: Tool 'sub' not found"; er_data := None |};
     success (IdStr (lit "h")) (JObj [(lit "tools", JArr [JObj [(lit "name", JStr (lit "add")); (lit "inputSchema", JObj [])]])])]) as E2 by by vm_compute.
  split.
  - rewrite E1. repeat (apply Forall_cons; split); [| | | | | | |by apply Forall_nil_2].
    + can_travel. split; [done|]. eapply typed_request; [reflexivity|kept|by vm_compute].
    + can_travel. done.
    + can_travel. split; [done|]. eapply typed_request; [reflexivity|kept|by vm_compute].
    + can_travel. apply typed_progress; [kept|by vm_compute].
    + can_travel. split; [done|]. eapply typed_request; [reflexivity|kept|by vm_compute].
    + can_travel. split; [done|]. eapply typed_request; [reflexivity|kept|by vm_compute].
    + can_travel. split; [done|]. eapply typed_request; [reflexivity|kept|by vm_compute].
  - rewrite E2. repeat (apply Forall_cons; split); [| | | | |by apply Forall_nil_2]; can_travel;
      (refine (conj I _); first [exact I|cbn [rs_payload failure]; split; [unfold i32_ok; cbn [er_code]; lia|cbn [er_data]; discriminate]]).
Qed.
Example C197_example :
  build demo = inl demo_config ∧ never_panics demo_tool ∧ typed demo_tool ∧ scaps_ok (cf_caps demo_config) ∧ allows (scaps_json (cf_caps demo_config)) CCallTool ∧
  drop 2 (session demo_config demo_tool (λ _, EmptyString) stack_new demo_ops).2
  = [COk (shown_as KTool (JArr [JInt 1; JStr (lit "a""b")])); COk JNull;
     CErr (EProtocol (-32603) (lit "Internal error: no") None); CErr (EProtocol (-32603) (lit "Resource not found: Tool 'sub' not found") None);
     CErr (EUnsupported (lit "Server does not support prompts (required for prompts/list)"));
     COk (JObj [(lit "tools", JArr [JObj [(lit "name", JStr (lit "add")); (lit "inputSchema", JObj [])]])])].
Proof. split; [by vm_compute|]. split; [intros is; unfold demo_tool; by repeat case_match|].
  split. { intros is i v E. unfold demo_tool in E. rewrite last_snoc in E. cbn in E. by destruct (i_kind i). }
  split. { apply is_struct. right. eexists _, _. split; [done|]. split; [done|]. split; [apply is_struct; by left|]. repeat left. done. }
  split. { split; [|done]. intros cap [= <-]. by vm_compute. }
  by vm_compute.
Qed.
