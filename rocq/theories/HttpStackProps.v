(** C209: a client and a server of this library connected over HTTP. *)
From stdpp Require Import gmap strings list sets.
From Verif Require Import ListLib TextLib JsonLib SerdeLib TypesModel ManagersModel SseModel SseSpec HttpModel HttpClientModel HttpClientSpec RpcModel RpcSpec RpcProofs ServerModel ServerSpec ClientModel ClientSpec HttpStackModel HttpStackSpec HttpStackProofs HttpStackProofs2 HttpStackProofs3.
From Verif Require HttpClientProofs ServerProofs ClientProofs StackModel StackSpec StackProofs StackProofs2 StackProps.
Notation shown_as := StackSpec.shown_as.

(** ** C209: a session over HTTP is the session itself *)
(** In every session over HTTP with a stateful server – any calls, one after the other, with or without
    JSON responses or an event store, whatever ids and tokens are generated – the handlers run exactly once
    for each request sent, in the order of the requests, each with the arguments of its request. *)
Theorem C209_once : ∀ os cf behave key tcf hcf ops y rs, build os = inl cf → never_panics behave → scaps_ok (cf_caps cf) → no_clash tcf → hc_stateful hcf = true →
  Forall (usable_call tcf) ops → web_session cf behave key tcf hcf web_new ops = (y, rs) → answers_travel cf behave key y →
  invoked <$> sv_calls (behind cf behave key y) = omap (destination os) (StackSpec.requests (cl_sent (g_client y))).
Proof.
  intros os cf behave key tcf hcf ops y rs Hb Hp Hok Hcl Hst Hu Hs Ht.
  apply (web_session_ready os cf behave key tcf hcf Hb Hp Hcl Hst Hok ops web_new y rs Hu (web_ready_new _ _ _ _ _) Hs Ht).
Qed.
Print Assumptions C209_once.
(** Whenever the client is not initialized yet, initialize succeeds: the client learns the server's
    capabilities, name and version, the server the client's capabilities, and the client's transport is in
    a session the HTTP server knows. *)
Theorem C209_handshake : ∀ os cf behave key tcf hcf ops y rs caps info id u1 u2 y' r, build os = inl cf → never_panics behave → scaps_ok (cf_caps cf) → no_clash tcf → hc_stateful hcf = true →
  Forall (usable_call tcf) ops → web_session cf behave key tcf hcf web_new ops = (y, rs) → cl_initialized (g_client y) = false → usable_call tcf (OInitialize caps info, id, (u1, u2)) →
  web_call cf behave key tcf hcf y (OInitialize caps info) id u1 u2 = (y', r) → answers_travel cf behave key y' →
  (∃ n v, told name_of os = Some n ∧ told version_of os = Some v ∧
    r = COk (JObj [(lit "protocolVersion", JStr (lit "2024-11-05")); (lit "capabilities", scaps_json (cf_caps cf)); (lit "serverInfo", JObj [(lit "name", JStr n); (lit "version", JStr v)])])) ∧
  cl_initialized (g_client y') = true ∧ sv_initialized (behind cf behave key y') = true ∧ sv_client (behind cf behave key y') = Some caps ∧
  ∃ sid, tp_session (g_tp y') = Some sid ∧ is_Some (sx_sessions (g_http y') !! sid).
Proof.
  intros os cf behave key tcf hcf ops y rs caps info id u1 u2 y' r Hb Hp Hok Hcl Hst Hu Hs Hi Hu0 Hc Ht.
  pose proof (session_call os cf behave key tcf hcf Hb Hp Hcl Hst Hok _ _ _ _ _ _ _ _ _ Hu Hs Hc Ht) as Hr. destruct Hu0 as (Hpo & Hu1 & Hu2). cbn [fst snd] in *.
  destruct (web_call_ready os cf behave key tcf hcf Hb Hp Hcl Hst Hok _ _ _ _ _ _ _ Hr Hpo Hu1 Hu2 Hc Ht) as [Hr' H]. unfold StackProofs.opening in H. rewrite Hi in H. destruct H as (s1 & x & Hh & Hsv & _ & Hcs & _).
  destruct (ClientProofs.handshake_works cf behave key (behind cf behave key y) (g_client y) (MkEvent (OInitialize caps info) id true [MsgResponse x] true) caps info) as (c' & Hs' & H1 & H2);
    [done|done|by apply Hr|done|done|done|cbn [e_id e_arrived]; by rewrite Hh|].
  rewrite Hcs in Hs'. apply pair_equal_spec in Hs' as [<- ->]. cbn [handle_request] in Hh. apply pair_equal_spec in Hh as [E _]. rewrite Hsv, <-E. cbn [sv_initialized sv_client].
  split. { destruct (ServerProofs.built _ _ Hb) as [_ _ _ _ E1 E2]. exists (cf_name cf), (cf_version cf). done. }
  split; [done|]. split; [done|]. split; [done|]. destruct (wr_after _ _ _ _ _ _ Hr' H1) as [_ (sid & w & [_ O1 _ _ O4 _])]. exists sid. split; [done|]. by rewrite O4.
Qed.
Print Assumptions C209_handshake.
(** After that, a call the server's capabilities allow runs the handler it is for, with the arguments
    given and under the request's id, and returns what the handler returned – a tool's value as JSON
    text – or, if the handler failed, the text of its error with code -32603. *)
Theorem C209_result : ∀ os cf behave key tcf hcf ops y rs k p id u1 u2 y' r kd h args, build os = inl cf → never_panics behave → typed behave → scaps_ok (cf_caps cf) → no_clash tcf → hc_stateful hcf = true →
  Forall (usable_call tcf) ops → web_session cf behave key tcf hcf web_new ops = (y, rs) → cl_initialized (g_client y) = true → k ≠ CCreateMessage → allows (scaps_json (cf_caps cf)) k →
  usable_call tcf (OCall k p, id, (u1, u2)) → web_call cf behave key tcf hcf y (OCall k p) id u1 u2 = (y', r) → answers_travel cf behave key y' → destination os (RClient k p) = Some (kd, h, args) →
  ∃ i, sv_calls (behind cf behave key y') = sv_calls (behind cf behave key y) ++ [i] ∧ invoked i = (kd, h, args) ∧ i_request i = rid_show id ∧
    match behave (sv_calls (behind cf behave key y')) with
    | HOk v => r = COk (shown_as kd v)
    | HErr e => r = CErr (EProtocol (-32603) (error_display e) None)
    | HPanic => False
    end.
Proof.
  intros os cf behave key tcf hcf ops y rs k p id u1 u2 y' r kd h args Hb Hp Hty Hok Hcl Hst Hu Hs Hi Hk Ha Hu0 Hc Ht Hd.
  pose proof (session_call os cf behave key tcf hcf Hb Hp Hcl Hst Hok _ _ _ _ _ _ _ _ _ Hu Hs Hc Ht) as Hr. destruct (wr_after _ _ _ _ _ _ Hr Hi) as [Hsv _].
  assert (is_method k = true) as Hm by (destruct k; first [done|discriminate Hd]).
  assert (k ≠ CComplete) as Hnc by (intros ->; discriminate Hd).
  pose proof (ClientProofs.allowed k (g_client y) _ Hm Hk Hi Hsv Ha) as Hn.
  destruct (web_permitted os cf behave key tcf hcf Hb Hp Hcl Hst Hok _ _ _ _ _ _ _ _ Hr Hu0 Hm Hn Hc Ht) as (x & Hh & -> & Hg).
  destruct (StackProofs2.fate os cf behave key Hb _ _ _ _ _ _ _ _ _ Hg Hd Hh) as (i & H1 & H2 & H3 & H4). exists i. split; [done|]. split; [done|]. split; [done|].
  destruct (behave (sv_calls (behind cf behave key y'))) as [v|e|] eqn:E; cbn [StackProofs2.outcome] in H4; [| |discriminate H4].
  - injection H4 as ->. rewrite ClientProofs.finish_typed by (by eapply ClientProofs.server_result_typed). f_equal. destruct k; cbn [result_ty]; try done; discriminate Hd.
  - injection H4 as ->. done.
Qed.
Print Assumptions C209_result.
(** A tool or prompt that is not there: the caller is told so by name, and no handler runs. *)
Theorem C209_absent : ∀ os cf behave key tcf hcf ops y rs k name args id u1 u2 y' r, build os = inl cf → never_panics behave → scaps_ok (cf_caps cf) → no_clash tcf → hc_stateful hcf = true →
  Forall (usable_call tcf) ops → web_session cf behave key tcf hcf web_new ops = (y, rs) → cl_initialized (g_client y) = true → allows (scaps_json (cf_caps cf)) k →
  usable_call tcf (OCall k (call_params name args), id, (u1, u2)) → web_call cf behave key tcf hcf y (OCall k (call_params name args)) id u1 u2 = (y', r) → answers_travel cf behave key y' →
  (k = CCallTool ∧ told (tool_of name) os = None → r = CErr (EProtocol (-32603) (lit "Resource not found: Tool '" ++ name ++ lit "' not found") None) ∧ sv_calls (behind cf behave key y') = sv_calls (behind cf behave key y)) ∧
  (k = CGetPrompt ∧ told (prompt_of name) os = None → r = CErr (EProtocol (-32603) (lit "Resource not found: Prompt '" ++ name ++ lit "' not found") None) ∧ sv_calls (behind cf behave key y') = sv_calls (behind cf behave key y)).
Proof.
  intros os cf behave key tcf hcf ops y rs k name args id u1 u2 y' r Hb Hp Hok Hcl Hst Hu Hs Hi Ha Hu0 Hc Ht.
  pose proof (session_call os cf behave key tcf hcf Hb Hp Hcl Hst Hok _ _ _ _ _ _ _ _ _ Hu Hs Hc Ht) as Hr. destruct (wr_after _ _ _ _ _ _ Hr Hi) as [Hsv _].
  destruct (ServerProofs.built _ _ Hb) as [E1 E2 _ _ _ _].
  split; intros [-> Hn].
  - destruct (web_permitted os cf behave key tcf hcf Hb Hp Hcl Hst Hok _ _ _ _ _ _ _ _ Hr Hu0 (eq_refl true) (ClientProofs.allowed CCallTool (g_client y) _ (eq_refl true) ltac:(discriminate) Hi Hsv Ha) Hc Ht) as (x & Hh & -> & _).
    rewrite StackProofs2.handle_other in Hh by done; cbn [process_client_request] in Hh; change (text_of (field "name" (call_params name args))) with name in Hh.
    rewrite E1, Hn in Hh. apply pair_equal_spec in Hh as [<- Hx]. injection Hx as <-. split; reflexivity.
  - destruct (web_permitted os cf behave key tcf hcf Hb Hp Hcl Hst Hok _ _ _ _ _ _ _ _ Hr Hu0 (eq_refl true) (ClientProofs.allowed CGetPrompt (g_client y) _ (eq_refl true) ltac:(discriminate) Hi Hsv Ha) Hc Ht) as (x & Hh & -> & _).
    rewrite StackProofs2.handle_other in Hh by done; cbn [process_client_request] in Hh; change (text_of (field "name" (call_params name args))) with name in Hh.
    rewrite E2, Hn in Hh. apply pair_equal_spec in Hh as [<- Hx]. injection Hx as <-. split; reflexivity.
Qed.
Print Assumptions C209_absent.
(** A call that is not allowed does not reach the HTTP server: nothing is posted. *)
Theorem C209_refused : ∀ os cf behave key tcf hcf ops y rs k p id u1 u2 y' r, build os = inl cf → never_panics behave → scaps_ok (cf_caps cf) → no_clash tcf → hc_stateful hcf = true →
  Forall (usable_call tcf) ops → web_session cf behave key tcf hcf web_new ops = (y, rs) → cl_initialized (g_client y) = false ∨ ¬ allows (scaps_json (cf_caps cf)) k →
  web_call cf behave key tcf hcf y (OCall k p) id u1 u2 = (y', r) → answers_travel cf behave key y' →
  (∃ e, r = CErr e) ∧ y' = y.
Proof.
  intros os cf behave key tcf hcf ops y rs k p id u1 u2 y' r Hb Hp Hok Hcl Hst Hu Hs Hn Hc Ht.
  pose proof (session_call os cf behave key tcf hcf Hb Hp Hcl Hst Hok _ _ _ _ _ _ _ _ _ Hu Hs Hc Ht) as Hr.
  assert (is_method k = false ∨ is_Some (refused k (g_client y))) as Hk.
  { destruct (is_method k) eqn:Hm; [right|by left]. destruct (refused k (g_client y)) eqn:E; [by eexists|]. exfalso.
    apply ClientProofs.refused_allows in E as [Hi E]; [|done]. destruct Hn as [Hn|Hn]; [congruence|]. apply Hn. destruct (wr_after _ _ _ _ _ _ Hr Hi) as [Hsv _].
    destruct E as [E|(caps & Hs' & E)]; [|rewrite Hsv in Hs'; by injection Hs' as <-]. split; [by intros cap; rewrite E|]. by intros ->. }
  assert (∃ e, ∀ got nok, c_step (g_client y) (MkEvent (OCall k p) id true got nok) = (g_client y, CErr e)) as [e He].
  { destruct Hk as [Hm|[e He]]; unfold c_step; cbn [e_op]; [rewrite Hm|rewrite He]; [by eexists|]. destruct (is_method k); by eexists. }
  assert (web_call cf behave key tcf hcf y (OCall k p) id u1 u2 = (MkWeb (deliver [] (g_client y)) (g_tp y) (g_http y), CErr e)) as E.
  { unfold web_call. rewrite He. unfold sends at 1. cbn [fst]. rewrite drop_all. cbn [head trip option_list length]. rewrite !He. unfold sends. cbn [fst]. rewrite drop_all. cbn -[c_step deliver]. by rewrite ?He. }
  rewrite Hc in E. apply pair_equal_spec in E as [-> ->]. rewrite StackProofs.deliver_nil. split; [by eexists|]. by destruct y.
Qed.
Print Assumptions C209_refused.
(** Which transport carries a session makes no difference: made over HTTP and over stdio, the same calls
    return the same results, leave the client with the same state, and run the same handlers with the same
    arguments in the same order. *)
Theorem C209_same : ∀ os cf behave key tcf hcf ops y rs y' rs', build os = inl cf → never_panics behave → scaps_ok (cf_caps cf) → no_clash tcf → hc_stateful hcf = true →
  Forall (usable_call tcf) ops →
  web_session cf behave key tcf hcf web_new ops = (y, rs) → answers_travel cf behave key y →
  StackModel.session cf behave key StackModel.stack_new ops.*1 = (y', rs') → StackSpec.travels y' →
  rs = rs' ∧ g_client y = StackModel.y_client y' ∧ sv_calls (behind cf behave key y) = sv_calls (StackModel.y_server y').
Proof.
  intros os cf behave key tcf hcf ops y rs y' rs' Hb Hp Hok Hcl Hst Hu Hs Ht Hs' Ht'.
  destruct (same_session os cf behave key tcf hcf Hb Hp Hcl Hst Hok ops StackModel.stack_new y' web_new y rs' rs) as (-> & -> & E); [done|done|by apply StackProofs2.ready_new|by apply web_ready_new|done..|].
  split; [done|]. split; [done|]. by apply (f_equal sv_calls) in E.
Qed.
Print Assumptions C209_same.

Definition web_demo_ops : list (cop * rid * (supply * supply)) :=
  let u n := MkSupply (Some (lit "tok")) (lit "s" ++ [n]) (lit "e" ++ [n]) (lit "f" ++ [n]) in
  [(OCall CPing JNull, IdStr (lit "a"), (u 65%N, u 66%N)); (OInitialize (JObj []) (JObj [(lit "name", JStr (lit "c")); (lit "version", JStr (lit "2"))]), IdStr (lit "b"), (u 67%N, u 68%N));
   (OCall CCallTool (call_params (lit "add") (JObj [(lit "x", JInt 3)])), IdStr (lit "c"), (u 69%N, u 70%N)); (ORootsChanged, IdStr (lit "d"), (u 71%N, u 72%N));
   (OCall CCallTool (call_params (lit "add") JNull), IdStr (lit "e"), (u 73%N, u 74%N)); (OCall CCallTool (call_params (lit "sub") JNull), IdStr (lit "f"), (u 75%N, u 76%N))].
Definition web_demo (json store : bool) : web * list cresult :=
  web_session StackProps.demo_config StackProps.demo_tool (λ _, EmptyString) (MkTConfig [(lit "x-a", lit "1")] true) (MkHConfig true json store) web_new web_demo_ops.
Ltac kept := apply HttpClientProofs.storable_check; [by vm_compute|vm_compute; lia].
Example C209_usable : Forall (usable_call (MkTConfig [(lit "x-a", lit "1")] true)) web_demo_ops ∧ no_clash (MkTConfig [(lit "x-a", lit "1")] true).
Proof.
  assert (∀ n, (n =? 0 = false)%N → (n =? 10 = false)%N → (n =? 13 = false)%N → usable (MkTConfig [(lit "x-a", lit "1")] true) (MkSupply (Some (lit "tok")) (lit "s" ++ [n]) (lit "e" ++ [n]) (lit "f" ++ [n]))) as Hu.
  { intros n H0%N.eqb_neq H1%N.eqb_neq H2%N.eqb_neq. assert (lit "f" = [102%N]) as Ef by by vm_compute. split; [intros _; by eexists|]. cbn [u_event]. rewrite Ef. unfold no_break, LF, CR. cbn [app].
    split; [split|]; rewrite !elem_of_cons, elem_of_nil; intros [E|[E|[]]]; first [discriminate E|congruence]. }
  split.
  - repeat (apply Forall_cons; split); [..|by apply Forall_nil_2]; (split; [|split; by apply Hu]); cbn [postable fst snd].
    + split; [|kept]. done.
    + split; [|kept]. split; [done|]. apply (StackProps.typed_request CInitialize _ _ eq_refl); [kept|by vm_compute].
    + split; [|kept]. split; [done|]. apply (StackProps.typed_request CCallTool _ _ eq_refl); [kept|by vm_compute].
    + exact I.
    + split; [|kept]. split; [done|]. apply (StackProps.typed_request CCallTool _ _ eq_refl); [kept|by vm_compute].
    + split; [|kept]. split; [done|]. apply (StackProps.typed_request CCallTool _ _ eq_refl); [kept|by vm_compute].
  - apply Forall_singleton. by apply (bool_decide_unpack _); vm_compute.
Qed.
(** With a JSON response or an event stream as the server's answer, the results are those over stdio. *)
Example C209_example :
  drop 2 (web_demo true false).2 = [COk (shown_as KTool (JArr [JInt 1; JStr (lit "a""b")])); COk JNull;
     CErr (EProtocol (-32603) (lit "Internal error: no") None); CErr (EProtocol (-32603) (lit "Resource not found: Tool 'sub' not found") None)] ∧
  (web_demo false true).2 = (web_demo true false).2 ∧
  (web_demo false true).2 = (StackModel.session StackProps.demo_config StackProps.demo_tool (λ _, EmptyString) StackModel.stack_new web_demo_ops.*1).2 ∧
  tp_session (g_tp (web_demo false true).1) = Some (lit "sC") ∧ length (es_order (sx_store (g_http (web_demo false true).1))) = 4%nat.
Proof. by vm_compute. Qed.
Example C209_travels : answers_travel StackProps.demo_config StackProps.demo_tool (λ _, EmptyString) (web_demo false true).1.
Proof.
  apply travel_list.
  assert (answers_of StackProps.demo_config StackProps.demo_tool (λ _, EmptyString) [] (sx_log (g_http (web_demo false true).1)) =
    [success (IdStr (lit "b")) (initialize_result StackProps.demo_config); success (IdStr (lit "c")) (shown_as KTool (JArr [JInt 1; JStr (lit "a""b")]));
     failure (IdStr (lit "e")) {| er_code := -32603; er_message := lit "Internal error: no"; er_data := None |};
     failure (IdStr (lit "f")) {| er_code := -32603; er_message := lit "Resource not found: Tool 'sub' not found"; er_data := None |}]) as -> by by vm_compute.
  repeat (apply Forall_cons; split); [..|by apply Forall_nil_2]; (split; [|kept]);
    (refine (conj I _); first [exact I|cbn [rs_payload failure]; split; [unfold i32_ok; cbn [er_code]; lia|cbn [er_data]; discriminate]]).
Qed.
