(** C225: closing one of several clients of an HTTP server that keeps sessions. *)
From stdpp Require Import gmap strings list sets.
From Verif Require Import ListLib TextLib JsonLib SerdeLib TypesModel ManagersModel SseModel SseSpec HttpModel HttpSpec HttpClientModel HttpClientSpec RpcModel RpcSpec RpcProofs ServerModel ServerSpec ClientModel ClientSpec HttpStackModel HttpStackSpec HttpStackProofs HttpStackProofs2 HttpStackProofs3 HttpCloudModel HttpCloudSpec HttpCloudProofs HttpCloudProofs2 HttpCloudProofs3 HttpCloudProps HttpCloseModel HttpCloseProofs HttpCloseProofs2 HttpSignalProps.
From Verif Require HttpClientProofs ServerProofs ClientProofs StackModel StackSpec StackProofs StackProofs2 StackProps HttpStackProps.

Lemma idle_not_waiting cf behave key D y i c t : cloud_ok cf behave key D y → cd_peers y !! i = Some (MkPeer c t JIdle) → i ∉ cd_waiting y.
Proof.
  intros K Hi H. pose proof (ck_wait _ _ _ _ _ K) as W. apply elem_of_list_lookup in H as [k H]. destruct (Forall2_lookup_l _ _ _ _ _ W H) as (pe & _ & c' & t' & o & id & f & n & r & rsid & E & _). rewrite Hi in E. discriminate E.
Qed.
(** ** C225 *)
(** When a client that has initialized and is not in a call closes its transport, the server forgets its session,
    and nothing else: other sessions, requests that wait, the MCP server and the other clients are as before. *)
Theorem C225_closed : ∀ os cf behave key tcf hcf n ds, build os = inl cf → scaps_ok (cf_caps cf) → (∀ i, no_clash (tcf i)) → hc_stateful hcf = true → NoDup (drawn ds) →
  Forall (usable_op tcf) ds → let y := d_run cf behave key tcf hcf n ds in all_travel cf behave key y →
  ∀ i c t tok, cd_peers y !! i = Some (MkPeer c t JIdle) → cl_initialized c = true → authorized (tcf i) tok →
  let z := d_close cf behave key tcf hcf i tok y in
  ∃ sid t', tp_session t = Some sid ∧ is_Some (sx_sessions (cd_http y) !! sid) ∧ cd_peers z !! i = Some (MkPeer c t' JIdle) ∧ tp_session t' = None ∧
    (∀ s, sx_sessions (cd_http z) !! s = if decide (s = sid) then None else sx_sessions (cd_http y) !! s) ∧
    core cf behave key z = core cf behave key y ∧ sx_pending (cd_http z) = sx_pending (cd_http y) ∧ sx_store (cd_http z) = sx_store (cd_http y) ∧
    cd_waiting z = cd_waiting y ∧ cd_returned z = cd_returned y ∧ (∀ j, j ≠ i → cd_peers z !! j = cd_peers y !! j) ∧
    (∀ j p, j ≠ i → cd_peers y !! j = Some p → tp_session (pe_tp p) ≠ Some sid).
Proof.
  intros os cf behave key tcf hcf n ds Hb Hok Hcl Hst Hd Hu y Ht i c t tok Hi Hin Ha z.
  pose proof (run_ok cf behave key tcf hcf Hcl Hst Hok n ds Hu Hd Ht) as K. fold y in K. destruct (ck_peers _ _ _ _ _ K i _ Hi) as (_ & Hq & Hset). cbn [pe_client pe_tp] in *.
  destruct (proj2 Hset Hin) as (_ & sid & Hon). destruct Hon as [Hs _ Hv]. assert (is_Some (sx_sessions (cd_http y) !! sid)) as Hk by (rewrite Hv; by eexists).
  destruct (closed cf behave key tcf hcf Hcl Hst i tok y c t JIdle sid Hi Ha Hs Hk) as (t' & Ez & H1 & H2). fold z in Ez. exists sid, t'. rewrite Ez. cbn [put cd_http cd_waiting cd_peers cd_returned note sx_sessions sx_pending sx_store].
  split; [done|]. split; [done|]. split; [apply list_lookup_insert; by eapply lookup_lt_Some|]. split; [done|].
  split. { intros s. case_decide as E; [subst; apply lookup_delete|]. by rewrite lookup_delete_ne. }
  split. { unfold core, note. cbn [cd_http put sx_log]. by rewrite mcp_snoc. }
  do 4 (split; [done|]). split; [intros j Hj; by rewrite list_lookup_insert_ne|].
  intros j p Hj Hp E. apply Hj. exact (ck_apart _ _ _ _ _ K j i p _ sid Hp Hi E Hs).
Qed.
Print Assumptions C225_closed.
(** Whatever is done after that, all methods of the closed client fail, and they change nothing: the other clients get the
    results, and the MCP server and what waits in the HTTP server come to be, as if the client had neither closed its
    transport nor called anything. *)
Theorem C225_others : ∀ os cf behave key tcf hcf n ds ds', build os = inl cf → scaps_ok (cf_caps cf) → (∀ i, no_clash (tcf i)) → hc_stateful hcf = true → NoDup (drawn (ds ++ ds')) →
  Forall (usable_op tcf) (ds ++ ds') → let y := d_run cf behave key tcf hcf n ds in all_travel cf behave key y →
  ∀ i c t tok, cd_peers y !! i = Some (MkPeer c t JIdle) → cl_initialized c = true → authorized (tcf i) tok →
  let z := fold_left (d_step cf behave key tcf hcf) ds' (d_close cf behave key tcf hcf i tok y) in
  let z0 := d_run cf behave key tcf hcf n (ds ++ filter (λ d, done_by i d = false) ds') in
  core cf behave key z = core cf behave key z0 ∧ cd_waiting z = cd_waiting z0 ∧ (∀ j, j ≠ i → cd_peers z !! j = cd_peers z0 !! j) ∧
  ∃ rs, cd_returned z = cd_returned y ++ rs ∧ cd_returned z0 = cd_returned y ++ filter (λ x, x.1.1.1 ≠ i) rs ∧ ∀ o id r, (i, o, id, r) ∈ rs → ∃ e, r = CErr e.
Proof.
  intros os cf behave key tcf hcf n ds ds' Hb Hok Hcl Hst Hd Hu y Ht i c t tok Hi Hin Ha z z0. apply Forall_app in Hu as [Hu Hu'].
  assert (∀ a b, drawn (a ++ b) = drawn a ++ drawn b) as Hda by (intros a b; unfold drawn; by rewrite fmap_app, concat_app). rewrite Hda in Hd. apply NoDup_app in Hd as (Hd & Hfr & _).
  pose proof (run_ok cf behave key tcf hcf Hcl Hst Hok n ds Hu Hd Ht) as K. fold y in K. destruct (ck_peers _ _ _ _ _ K i _ Hi) as (_ & Hq & Hset). cbn [pe_client pe_tp] in *.
  destruct (proj2 Hset Hin) as (_ & sid & Hon). destruct Hon as [Hs _ Hv]. assert (is_Some (sx_sessions (cd_http y) !! sid)) as Hk by (rewrite Hv; by eexists).
  destruct (closed cf behave key tcf hcf Hcl Hst i tok y c t JIdle sid Hi Ha Hs Hk) as (t' & Ez & H1 & H2). pose proof (idle_not_waiting _ _ _ _ _ _ _ _ K Hi) as Hw.
  assert (i < length (cd_peers y)) as Hlt by (by eapply lookup_lt_Some).
  assert (gone cf behave key i sid y (d_close cf behave key tcf hcf i tok y)) as G.
  { rewrite Ez. split; cbn [put cd_http cd_waiting cd_peers cd_returned]; try done.
    - split; cbn [note sx_sessions sx_streams sx_opened sx_store sx_pending sx_log]; try done.
      + rewrite (ck_streams _ _ _ _ _ K). apply delete_empty.
      + by rewrite mcp_snoc.
      + apply Forall_lookup. intros k pe Hpe. destruct (Forall2_lookup_r _ _ _ _ _ (ck_wait _ _ _ _ _ K) Hpe) as (j & Hj & c1 & t1 & o & id & f & m & r & rsid & E1 & _ & -> & Hc).
        assert (tp_session t1 ≠ Some sid) as Hne. { intros E. assert (j = i) as ->; [|rewrite Hi in E1; discriminate E1]. exact (ck_apart _ _ _ _ _ K j i _ _ sid E1 Hi E Hs). }
        split; [done|]. destruct Hc as [(_ & -> & _)|(Hri & Hn & [s' ->])]; [done|]. intros [= ->]. destruct (ck_new _ _ _ _ _ K sid) as (_ & _ & Hno); [|by apply (Hno i _ Hi)].
        apply elem_of_list_omap. eexists. split; [by eapply elem_of_list_lookup_2|]. rewrite Hn. by destruct r as [[]|].
    - by eexists.
    - intros j p Hj Hp E. apply Hj. exact (ck_apart _ _ _ _ _ K j i p _ sid Hp Hi E Hs). }
  assert (cd_peers (d_close cf behave key tcf hcf i tok y) !! i = Some (MkPeer c t' JIdle)) as Hi' by (rewrite Ez; by apply list_lookup_insert).
  assert (dead (MkPeer c t' JIdle)) as Hdead by (split; [done|split; [done|split; [by cbn; rewrite H2|done]]]).
  destruct (dead_run cf behave key tcf hcf Hcl Hst i ds' _ _ Hi' Hdead) as (q & rs & _ & E & Er & _ & _ & _ & Hrs); [by rewrite (go_waiting _ _ _ _ _ _ _ G)|done|]. fold z in E.
  set (F := filter (λ d, done_by i d = false) ds') in *. assert (Forall (λ d, done_by i d = false) F) as Hnf by (apply Forall_forall; intros d [H _]%elem_of_list_filter; done).
  assert (Forall (usable_op tcf) F) as HuF. { apply Forall_forall. intros d [_ H]%elem_of_list_filter. rewrite Forall_forall in Hu'. by apply Hu'. }
  assert (sid ∉ drawn F) as HsF.
  { intros H. apply (Hfr sid). { by apply (ck_known _ _ _ _ _ K). } unfold drawn in *. apply elem_of_list_In, in_concat in H as (l & H3 & H4). apply elem_of_list_In, in_concat. exists l. split; [|done].
    apply elem_of_list_In in H3. apply elem_of_list_In. apply elem_of_list_fmap in H3 as (d & -> & H3). apply elem_of_list_fmap. exists d. split; [done|]. by apply elem_of_list_filter in H3 as [_ ?]. }
  pose proof (gone_run cf behave key tcf hcf Hcl Hst i sid F _ _ G Hnf HuF HsF) as G'.
  assert (z0 = fold_left (d_step cf behave key tcf hcf) F y) as Ez0 by (unfold z0, d_run; by rewrite fold_left_app). rewrite <-Ez0 in G'.
  rewrite E. cbn [mask cd_waiting cd_peers cd_returned cd_http]. split. { unfold core. cbn [cd_http]. apply (sh_mcp _ _ _ _ _ _ (go_http _ _ _ _ _ _ _ G')). }
  split; [apply (go_waiting _ _ _ _ _ _ _ G')|]. split. { intros j Hj. rewrite list_lookup_insert_ne by done. destruct (go_peers _ _ _ _ _ _ _ G') as [q' ->]. by rewrite list_lookup_insert_ne. }
  exists rs. rewrite (go_returned _ _ _ _ _ _ _ G) in Er |- *. split; [done|]. split; [|done]. by rewrite <-(go_returned _ _ _ _ _ _ _ G').
Qed.
Print Assumptions C225_others.
(** Closing does not close the transport itself: when the server keeps no sessions, or the client has not initialized, it
    changes nothing whatever, so that all methods work as before. *)
Theorem C225_stays_refuted : ∀ os cf behave key tcf hcf n ds, build os = inl cf → scaps_ok (cf_caps cf) → (∀ i, no_clash (tcf i)) → (hc_stateful hcf = true → NoDup (drawn ds)) →
  Forall (usable_op tcf) ds → let y := d_run cf behave key tcf hcf n ds in all_travel cf behave key y →
  ∀ i tok, hc_stateful hcf = false ∨ (∃ c t, cd_peers y !! i = Some (MkPeer c t JIdle) ∧ cl_initialized c = false) →
  d_close cf behave key tcf hcf i tok y = y.
Proof.
  intros os cf behave key tcf hcf n ds Hb Hok Hcl Hd Hu y Ht i tok H. destruct (cd_peers y !! i) as [[c t j]|] eqn:Hi; [|unfold d_close; by rewrite Hi].
  assert (unread t) as Hun by exact (proj1 (Forall_lookup _ _) (unread_run cf behave key tcf hcf n ds) i _ Hi). apply (close_nothing _ _ _ _ _ i tok y c t j Hi); [|done].
  destruct (hc_stateful hcf) eqn:Hst.
  - destruct H as [H|(c' & t' & E & Hn)]; [discriminate H|]. simplify_eq. pose proof (run_ok cf behave key tcf hcf Hcl Hst Hok n ds Hu (Hd eq_refl) Ht) as K. destruct (ck_peers _ _ _ _ _ K i _ Hi) as (_ & Hq & Hset). by apply Hset.
  - pose proof (crowd_run cf behave key tcf hcf Hcl Hst Hok n ds Hu Ht) as K. destruct (cw_peers _ _ _ _ K i _ Hi) as [_ Hm]. destruct j as [|o id f m|o id b got]; cbn [pe_job pe_client pe_tp] in Hm.
    + apply (proj2 Hm).
    + destruct Hm as (r & t0 & q & _ & _ & -> & _ & _ & _ & Hc). apply Hc.
    + apply (proj1 (proj2 Hm)).
Qed.
Print Assumptions C225_stays_refuted.

(** *** The first client's tool call waits; the second one closes its transport, and calls the tool and initialize again *)
Definition close_later : list dop :=
  [DCall 1 (OCall CCallTool (call_params (lit "add") (JObj [(lit "x", JInt 3)]))) (IdStr (lit "x")) (Some (lit "tok")) (lit "s6"); DReturn 1 (Some (lit "tok")) (lit "s7");
   DCall 1 (OInitialize (JObj [(lit "logging", JObj [])]) (JObj [(lit "name", JStr (lit "c")); (lit "version", JStr (lit "2"))])) (IdStr (lit "y")) (Some (lit "tok")) (lit "s8"); DReturn 1 (Some (lit "tok")) (lit "s9");
   DAnswer 0 (lit "e3") (lit "f3"); DReturn 0 (Some (lit "tok")) (lit "s10")].
Example C225_usable : Forall (usable_op (λ _, MkTConfig [(lit "x-a", lit "1")] true)) (take 7 signal_ops ++ close_later) ∧ NoDup (drawn (take 7 signal_ops ++ close_later)).
Proof.
  split; [|by apply (bool_decide_unpack _); vm_compute]. apply Forall_app. split; [apply Forall_take, C222_usable|].
  repeat (apply Forall_cons; split); [..|by apply Forall_nil_2]; unfold usable_op;
    lazymatch goal with |- callable _ _ ∧ _ => split; [cbn [callable postable]|intros _; by eexists] | |- no_break _ ∧ _ => split; [split|]; by apply (bool_decide_unpack _); vm_compute | |- _ => intros _; by eexists end.
  all: split; [|kept]; split; [done|].
  - apply (StackProps.typed_request CCallTool _ _ eq_refl); [kept|by vm_compute].
  - apply (StackProps.typed_request CInitialize _ _ eq_refl); [kept|by vm_compute].
Qed.
Definition close_demo (k : nat) : cloud :=
  fold_left (d_step StackProps.demo_config StackProps.demo_tool (λ _, EmptyString) (λ _, MkTConfig [(lit "x-a", lit "1")] true) (MkHConfig true false true)) (take k close_later)
    (d_close StackProps.demo_config StackProps.demo_tool (λ _, EmptyString) (λ _, MkTConfig [(lit "x-a", lit "1")] true) (MkHConfig true false true) 1 (Some (lit "tok")) (signal_demo 7 true)).
(** The hypotheses hold after 7 steps ([C222_travels] is the other one). *)
Example C225_example :
  ((λ p, (pe_job p, cl_initialized (pe_client p), tp_session (pe_tp p))) <$> cd_peers (signal_demo 7 true) !! 1%nat) = Some (JIdle, true, Some (lit "s2")) ∧
  (λ p, tp_session (pe_tp p)) <$> cd_peers (close_demo 0) = [Some (lit "s1"); None] ∧ elements (dom (sx_sessions (cd_http (close_demo 0)))) = [lit "s1"] ∧
  drop 2 (cd_returned (close_demo 6)) =
    [(1, OCall CCallTool (call_params (lit "add") (JObj [(lit "x", JInt 3)])), IdStr (lit "x"), CErr (ETransport []));
     (1, OInitialize (JObj [(lit "logging", JObj [])]) (JObj [(lit "name", JStr (lit "c")); (lit "version", JStr (lit "2"))]), IdStr (lit "y"), CErr (EInvalidState (lit "Client already initialized")));
     (0, OCall CCallTool (call_params (lit "add") (JObj [(lit "x", JInt 3)])), IdStr (lit "b"), COk (shown_as KTool (JArr [JInt 1; JStr (lit "a""b")])))]%nat.
Proof. by vm_compute. Qed.
(** Without sessions the second client's call still reaches the tool after it has closed its transport (this tool refuses the second call it gets). *)
Example C225_stays_example :
  last (cd_returned (fold_left (d_step StackProps.demo_config StackProps.demo_tool (λ _, EmptyString) (λ _, MkTConfig [(lit "x-a", lit "1")] true) (MkHConfig false false true))
      [DAnswer 0 (lit "e3") (lit "f3"); DCall 1 (OCall CCallTool (call_params (lit "add") (JObj [(lit "x", JInt 3)]))) (IdStr (lit "x")) (Some (lit "tok")) (lit "s6"); DAnswer 0 (lit "e4") (lit "f4"); DReturn 1 (Some (lit "tok")) (lit "s7")]
    (d_close StackProps.demo_config StackProps.demo_tool (λ _, EmptyString) (λ _, MkTConfig [(lit "x-a", lit "1")] true) (MkHConfig false false true) 1 (Some (lit "tok")) (signal_demo 7 false)))) =
    Some (1%nat, OCall CCallTool (call_params (lit "add") (JObj [(lit "x", JInt 3)])), IdStr (lit "x"), CErr (EProtocol (-32603) (lit "Internal error: no") None)) ∧
  ((λ p, pe_job p) <$> cd_peers (signal_demo 7 false) !! 1%nat) = Some JIdle.
Proof. by vm_compute. Qed.
