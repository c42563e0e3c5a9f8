(** C222: cancelling and reporting progress over HTTP. *)
From stdpp Require Import gmap strings list sets.
From Verif Require Import ListLib TextLib JsonLib SerdeLib TypesModel ManagersModel SseModel SseSpec HttpModel HttpSpec HttpClientModel HttpClientSpec RpcModel RpcSpec RpcProofs ServerModel ServerSpec ClientModel ClientSpec HttpStackModel HttpStackSpec HttpStackProofs HttpStackProofs2 HttpStackProofs3 HttpCloudModel HttpCloudSpec HttpCloudProofs HttpCloudProofs2 HttpCloudProofs3 HttpCloudProps.
From Verif Require HttpClientProofs ServerProofs ClientProofs StackModel StackSpec StackProofs StackProofs2 StackProps HttpStackProps.

Lemma signal_answer cf behave key tcf hcf n ds : scaps_ok (cf_caps cf) → (∀ i, no_clash (tcf i)) → (hc_stateful hcf = true → NoDup (drawn ds)) →
  Forall (usable_op tcf) ds → let y := d_run cf behave key tcf hcf n ds in all_travel cf behave key y →
  ∀ i c t o id tok fresh, cd_peers y !! i = Some (MkPeer c t JIdle) → signal o → callable o id → authorized (tcf i) tok →
  ∃ b t', d_call cf behave key tcf hcf i o id tok fresh y = put i (MkPeer c t' (JAnswered o id b [])) (cd_http y) (cd_waiting y) y ∧ (b = true ↔ (hc_stateful hcf = true → cl_initialized c = true)).
Proof.
  intros Hok Hcl Hd Hu y Ht i c t o id tok fresh Hi Hs Hc Ha.
  assert (∀ r, opening c o id ≠ Some (MsgRequest id r)) as Hn by (intros r; destruct o; try done; discriminate).
  destruct (hc_stateful hcf) eqn:Hst.
  - pose proof (run_ok cf behave key tcf hcf Hcl Hst Hok n ds Hu (Hd eq_refl) Ht) as K. fold y in K.
    destruct (call_cases cf behave key tcf hcf Hcl Hst i o id tok fresh y c t Hi (ck_peers _ _ _ _ _ K i _ Hi) Hc Ha) as [(Hno & b & t' & E & _ & _ & _ & Hb & _)|[(r & q & sid & E & _)|(p & q & x & E & _)]]; [|by destruct (Hn _ E)..].
    exists b, t'. split; [done|]. rewrite (Hb Hs). naive_solver.
  - pose proof (crowd_run cf behave key tcf hcf Hcl Hst Hok n ds Hu Ht) as K. fold y in K. destruct (cw_peers _ _ _ _ K i _ Hi) as (Hin & Hq & Hset).
    destruct (free_call_cases cf behave key tcf hcf Hcl Hst i o id tok fresh y c t Hi Hq Hset Hc Ha) as [(Hno & t' & E & _)|(r & q & E & _)]; [|by destruct (Hn _ E)].
    exists true, t'. split; [done|]. naive_solver.
Qed.

(** ** C222 *)
(** Whatever has happened, when a client that is not in a call calls cancel_request or send_progress, the call comes back at once,
    whatever waits; it succeeds unless the server keeps sessions and the client has none; the HTTP server, what waits
    in it and the other clients are as before. *)
Theorem C222_harmless : ∀ os cf behave key tcf hcf n ds, build os = inl cf → scaps_ok (cf_caps cf) → (∀ i, no_clash (tcf i)) → (hc_stateful hcf = true → NoDup (drawn ds)) →
  Forall (usable_op tcf) ds → let y := d_run cf behave key tcf hcf n ds in all_travel cf behave key y →
  ∀ i c t o id tok fresh tok' fresh', cd_peers y !! i = Some (MkPeer c t JIdle) → signal o → callable o id → authorized (tcf i) tok →
  let y1 := d_call cf behave key tcf hcf i o id tok fresh y in let y2 := d_return cf behave key tcf hcf i tok' fresh' y1 in
  cd_http y1 = cd_http y ∧ cd_http y2 = cd_http y ∧ cd_waiting y2 = cd_waiting y ∧ (∀ j, j ≠ i → cd_peers y2 !! j = cd_peers y !! j) ∧
  ∃ r c' t', cd_returned y2 = cd_returned y ++ [(i, o, id, r)] ∧ cd_peers y2 !! i = Some (MkPeer c' t' JIdle) ∧
    ((hc_stateful hcf = true → cl_initialized c = true) → r = COk JNull) ∧ (hc_stateful hcf = true → cl_initialized c = false → r = CErr (ETransport [])) ∧
    cl_initialized c' = cl_initialized c ∧ asks (cl_sent c') = asks (cl_sent c) ∧ cl_in c' = cl_in c.
Proof.
  intros os cf behave key tcf hcf n ds Hb Hok Hcl Hd Hu y Ht i c t o id tok fresh tok' fresh' Hi Hs Hc Ha y1 y2.
  destruct (signal_answer cf behave key tcf hcf n ds Hok Hcl Hd Hu Ht i c t o id tok fresh Hi Hs Hc Ha) as (b & t' & E & Hbt). fold y y1 in E.
  assert (i < length (cd_peers y)) as Hlt by (by eapply lookup_lt_Some).
  assert (∃ c' r, c_step c (MkEvent o id b [] b) = (c', r) ∧ r = (if b then COk JNull else CErr (ETransport [])) ∧ cl_initialized c' = cl_initialized c ∧ asks (cl_sent c') = asks (cl_sent c) ∧ cl_in c' = cl_in c) as (c' & r & Hr & Er & I1 & I2 & I3).
  { destruct b.
    - destruct o as [| | |j|p]; try done; (eexists _, _; split; [reflexivity|]; split; [reflexivity|]); (split; [reflexivity|]); (split; [|reflexivity]); cbn [untrack cl_sent ClientModel.send]; rewrite asks_app; by rewrite app_nil_r.
    - exists c, (CErr send_failed). by rewrite signal_failed. }
  assert (y2 = give i o id r (put i (MkPeer c' t' JIdle) (cd_http y) (cd_waiting y) y)) as E2.
  { unfold y2. rewrite E. unfold HttpCloudModel.d_return. cbn [put cd_peers]. rewrite list_lookup_insert by done. rewrite signal_once by done. rewrite Hr. unfold put. cbn [cd_http cd_waiting cd_peers cd_returned]. by rewrite list_insert_insert. }
  rewrite E, E2. cbn [give put cd_http cd_waiting cd_peers cd_returned]. do 3 (split; [done|]). split; [intros j Hj; by rewrite list_lookup_insert_ne|].
  exists r, c', t'. split; [done|]. split; [by apply list_lookup_insert|]. rewrite Er. split; [intros H; apply Hbt in H as ->; done|]. split; [|done].
  intros H1 H2. destruct b; [|done]. pose proof (proj1 Hbt eq_refl H1). congruence.
Qed.
Print Assumptions C222_harmless.
(** The server does not act on it: a request that waits is still waiting after cancel_request was called with its id and has
    succeeded, and when the server gets to it, its handler is called, and its client gets the answer, all the same. *)
Theorem C222_cancelled_refuted : ∀ os cf behave key tcf hcf n ds, build os = inl cf → scaps_ok (cf_caps cf) → (∀ i, no_clash (tcf i)) → (hc_stateful hcf = true → NoDup (drawn ds)) →
  Forall (usable_op tcf) ds → let y := d_run cf behave key tcf hcf n ds in all_travel cf behave key y →
  ∀ i c t j p o rid f m id tok fresh tok' fresh', cd_peers y !! i = Some (MkPeer c t JIdle) → (hc_stateful hcf = true → cl_initialized c = true) →
  cd_peers y !! j = Some p → pe_job p = JWaits o rid f m → callable (OCancel rid) id → authorized (tcf i) tok →
  let y' := d_return cf behave key tcf hcf i tok' fresh' (d_call cf behave key tcf hcf i (OCancel rid) id tok fresh y) in
  cd_returned y' = cd_returned y ++ [(i, OCancel rid, id, COk JNull)] ∧ cd_peers y' !! j = Some p ∧
  ∀ k e1 e2, cd_waiting y !! k = Some j → let z := d_answer cf behave key tcf hcf k e1 e2 y in let z' := d_answer cf behave key tcf hcf k e1 e2 y' in
    cd_waiting y' !! k = Some j ∧ sv_calls (core cf behave key z') = sv_calls (core cf behave key z) ∧ cd_peers z' !! j = cd_peers z !! j.
Proof.
  intros os cf behave key tcf hcf n ds Hb Hok Hcl Hd Hu y Ht i c t j p o rid f m id tok fresh tok' fresh' Hi Hini Hj Hp Hc Ha y'.
  destruct (C222_harmless os cf behave key tcf hcf n ds Hb Hok Hcl Hd Hu Ht i c t (OCancel rid) id tok fresh tok' fresh' Hi I Hc Ha) as (_ & E1 & E2 & E3 & r & c' & t' & E4 & E5 & E6 & _).
  fold y y' in E1, E2, E3, E4, E5, E6. rewrite (E6 Hini) in E4. split; [done|].
  assert (j ≠ i) as Hji by (intros ->; rewrite Hi in Hj; injection Hj as <-; discriminate Hp). split; [by rewrite E3|].
  intros k e1 e2 Hk z z'. split; [by rewrite E2|]. unfold z, z', HttpCloudModel.d_answer, core. rewrite E1, E2, Hk. destruct (sx_pending (cd_http y) !! k) as [[hdr rsid qid r0|]|].
  2, 3: by rewrite E1, E3.
  rewrite (E3 j Hji), Hj. destruct p as [cp tp jb]. cbn [pe_job] in Hp. subst jb.
  assert (∀ (a b : cloud), length (cd_peers a) = length (cd_peers b) → ∀ P v w v' w', cd_peers (put j P v w a) !! j = cd_peers (put j P v' w' b) !! j) as Hput.
  { intros a b Hl P v w v' w'. cbn [put cd_peers]. destruct (decide (j < length (cd_peers a))) as [H|H]; [by rewrite !list_lookup_insert by congruence|].
    rewrite !lookup_ge_None_2 by (rewrite insert_length; lia). done. }
  assert (length (cd_peers y') = length (cd_peers y)) as Hlen.
  { apply lookup_lt_Some in E5 as H5. pose proof (lookup_lt_Some _ _ _ Hi) as H6. destruct (decide (length (cd_peers y') = length (cd_peers y))) as [|Hne]; [done|]. exfalso.
    destruct (decide (length (cd_peers y') < length (cd_peers y))) as [H|H].
    - assert (length (cd_peers y') ≠ i) as H7 by lia. pose proof (E3 _ H7) as H8. rewrite lookup_ge_None_2 in H8 by done. symmetry in H8. apply lookup_ge_None in H8. lia.
    - assert (length (cd_peers y) ≠ i) as H7 by lia. pose proof (E3 _ H7) as H8. rewrite (lookup_ge_None_2 (cd_peers y)) in H8 by done. apply lookup_ge_None in H8. lia. }
  destruct (handle_request _ _ _ _ _ _).2; [|split; [done|by apply Hput]].
  destruct (h_step hcf _ (cd_http y) (HContinue k e1 e2)) as [v [x|]]; [|split; [by rewrite E1|by rewrite E3]].
  destruct (take_reply tcf j f m x tp) as [[ok got] t1]. split; [done|by apply Hput].
Qed.
Print Assumptions C222_cancelled_refuted.

(** *** The first client's tool call waits; the second one cancels it and reports progress *)
Definition signal_ops : list dop :=
  take 7 cloud_demo_ops ++ [DCall 1 (OCancel (IdStr (lit "b"))) (IdStr (lit "x")) (Some (lit "tok")) (lit "s6"); DReturn 1 (Some (lit "tok")) (lit "s7");
   DCall 1 (OProgress (JObj [(lit "progressToken", JStr (lit "p")); (lit "progress", JInt 3)])) (IdStr (lit "x")) (Some (lit "tok")) (lit "s8"); DReturn 1 (Some (lit "tok")) (lit "s9");
   DAnswer 0 (lit "e3") (lit "f3"); DReturn 0 (Some (lit "tok")) (lit "s10")].
Definition signal_demo (k : nat) (sessions : bool) : cloud :=
  d_run StackProps.demo_config StackProps.demo_tool (λ _, EmptyString) (λ _, MkTConfig [(lit "x-a", lit "1")] true) (MkHConfig sessions false true) 2 (take k signal_ops).
Lemma typed_cancelled p : storable p → decode t_cancelled p = Some p → carried (MsgNotification (NCancelled p)).
Proof. intros (_ & Hk & _) Hd. refine (decode_sound t_cancelled _ p p Hk Hd). repeat constructor. Qed.
Example C222_usable : Forall (usable_op (λ _, MkTConfig [(lit "x-a", lit "1")] true)) signal_ops ∧ NoDup (drawn signal_ops).
Proof.
  split; [|by apply (bool_decide_unpack _); vm_compute]. unfold signal_ops. apply Forall_app. split; [apply Forall_take, C210_usable|].
  repeat (apply Forall_cons; split); [..|by apply Forall_nil_2]; unfold usable_op;
    lazymatch goal with |- callable _ _ ∧ _ => split; [cbn [callable postable]|intros _; by eexists] | |- no_break _ ∧ _ => split; [split|]; by apply (bool_decide_unpack _); vm_compute | |- _ => intros _; by eexists end.
  all: split; [|kept].
  - apply typed_cancelled; [kept|by vm_compute].
  - apply StackProps.typed_progress; [kept|by vm_compute].
Qed.
(** It is still answered, with or without sessions. *)
Example C222_example :
  drop 2 (cd_returned (signal_demo 13 true)) = drop 2 (cd_returned (signal_demo 13 false)) ∧
  drop 2 (cd_returned (signal_demo 13 true)) =
    [(1, OCancel (IdStr (lit "b")), IdStr (lit "x"), COk JNull); (1, OProgress (JObj [(lit "progressToken", JStr (lit "p")); (lit "progress", JInt 3)]), IdStr (lit "x"), COk JNull);
     (0, OCall CCallTool (call_params (lit "add") (JObj [(lit "x", JInt 3)])), IdStr (lit "b"), COk (shown_as KTool (JArr [JInt 1; JStr (lit "a""b")])))]%nat ∧
  cd_waiting (signal_demo 7 true) = [0]%nat ∧ cd_waiting (signal_demo 11 true) = [0]%nat ∧
  (pe_job <$> cd_peers (signal_demo 7 true) !! 1%nat) = Some JIdle ∧ ((λ p, cl_initialized (pe_client p)) <$> cd_peers (signal_demo 7 true) !! 1%nat) = Some true.
Proof. by vm_compute. Qed.
Example C222_travels : all_travel StackProps.demo_config StackProps.demo_tool (λ _, EmptyString) (signal_demo 7 true).
Proof.
  intros l1 sid id r l2 x E Hx.
  assert (Forall (λ x, sendable (MsgResponse x)) (answers_of StackProps.demo_config StackProps.demo_tool (λ _, EmptyString) [] (sx_log (cd_http (signal_demo 7 true))))) as H.
  2: { rewrite E, answers_of_app in H. cbn [answers_of app] in H. apply Forall_app in H as [_ H]. apply Forall_cons in H as [H _]. unfold answer in H. by rewrite Hx in H. }
  assert (answers_of StackProps.demo_config StackProps.demo_tool (λ _, EmptyString) [] (sx_log (cd_http (signal_demo 7 true))) =
    [success (IdStr (lit "a")) (initialize_result StackProps.demo_config); success (IdStr (lit "a")) (initialize_result StackProps.demo_config)]) as -> by by vm_compute.
  repeat (apply Forall_cons; split); [..|by apply Forall_nil_2]; (split; [|kept]); exact (conj I I).
Qed.
