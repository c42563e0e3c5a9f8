(** C210, C211: several clients and one server of this library connected over HTTP. *)
From stdpp Require Import gmap strings list sets.
From Verif Require Import ListLib TextLib JsonLib SerdeLib TypesModel ManagersModel SseModel SseSpec HttpModel HttpSpec HttpClientModel HttpClientSpec RpcModel RpcSpec RpcProofs ServerModel ServerSpec ClientModel ClientSpec HttpStackModel HttpStackSpec HttpStackProofs HttpStackProofs2 HttpStackProofs3 HttpCloudModel HttpCloudSpec HttpCloudProofs HttpCloudProofs2.
From Verif Require HttpClientProofs ServerProofs ClientProofs StackModel StackSpec StackProofs StackProofs2 StackProps HttpStackProps.
Notation shown_as := StackSpec.shown_as.

(** *** Helpers *)
Section helpers.
  Context (cf : config) (behave : list invocation → hresult) (key : list N → string).
  Notation handle := (handle_request cf behave key).
  Notation mcp := (mcp cf behave key).
  Lemma handle_grows id r s : sv_calls s `prefix_of` sv_calls (handle id r s).1.
  Proof.
    destruct r as [k p|k p]; [|done]. destruct (decide (k = CInitialize)) as [->|Hk]; [done|]. rewrite StackProofs2.handle_other by done.
    assert (∀ kd h args wrap, sv_calls s `prefix_of` sv_calls (invoke behave key kd h args id wrap s).1) as Hi by (intros; unfold invoke; cbn; by eexists).
    assert (sv_calls s `prefix_of` sv_calls (process_client_request cf behave key id k p s).1) as H.
    { destruct k; cbn [process_client_request]; repeat case_match; first [done|apply Hi]. }
    by destruct (process_client_request cf behave key id k p s) as [s' [?|?|]].
  Qed.
  Lemma mcp_grows l1 l2 : sv_calls (mcp l1) `prefix_of` sv_calls (mcp (l1 ++ l2)).
  Proof.
    induction l2 as [|l l2 IH] using rev_ind; [by rewrite app_nil_r|]. rewrite app_assoc, mcp_snoc. etrans; [exact IH|]. destruct l; cbn [mcp_step]; first [apply handle_grows|done].
  Qed.
  Lemma mcp_calls os log : build os = inl cf → Forall (λ x, good_request x.2) (handled log) → invoked <$> sv_calls (mcp log) = omap (destination os) (handled log).*2.
  Proof.
    intros Hb. induction log as [|l log IH] using rev_ind; intros Hg; [done|]. rewrite mcp_snoc. unfold handled in *. rewrite omap_snoc in *. rewrite fmap_app, omap_app. apply Forall_app in Hg as [Hg1 Hg2]. specialize (IH Hg1).
    destruct l; try (cbn -[destination]; rewrite ?app_nil_r; exact IH). cbn [mcp_step]. assert (good_request r) as Hg3. { cbn [option_list] in Hg2. by apply Forall_cons in Hg2 as [Hg2 _]. }
    rewrite (ServerProofs.routed cf behave key os) by (first [by apply ServerProofs.built|destruct r; [exact Hg3|exact I]]). rewrite IH. cbn -[destination]. by destruct (destination os r).
  Qed.
  Lemma ended_app b before l1 l2 : ended behave b before (l1 ++ l2) = ended behave b before l1 ++ ended behave b (before ++ l1) l2.
  Proof. revert before. induction l1 as [|i l1 IH]; intros before; [by rewrite app_nil_r|]. cbn [app ended]. by rewrite IH, <-!app_assoc. Qed.
  (** a request that is for no handler calls none; one that is for a handler calls it, and is answered unless it panics *)
  Lemma no_call os id r s : build os = inl cf → good_request r → destination os r = None → sv_calls (handle id r s).1 = sv_calls s.
  Proof.
    intros Hb Hg Hd. pose proof (ServerProofs.routed cf behave key os id r s (ServerProofs.built _ _ Hb) ltac:(destruct r; [exact Hg|exact I])) as H. rewrite Hd, app_nil_r in H. destruct (handle_grows id r s) as [l E]. rewrite E, fmap_app in H. rewrite E.
    assert (length (invoked <$> l) = 0) as Hl. { apply (f_equal length) in H. rewrite app_length in H. lia. } rewrite fmap_length in Hl. by rewrite (nil_length_inv _ Hl), app_nil_r.
  Qed.
  Lemma one_call os id r s kd h args : build os = inl cf → good_request r → destination os r = Some (kd, h, args) →
    ∃ i, sv_calls (handle id r s).1 = sv_calls s ++ [i] ∧ invoked i = (kd, h, args) ∧ i_request i = rid_show id ∧ (handle id r s).2 = StackProofs2.outcome id kd (behave (sv_calls s ++ [i])).
  Proof.
    intros Hb Hg Hd. destruct r as [k p|k p]; [|discriminate Hd]. destruct (handle id (RClient k p) s) as [s1 o] eqn:Hh. destruct (StackProofs2.fate os cf behave key Hb _ _ _ _ _ _ _ _ _ Hg Hd Hh) as (i & H1 & H2 & H3 & H4). exists i. cbn [fst snd]. by rewrite <-H1.
  Qed.
  Lemma call_keeps os id r s d : destination os r = Some d → sv_client (handle id r s).1 = sv_client s ∧ sv_initialized (handle id r s).1 = sv_initialized s ∧ sv_subs (handle id r s).1 = sv_subs s.
  Proof.
    intros Hd. destruct r as [k p|k p]; [|discriminate Hd].
    assert (∀ kd h args wrap, let s' := (invoke behave key kd h args id wrap s).1 in sv_client s' = sv_client s ∧ sv_initialized s' = sv_initialized s ∧ sv_subs s' = sv_subs s) as Hi by (intros; by unfold invoke).
    assert (k ≠ CInitialize) as Hk by (intros ->; discriminate Hd). rewrite StackProofs2.handle_other by done.
    assert (let s' := (process_client_request cf behave key id k p s).1 in sv_client s' = sv_client s ∧ sv_initialized s' = sv_initialized s ∧ sv_subs s' = sv_subs s) as H.
    { destruct k; try discriminate Hd; cbn [process_client_request]; repeat case_match; first [done|apply Hi]. }
    by destruct (process_client_request cf behave key id k p s) as [s1 [?|?|]].
  Qed.
  Lemma panic_lost os id r s inv : build os = inl cf → good_request r → sv_calls (handle id r s).1 = sv_calls s ++ [inv] → behave (sv_calls s ++ [inv]) = HPanic →
    (handle id r s).2 = None ∧ is_Some (destination os r).
  Proof.
    intros Hb Hg Hc Hpn. destruct (destination os r) as [[[kd h] args]|] eqn:Hd.
    - destruct (one_call os id r s kd h args Hb Hg Hd) as (i & H1 & _ & _ & ->). rewrite Hc in H1. apply app_inj_2 in H1 as [_ [= <-]]; [|done]. rewrite Hpn. split; [done|by eexists].
    - rewrite (no_call os) in Hc by done. apply (f_equal length) in Hc. rewrite app_length in Hc. cbn in Hc. lia.
  Qed.
  Lemma mcp_ended os b log : build os = inl cf → Forall (λ x, good_request x.2) (handled log) → invoked <$> ended behave b [] (sv_calls (mcp log)) = omap (destination os) (part cf behave key (negb b) log).*2.
  Proof.
    intros Hb. induction log as [|l log IH] using rev_ind; intros Hg; [done|]. rewrite mcp_snoc. unfold handled in *. rewrite omap_snoc in Hg. apply Forall_app in Hg as [Hg1 Hg2]. specialize (IH Hg1).
    destruct l as [z|z|z id r]; [by rewrite part_opened| |].
    - unfold part. rewrite fates_app. cbn [fates app]. rewrite app_nil_r. exact IH.
    - rewrite part_snoc, fmap_app, omap_app. cbn [mcp_step]. cbn [option_list] in Hg2. apply Forall_cons in Hg2 as [Hg2 _]. cbn [snd] in Hg2. destruct (destination os r) as [[[kd h] args]|] eqn:Hd.
      + destruct (one_call os id r (mcp log) kd h args Hb Hg2 Hd) as (i & -> & H1 & _ & H2). rewrite ended_app, fmap_app, IH. f_equal. cbn [ended app]. rewrite app_nil_r. unfold back. rewrite H2.
        destruct (behave (sv_calls (mcp log) ++ [i])); cbn [panics StackProofs2.outcome]; destruct b; cbn -[destination]; first [done|rewrite !decide_True by done; cbn -[destination]; by rewrite Hd, H1].
      + rewrite (no_call os) by done. rewrite IH. case_decide; cbn -[destination]; rewrite ?Hd, ?app_nil_r; done.
  Qed.
  Lemma mcp_client log : sv_client (mcp log) = last (omap (λ x : rid * request, match x.2 with RClient CInitialize p => Some (field "capabilities" p) | _ => None end) (handled log)).
  Proof.
    induction log as [|l log IH] using rev_ind; [done|]. rewrite mcp_snoc. unfold handled in *. rewrite omap_snoc, omap_app, last_app. destruct l; try (cbn [mcp_step option_list omap list_omap last]; done).
    cbn [mcp_step option_list omap list_omap snd]. destruct r as [k p|k p]; [|exact IH]. destruct (decide (k = CInitialize)) as [->|Hk]; [done|].
    destruct (handle id (RClient k p) (mcp log)) as [s' o] eqn:E. pose proof (ServerProofs.handle_rest cf behave key _ _ _ _ _ E) as Hr. cbn [fst].
    assert (sv_client s' = sv_client (mcp log)) as ->; [|rewrite IH; by destruct k].
    rewrite StackProofs2.handle_other in E by done. clear Hr IH.
    assert (∀ kd h args wrap, sv_client (invoke behave key kd h args id wrap (mcp log)).1 = sv_client (mcp log)) as Hi by (intros; by unfold invoke).
    assert (sv_client (process_client_request cf behave key id k p (mcp log)).1 = sv_client (mcp log)) as H.
    { destruct k; cbn [process_client_request]; repeat case_match; first [done|apply Hi]. }
    destruct (process_client_request cf behave key id k p (mcp log)) as [s1 [?|?|]]; apply pair_equal_spec in E as [<- _]; exact H.
  Qed.
End helpers.

Lemma sublist_whole {A} (l1 l2 : list A) : l1 `sublist_of` l2 → length l1 = length l2 → l1 = l2.
Proof.
  induction 1 as [|x l1 l2 H IH|x l1 l2 H IH]; intros E; [done| |].
  - f_equal. apply IH. by injection E.
  - apply sublist_length in H. cbn in E. lia.
Qed.

(** what a call that has returned shows of its handler call *)
Lemma explained_result os cf behave key log i k p id r kd h args : build os = inl cf → typed behave → explained cf behave key log (i, OCall k p, id, r) → destination os (RClient k p) = Some (kd, h, args) →
  (refusal r ∧ (k ≠ CCreateMessage → allows (scaps_json (cf_caps cf)) k → r = CErr not_initialized)) ∨
  ∃ before inv after, sv_calls (mcp cf behave key log) = before ++ inv :: after ∧ invoked inv = (kd, h, args) ∧ i_request inv = rid_show id ∧
    match behave (before ++ [inv]) with
    | HOk v => r = COk (shown_as kd v)
    | HErr e => r = CErr (EProtocol (-32603) (error_display e) None)
    | HPanic => r = CErr send_failed
    end.
Proof.
  intros Hb Hty (c & Hin & Hcs & H) Hds.
  assert (is_method k = true) as Hm by (destruct k; first [done|discriminate Hds]). assert (k ≠ CComplete) as Hnc by (intros ->; discriminate Hds).
  destruct H as [[Hno ->]|[(rq & l1 & s & l2 & Eo & El & Hbk & Hg & ->)|[(k1 & p1 & l1 & s & l2 & Eo & El & Hbk & Hg & ->)|[[] _]]]].
  - left. assert (∃ e, refused k c = Some e) as [e He].
    { destruct (refused k c) as [e|] eqn:E; [by eexists|]. exfalso. unfold StackProofs.opening in Hno. destruct Hno as [Hno|[[nn Hno] _]]; unfold StackProofs.opening in Hno; rewrite Hm, E in Hno; discriminate Hno. }
    unfold c_step. cbn [e_op]. rewrite Hm, He. cbn [snd]. split.
    + unfold refused in He. repeat case_match; simplify_eq; eexists; first [by right|by left].
    + intros Hk Ha. destruct (cl_initialized c) eqn:Hi; [|rewrite ClientProofs.not_initialized_refused in He by done; by injection He as <-].
      by rewrite (ClientProofs.allowed k c _ Hm Hk Hi (Hcs eq_refl) Ha) in He.
  - right. destruct (StackProofs2.opening_cases _ _ _ _ Eo) as [(? & E & _)|[(? & ? & E & _)|(k' & p' & E & _ & Hk & E')]]; [discriminate E|discriminate E|]. injection E as <- <-. injection E' as ->.
    pose proof (back_true cf behave key l1 id (RClient k p) Hbk s) as Hh.
    destruct (one_call cf behave key os id _ (mcp cf behave key l1) _ _ _ Hb Hg Hds) as (inv & H1 & H2 & H3 & H4). rewrite Hh in H1, H4. cbn [fst snd] in H1, H4.
    destruct (mcp_grows cf behave key (l1 ++ [LProcessed s id (RClient k p)]) l2) as [after Ha]. rewrite H1 in Ha.
    exists (sv_calls (mcp cf behave key l1)), inv, after. rewrite El. split; [assert (l1 ++ LProcessed s id (RClient k p) :: l2 = (l1 ++ [LProcessed s id (RClient k p)]) ++ l2) as -> by by rewrite <-app_assoc|].
    { by rewrite Ha, <-app_assoc. }
    split; [done|]. split; [done|].
    destruct (ClientProofs.call_exact c (MkEvent (OCall k p) id true [MsgResponse (answer cf behave key l1 id (RClient k p))] true) k p (MsgResponse (answer cf behave key l1 id (RClient k p))) []) as (c2 & Hs2 & _); [done..|cbn; by rewrite Hin|].
    rewrite Hs2. cbn [snd].
    destruct (behave (sv_calls (mcp cf behave key l1) ++ [inv])) as [v|e|] eqn:E; cbn [StackProofs2.outcome] in H4; [| |discriminate H4].
    + injection H4 as E4. rewrite E4 in Hh |- *. rewrite ClientProofs.finish_typed by (by eapply ClientProofs.server_result_typed). f_equal. destruct k; cbn [result_ty]; try done; discriminate Hds.
    + injection H4 as ->. done.
  - right. injection Eo as <- <-. pose proof (back_false cf behave key l1 id (RClient k p) Hbk) as Hh.
    destruct (one_call cf behave key os id _ (mcp cf behave key l1) _ _ _ Hb Hg Hds) as (inv & H1 & H2 & H3 & H4). rewrite Hh in H4.
    destruct (mcp_grows cf behave key (l1 ++ [LProcessed s id (RClient k p)]) l2) as [after Ha]. rewrite mcp_snoc in Ha. cbn [mcp_step] in Ha. rewrite H1 in Ha.
    exists (sv_calls (mcp cf behave key l1)), inv, after. rewrite El. split; [assert (l1 ++ LProcessed s id (RClient k p) :: l2 = (l1 ++ [LProcessed s id (RClient k p)]) ++ l2) as -> by by rewrite <-app_assoc|].
    { by rewrite Ha, <-app_assoc. }
    split; [done|]. split; [done|]. destruct (behave (sv_calls (mcp cf behave key l1) ++ [inv])); cbn [StackProofs2.outcome] in H4; [discriminate H4..|done].
Qed.
(** ** C210: clients do not disturb each other *)
(** [n] clients call methods, their requests get the MCP server's lock in any order, the methods return in
    any order; handlers may panic.  Whatever the interleaving, handlers have come back exactly once for each request the clients
    sent and have an answer to, with the arguments of that request, and have panicked exactly once for each request whose call failed
    with a transport error. *)
Theorem C210_once : ∀ os cf behave key tcf hcf n ds, build os = inl cf → scaps_ok (cf_caps cf) → (∀ i, no_clash (tcf i)) → hc_stateful hcf = true →
  Forall (usable_op tcf) ds → NoDup (drawn ds) → let y := d_run cf behave key tcf hcf n ds in all_travel cf behave key y →
  invoked <$> ended behave false [] (sv_calls (core cf behave key y)) ≡ₚ concat ((λ p, omap (destination os) (settled_asks p).*2) <$> cd_peers y) ∧
  invoked <$> ended behave true [] (sv_calls (core cf behave key y)) ≡ₚ concat ((λ i, omap (destination os) (lost_asks y i).*2) <$> seq 0 (length (cd_peers y))).
Proof.
  intros os cf behave key tcf hcf n ds Hb Hok Hcl Hst Hu Hd y Ht.
  pose proof (run_ok cf behave key tcf hcf Hcl Hst Hok n ds Hu Hd Ht) as K. fold y in K. unfold core.
  assert (∀ {A} (f : A → list (rid * request)) (l : list A), omap (destination os) (concat (f <$> l)).*2 = concat ((λ a, omap (destination os) (f a).*2) <$> l)) as Hc.
  { intros A f l. induction l as [|a l IH]; [done|]. rewrite !fmap_cons. cbn [concat]. by rewrite fmap_app, omap_app, IH. }
  split; rewrite (mcp_ended cf behave key os _ _ Hb (ck_good _ _ _ _ _ K)); cbn [negb]; rewrite <-Hc.
  - by rewrite (ck_once _ _ _ _ _ K).
  - by rewrite (ck_lost _ _ _ _ _ K).
Qed.
Print Assumptions C210_once.
(** Each client that has been answered is in a session of its own, and what the server has handled for
    that session is what this client sent: what was answered, in the order it was sent, and what was not because the handler panicked. *)
Theorem C210_sessions : ∀ os cf behave key tcf hcf n ds, build os = inl cf → scaps_ok (cf_caps cf) → (∀ i, no_clash (tcf i)) → hc_stateful hcf = true →
  Forall (usable_op tcf) ds → NoDup (drawn ds) → let y := d_run cf behave key tcf hcf n ds in all_travel cf behave key y →
  ∀ i p, cd_peers y !! i = Some p →
    match tp_session (pe_tp p) with
    | Some s => is_Some (sx_sessions (cd_http y) !! s) ∧ settled_asks p `sublist_of` handled_for s (sx_log (cd_http y)) ∧ handled_for s (sx_log (cd_http y)) ≡ₚ settled_asks p ++ lost_asks y i ∧
        (lost_asks y i = [] → handled_for s (sx_log (cd_http y)) = settled_asks p) ∧ ∀ j q, cd_peers y !! j = Some q → tp_session (pe_tp q) = Some s → j = i
    | None => settled_asks p = [] ∧ lost_asks y i = []
    end.
Proof.
  intros os cf behave key tcf hcf n ds Hb Hok Hcl Hst Hu Hd y Ht i p Hi.
  pose proof (run_ok cf behave key tcf hcf Hcl Hst Hok n ds Hu Hd Ht) as K. fold y in K. pose proof (ck_own _ _ _ _ _ K i p Hi) as Ho. pose proof (ck_lost_own _ _ _ _ _ K i p Hi) as Hl.
  destruct (tp_session (pe_tp p)) as [s|] eqn:Es; [|done]. split; [by eapply session_known|]. rewrite Ho, Hl. destruct (part_for_handled cf behave key s (sx_log (cd_http y))) as [P1 P2]. split; [done|]. split; [done|]. split.
  - intros E. rewrite E, app_nil_r in P2. symmetry. apply sublist_whole; [done|]. by rewrite P2.
  - intros j q Hj Eq. by apply (ck_apart _ _ _ _ _ K j i q p s).
Qed.
Print Assumptions C210_sessions.
(** What a call returns is what its own handler call returned: a call that is for a handler and was not
    refused by the client itself – which it is not if the client is initialized and the server's capabilities allow it – is one
    of the handler calls, made with the call's arguments under the call's id, and the result is what the
    handler returned then, whatever other clients' calls came between. *)
Theorem C210_result : ∀ os cf behave key tcf hcf n ds, build os = inl cf → typed behave → scaps_ok (cf_caps cf) → (∀ i, no_clash (tcf i)) → hc_stateful hcf = true →
  Forall (usable_op tcf) ds → NoDup (drawn ds) → let y := d_run cf behave key tcf hcf n ds in all_travel cf behave key y →
  ∀ i k p id r kd h args, (i, OCall k p, id, r) ∈ cd_returned y → destination os (RClient k p) = Some (kd, h, args) →
  (refusal r ∧ (k ≠ CCreateMessage → allows (scaps_json (cf_caps cf)) k → r = CErr not_initialized)) ∨
  ∃ before inv after, sv_calls (core cf behave key y) = before ++ inv :: after ∧ invoked inv = (kd, h, args) ∧ i_request inv = rid_show id ∧
    match behave (before ++ [inv]) with
    | HOk v => r = COk (shown_as kd v)
    | HErr e => r = CErr (EProtocol (-32603) (error_display e) None)
    | HPanic => r = CErr send_failed
    end.
Proof.
  intros os cf behave key tcf hcf n ds Hb Hty Hok Hcl Hst Hu Hd y Ht i k p id r kd h args Hr Hds.
  pose proof (run_ok cf behave key tcf hcf Hcl Hst Hok n ds Hu Hd Ht) as K. fold y in K.
  eapply explained_result; [done..| |exact Hds]. exact (proj1 (Forall_forall _ _) (ck_returned _ _ _ _ _ K) _ Hr).
Qed.
Print Assumptions C210_result.
(** No client waits for another one for ever: a request that waits can get the lock whatever else is waiting, and then its method
    returns; this changes nothing for the other clients. *)
Theorem C210_progress : ∀ os cf behave key tcf hcf n ds, build os = inl cf → scaps_ok (cf_caps cf) → (∀ i, no_clash (tcf i)) → hc_stateful hcf = true →
  Forall (usable_op tcf) ds → NoDup (drawn ds) → let y := d_run cf behave key tcf hcf n ds in all_travel cf behave key y →
  ∀ i c t o id f m, cd_peers y !! i = Some (MkPeer c t (JWaits o id f m)) →
  ∃ k, cd_waiting y !! k = Some i ∧ ∀ e1 e2 tok fresh, no_break e2 → 0%N ∉ e2 → authorized (tcf i) tok →
    let y1 := d_answer cf behave key tcf hcf k e1 e2 y in let y2 := d_return cf behave key tcf hcf i tok fresh y1 in all_travel cf behave key y1 →
    (∃ r, cd_returned y2 = cd_returned y ++ [(i, o, id, r)]) ∧ (∃ c' t', cd_peers y2 !! i = Some (MkPeer c' t' JIdle) ∧ cl_initialized c' = true ∧ is_Some (tp_session t')) ∧
    cd_waiting y2 = delete k (cd_waiting y) ∧ ∀ j, j ≠ i → cd_peers y2 !! j = cd_peers y !! j.
Proof.
  intros os cf behave key tcf hcf n ds Hb Hok Hcl Hst Hu Hd y Ht i c t o id f m Hi.
  pose proof (run_ok cf behave key tcf hcf Hcl Hst Hok n ds Hu Hd Ht) as K. fold y in K.
  pose proof (ck_busy _ _ _ _ _ K i _ _ _ _ _ _ Hi) as Hw. apply elem_of_list_lookup in Hw as [k Hk]. exists k. split; [done|]. intros e1 e2 tok fresh Hb2 Hz Ha y1 y2 Ht1.
  pose proof (answer_ok cf behave key tcf hcf Hok _ y k e1 e2 K Hb2 Hz Ht1) as K1. fold y1 in K1.
  destruct (waiting_is cf behave key _ y k i K Hk) as (c0 & t0 & o0 & id0 & f0 & n0 & r & Hi' & Eo). rewrite Hi in Hi'. injection Hi' as <- <- <- <- <- <-.
  assert (∃ ok got v' t', y1 = put i (MkPeer c t' (JAnswered o id ok got)) v' (delete k (cd_waiting y)) y ∧ is_Some (tp_session t')) as (ok & got & v' & t' & E & Hs).
  { destruct (back cf behave key (sx_log (cd_http y)) id r) eqn:Hbk.
    - destruct (answer_cases cf behave key tcf hcf Hok _ y k e1 e2 i _ _ _ _ _ _ _ K Hk Hi Eo Hbk Hb2 Hz Ht1) as (s & v' & t' & _ & _ & _ & E & _ & _ & _ & _ & [Hs _ _] & _). eexists _, _, v', t'. split; [exact E|]. by eexists.
    - destruct (crash_cases cf behave key tcf hcf _ y k e1 e2 i _ _ _ _ _ _ _ K Hk Hi Eo Hbk) as (s & v' & t' & kd & q & _ & _ & _ & _ & _ & E & _ & _ & _ & _ & [Hs _] & _). eexists _, _, v', t'. split; [exact E|]. by eexists. }
  assert (cd_peers y1 !! i = Some (MkPeer c t' (JAnswered o id ok got))) as Hi1.
  { rewrite E. cbn [put cd_peers]. apply list_lookup_insert. by eapply lookup_lt_Some. }
  destruct (return_cases cf behave key tcf hcf Hcl Hst Hok _ y1 i tok fresh _ _ _ _ _ _ K1 Hi1 Ha) as (c' & r' & t'' & E2 & Q2 & S & W & Hin' & Hset & _ & _ & _ & U2). fold y2 in E2.
  rewrite E2. cbn [give put cd_returned cd_peers cd_waiting]. split; [exists r'; by rewrite E|]. split; [exists c', t''|].
  { split; [apply list_lookup_insert; by eapply lookup_lt_Some|]. split; [apply U2; by eexists|]. by rewrite S. }
  split; [by rewrite E|]. intros j Hj. rewrite list_lookup_insert_ne by done. rewrite E. cbn [put cd_peers]. by rewrite list_lookup_insert_ne.
Qed.
Print Assumptions C210_progress.

(** ** C219: a handler that panics takes only its own call with it *)
(** When a waiting request gets the lock and its handler panics, the call that made the request fails with a transport
    error and its client stays initialized, in its session; the other clients, their waiting requests, all sessions and event streams are
    as before; the server still counts the call, and nothing else about it has changed. *)
Theorem C219_panic : ∀ os cf behave key tcf hcf n ds, build os = inl cf → scaps_ok (cf_caps cf) → (∀ i, no_clash (tcf i)) → hc_stateful hcf = true →
  Forall (usable_op tcf) ds → NoDup (drawn ds) → let y := d_run cf behave key tcf hcf n ds in all_travel cf behave key y →
  ∀ k i p o id f m, cd_waiting y !! k = Some i → cd_peers y !! i = Some p → pe_job p = JWaits o id f m →
  ∀ e1 e2 tok fresh, let y1 := d_answer cf behave key tcf hcf k e1 e2 y in let y2 := d_return cf behave key tcf hcf i tok fresh y1 in
  ∀ inv, sv_calls (core cf behave key y1) = sv_calls (core cf behave key y) ++ [inv] → behave (sv_calls (core cf behave key y) ++ [inv]) = HPanic →
  cd_returned y2 = cd_returned y ++ [(i, o, id, CErr (ETransport []))] ∧
  (∃ p', cd_peers y2 !! i = Some p' ∧ pe_job p' = JIdle ∧ cl_initialized (pe_client p') = true ∧ cl_server (pe_client p') = cl_server (pe_client p) ∧ tp_session (pe_tp p') = tp_session (pe_tp p)) ∧
  (∀ j, j ≠ i → cd_peers y2 !! j = cd_peers y !! j) ∧ cd_waiting y2 = delete k (cd_waiting y) ∧
  sx_sessions (cd_http y2) = sx_sessions (cd_http y) ∧ sx_streams (cd_http y2) = sx_streams (cd_http y) ∧ sx_pending (cd_http y2) = delete k (sx_pending (cd_http y)) ∧
  sv_calls (core cf behave key y2) = sv_calls (core cf behave key y) ++ [inv] ∧ sv_client (core cf behave key y2) = sv_client (core cf behave key y) ∧ sv_initialized (core cf behave key y2) = sv_initialized (core cf behave key y) ∧ sv_subs (core cf behave key y2) = sv_subs (core cf behave key y).
Proof.
  intros os cf behave key tcf hcf n ds Hb Hok Hcl Hst Hu Hd y Ht k i [c t jb] o id f m Hk Hi Ej e1 e2 tok fresh y1 y2 inv Hc Hpn. cbn [pe_job] in Ej. subst jb.
  pose proof (run_ok cf behave key tcf hcf Hcl Hst Hok n ds Hu Hd Ht) as K. fold y in K.
  destruct (waiting_is cf behave key _ y k i K Hk) as (c0 & t0 & o0 & id0 & f0 & n0 & r & Hi' & Eo). rewrite Hi in Hi'. injection Hi' as <- <- <- <- <- <-.
  destruct (back cf behave key (sx_log (cd_http y)) id r) eqn:Hbk.
  { exfalso. pose proof (ck_peers _ _ _ _ _ K i _ Hi) as [_ Hpk]. cbn [pe_job pe_client pe_tp] in Hpk. destruct Hpk as (r' & t0 & q & Eo' & Hse & _). rewrite Eo in Eo'. injection Eo' as <-.
    assert (good_request r) as Hg. { destruct (StackProofs2.opening_cases _ _ _ _ Eo) as [(? & E & _)|[(cps & info & _ & _ & E)|(kk & p & _ & _ & _ & E)]]; [discriminate E|injection E as ->; apply Hse..]. }
    destruct (Forall2_lookup_l _ _ _ _ _ (ck_wait _ _ _ _ _ K) Hk) as (pe & Hpe & (c1 & t1 & o1 & id1 & f1 & n1 & r1 & rsid & Hi1 & Eo1 & -> & _)).
    rewrite Hi in Hi1. injection Hi1 as <- <- <- <- <- <-. rewrite Eo in Eo1. injection Eo1 as <-.
    destruct (continue_request cf behave key hcf Hok (cd_http y) k (tp_session t) rsid id r e1 e2 Hpe (ck_streams _ _ _ _ _ K)) as (v' & x & Ec & L1 & _).
    assert (sx_log (cd_http y1) = sx_log (cd_http y) ++ [LProcessed rsid id r]) as El.
    { unfold y1, d_answer. rewrite Hk, Hpe, Hi, (back_true _ _ _ _ _ _ Hbk None). cbn [snd]. rewrite Ec. by destruct (take_reply tcf i f m x t) as [[ok got] t2]. }
    unfold core in Hc, Hpn. rewrite El, mcp_snoc in Hc. cbn [mcp_step] in Hc. destruct (panic_lost cf behave key os id r _ inv Hb Hg Hc Hpn) as [Hn _]. rewrite (back_true _ _ _ _ _ _ Hbk None) in Hn. discriminate Hn. }
  destruct (crash_cases cf behave key tcf hcf _ y k e1 e2 i _ _ _ _ _ _ _ K Hk Hi Eo Hbk) as (s & v' & t' & kd & q & -> & -> & Hg & Hini & Hin & E & L1 & L2 & L3 & Q & [Hs Hts] & Hset & HsD & M1 & _). fold y1 in E.
  assert (sx_log (cd_http y1) = sx_log (cd_http y) ++ [LProcessed (Some s) id (RClient kd q)]) as El by (by rewrite E).
  assert (sv_calls (handle_request cf behave key id (RClient kd q) (mcp cf behave key (sx_log (cd_http y)))).1 = sv_calls (mcp cf behave key (sx_log (cd_http y))) ++ [inv]) as Hc'.
  { unfold core in Hc. by rewrite El, mcp_snoc in Hc. }
  destruct (panic_lost cf behave key os _ _ _ _ Hb Hg Hc' Hpn) as [_ [d Hds]]. destruct (call_keeps cf behave key os id _ (mcp cf behave key (sx_log (cd_http y))) d Hds) as (C1 & C2 & C3).
  assert (cd_peers y1 !! i = Some (MkPeer c t' (JAnswered (OCall kd q) id false []))) as Hi1.
  { rewrite E. cbn [put cd_peers]. apply list_lookup_insert. by eapply lookup_lt_Some. }
  pose proof (lost_step _ _ _ _ Eo) as Hls.
  assert (y2 = give i (OCall kd q) id (CErr send_failed) (put i (MkPeer (track id c) t' JIdle) (cd_http y1) (cd_waiting y1) y1)) as E2.
  { unfold y2, d_return. rewrite Hi1. unfold second_of. rewrite (Hls true). cbn [fst]. unfold sends. cbn [track cl_sent]. rewrite drop_all, drop_nil. cbn [head]. by rewrite (Hls false). }
  unfold core. rewrite E2. cbn [give put cd_returned cd_peers cd_waiting cd_http]. rewrite El, mcp_snoc. cbn [mcp_step]. rewrite Hc', C1, C2, C3.
  split; [by rewrite E|]. split; [|split].
  - eexists. split; [apply list_lookup_insert; by eapply lookup_lt_Some|]. cbn [pe_job pe_client pe_tp]. split; [done|]. split; [done|]. split; [done|]. by rewrite Hs, Hts.
  - intros j Hj. rewrite list_lookup_insert_ne by done. rewrite E. cbn [put cd_peers]. by rewrite list_lookup_insert_ne.
  - rewrite E. cbn [put cd_waiting cd_http]. rewrite L2, L3, M1, (ck_streams _ _ _ _ _ K). done.
Qed.
Print Assumptions C219_panic.

(** ** C211: the server knows what each client can do *)
(** The server keeps one client's capabilities: those in the last initialize request it handled, for
    whichever session. *)
Theorem C211_last_partial : ∀ cf behave key tcf hcf n ds, let y := d_run cf behave key tcf hcf n ds in
  sv_client (core cf behave key y) = last (omap (λ x : rid * request, match x.2 with RClient CInitialize p => Some (field "capabilities" p) | _ => None end) (handled (sx_log (cd_http y)))).
Proof. intros. apply mcp_client. Qed.
Print Assumptions C211_last_partial.
(** So whenever a client's initialize request is handled, what the server knew about the others is gone,
    although nothing changes for them and their sessions go on: get_client_capabilities reports the new
    client's capabilities. *)
Theorem C211_overwritten_refuted : ∀ os cf behave key tcf hcf n ds, build os = inl cf → scaps_ok (cf_caps cf) → (∀ i, no_clash (tcf i)) → hc_stateful hcf = true →
  Forall (usable_op tcf) ds → NoDup (drawn ds) → let y := d_run cf behave key tcf hcf n ds in all_travel cf behave key y →
  ∀ k i c t caps info id f m e1 e2, cd_waiting y !! k = Some i → cd_peers y !! i = Some (MkPeer c t (JWaits (OInitialize caps info) id f m)) → no_break e2 → 0%N ∉ e2 →
  let y1 := d_answer cf behave key tcf hcf k e1 e2 y in all_travel cf behave key y1 →
  sv_client (core cf behave key y1) = Some caps ∧
  ∀ j p s, j ≠ i → cd_peers y !! j = Some p → tp_session (pe_tp p) = Some s →
    cd_peers y1 !! j = Some p ∧ is_Some (sx_sessions (cd_http y1) !! s) ∧ handled_for s (sx_log (cd_http y1)) = handled_for s (sx_log (cd_http y)).
Proof.
  intros os cf behave key tcf hcf n ds Hb Hok Hcl Hst Hu Hd y Ht k i c t caps info id f m e1 e2 Hk Hi Hb2 Hz y1 Ht1.
  pose proof (run_ok cf behave key tcf hcf Hcl Hst Hok n ds Hu Hd Ht) as K. fold y in K.
  destruct (waiting_is cf behave key _ y k i K Hk) as (c0 & t0 & o0 & id0 & f0 & n0 & r & Hi' & Eo). rewrite Hi in Hi'. injection Hi' as <- <- <- <- <- <-.
  destruct (StackProofs2.opening_cases _ _ _ _ Eo) as [(? & E' & Hno)|[(cps & inf & E' & _ & E3)|(? & ? & E' & _)]]; [discriminate E'| |discriminate E']. injection E' as <- <-. injection E3 as ->.
  destruct (answer_cases cf behave key tcf hcf Hok _ y k e1 e2 i _ _ _ _ _ _ _ K Hk Hi Eo (back_init cf behave key _ _ _) Hb2 Hz Ht1) as (s & v' & t' & _ & _ & _ & E & L1 & _ & _ & _ & _ & _ & _ & M2 & M3 & _). fold y1 in E. split.
  - unfold core. rewrite E. cbn [put cd_http]. rewrite L1, mcp_client, handled_snoc, omap_snoc. cbn [snd]. by rewrite last_app.
  - intros j p z Hj Hpj Ez. rewrite E. cbn [put cd_http cd_peers]. split; [by rewrite list_lookup_insert_ne|]. split; [apply M2; by eapply session_known|]. rewrite L1, handled_for_snoc, decide_False; [by rewrite app_nil_r|]. intros [= <-]. by apply (M3 j p Hj Hpj).
Qed.
Print Assumptions C211_overwritten_refuted.

(** *** Two clients at once *)
(** Both initialize; the second one's request gets the lock first; then both call the tool, and again the
    second one is first.  The server answers with event streams. *)
Definition cloud_demo_ops : list dop :=
  let init n := OInitialize (JObj [(n, JObj [])]) (JObj [(lit "name", JStr (lit "c")); (lit "version", JStr (lit "2"))]) in
  let add n := OCall CCallTool (call_params (lit "add") (JObj [(lit "x", JInt n)])) in
  let tok := Some (lit "tok") in
  [DCall 0 (init (lit "logging")) (IdStr (lit "a")) tok (lit "s1"); DCall 1 (init (lit "sampling")) (IdStr (lit "a")) tok (lit "s2"); DAnswer 1 (lit "e1") (lit "f1"); DAnswer 0 (lit "e2") (lit "f2");
   DReturn 0 tok (lit "s3"); DReturn 1 tok (lit "s4"); DCall 0 (add 3%Z) (IdStr (lit "b")) tok (lit "s5"); DCall 1 (add 4%Z) (IdStr (lit "b")) tok (lit "s6"); DAnswer 1 (lit "e3") (lit "f3"); DReturn 1 tok (lit "s7");
   DCall 1 (OCall CListPrompts (JObj [])) (IdStr (lit "c")) tok (lit "s8"); DReturn 1 tok (lit "s9"); DAnswer 0 (lit "e4") (lit "f4"); DReturn 0 tok (lit "s10")].
Definition cloud_demo (k : nat) (json store : bool) : cloud :=
  d_run StackProps.demo_config StackProps.demo_tool (λ _, EmptyString) (λ _, MkTConfig [(lit "x-a", lit "1")] true) (MkHConfig true json store) 2 (take k cloud_demo_ops).
Ltac kept := apply HttpClientProofs.storable_check; [by vm_compute|vm_compute; lia].
Example C210_usable : Forall (usable_op (λ _, MkTConfig [(lit "x-a", lit "1")] true)) cloud_demo_ops ∧ NoDup (drawn cloud_demo_ops).
Proof.
  split; [|by apply (bool_decide_unpack _); vm_compute]. unfold cloud_demo_ops.
  repeat (apply Forall_cons; split); [..|by apply Forall_nil_2]; unfold usable_op;
    lazymatch goal with |- callable _ _ ∧ _ => split; [cbn [callable postable]|intros _; by eexists] | |- no_break _ ∧ _ => split; [split|]; by apply (bool_decide_unpack _); vm_compute | |- _ => intros _; by eexists end.
  all: split; [|kept]; split; [done|].
  - apply (StackProps.typed_request CInitialize _ _ eq_refl); [kept|by vm_compute].
  - apply (StackProps.typed_request CInitialize _ _ eq_refl); [kept|by vm_compute].
  - apply (StackProps.typed_request CCallTool _ _ eq_refl); [kept|by vm_compute].
  - apply (StackProps.typed_request CCallTool _ _ eq_refl); [kept|by vm_compute].
  - apply (StackProps.typed_request CListPrompts _ _ eq_refl); [kept|by vm_compute].
Qed.
Example C210_example :
  drop 2 (cd_returned (cloud_demo 14 false true)) =
    [(1, OCall CCallTool (call_params (lit "add") (JObj [(lit "x", JInt 4)])), IdStr (lit "b"), COk (shown_as KTool (JArr [JInt 1; JStr (lit "a""b")])));
     (1, OCall CListPrompts (JObj []), IdStr (lit "c"), CErr (EUnsupported (lit "Server does not support prompts (required for prompts/list)")));
     (0, OCall CCallTool (call_params (lit "add") (JObj [(lit "x", JInt 3)])), IdStr (lit "b"), CErr (EProtocol (-32603) (lit "Internal error: no") None))]%nat ∧
  (λ p, tp_session (pe_tp p)) <$> cd_peers (cloud_demo 14 false true) = [Some (lit "s1"); Some (lit "s2")] ∧
  invoked <$> sv_calls (core StackProps.demo_config StackProps.demo_tool (λ _, EmptyString) (cloud_demo 14 false true)) = [(KTool, 4%nat, JObj [(lit "x", JInt 4)]); (KTool, 4%nat, JObj [(lit "x", JInt 3)])] ∧
  cd_waiting (cloud_demo 8 false true) = [0; 1]%nat.
Proof. by vm_compute. Qed.
Example C210_travels : all_travel StackProps.demo_config StackProps.demo_tool (λ _, EmptyString) (cloud_demo 14 false true).
Proof.
  intros l1 sid id r l2 x E Hx.
  assert (Forall (λ x, sendable (MsgResponse x)) (answers_of StackProps.demo_config StackProps.demo_tool (λ _, EmptyString) [] (sx_log (cd_http (cloud_demo 14 false true))))) as H.
  2: { rewrite E, answers_of_app in H. cbn [answers_of app] in H. apply Forall_app in H as [_ H]. apply Forall_cons in H as [H _]. unfold answer in H. by rewrite Hx in H. }
  assert (answers_of StackProps.demo_config StackProps.demo_tool (λ _, EmptyString) [] (sx_log (cd_http (cloud_demo 14 false true))) =
    [success (IdStr (lit "a")) (initialize_result StackProps.demo_config); success (IdStr (lit "a")) (initialize_result StackProps.demo_config); success (IdStr (lit "b")) (shown_as KTool (JArr [JInt 1; JStr (lit "a""b")]));
     failure (IdStr (lit "b")) {| er_code := -32603; er_message := lit "Internal error: no"; er_data := None |}]) as -> by by vm_compute.
  repeat (apply Forall_cons; split); [..|by apply Forall_nil_2]; (split; [|kept]);
    (refine (conj I _); first [exact I|cbn [rs_payload failure]; split; [unfold i32_ok; cbn [er_code]; lia|cbn [er_data]; discriminate]]).
Qed.
(** The second client declared sampling, the first one logging; the first one's request was handled last. *)
Example C211_example :
  sv_client (core StackProps.demo_config StackProps.demo_tool (λ _, EmptyString) (cloud_demo 3 false true)) = Some (JObj [(lit "sampling", JObj [])]) ∧
  sv_client (core StackProps.demo_config StackProps.demo_tool (λ _, EmptyString) (cloud_demo 14 false true)) = Some (JObj [(lit "logging", JObj [])]).
Proof. by vm_compute. Qed.
(** The same calls with a tool that panics when it is first called: the second client's call fails, its next one and the first client's
    succeed. *)
Definition shaky (is : list invocation) : hresult := if decide (length is = 1)%nat then HPanic else HOk (JInt (Z.of_nat (length is))).
Definition shaky_ops : list dop :=
  cloud_demo_ops ++ [DCall 1 (OCall CCallTool (call_params (lit "add") (JObj [(lit "x", JInt 5)]))) (IdStr (lit "d")) (Some (lit "tok")) (lit "s11"); DAnswer 0 (lit "e5") (lit "f5"); DReturn 1 (Some (lit "tok")) (lit "s12")].
Definition shaky_demo (k : nat) : cloud :=
  d_run StackProps.demo_config shaky (λ _, EmptyString) (λ _, MkTConfig [(lit "x-a", lit "1")] true) (MkHConfig true false true) 2 (take k shaky_ops).
Example C219_example :
  drop 2 (cd_returned (shaky_demo 17)) =
    [(1, OCall CCallTool (call_params (lit "add") (JObj [(lit "x", JInt 4)])), IdStr (lit "b"), CErr (ETransport []));
     (1, OCall CListPrompts (JObj []), IdStr (lit "c"), CErr (EUnsupported (lit "Server does not support prompts (required for prompts/list)")));
     (0, OCall CCallTool (call_params (lit "add") (JObj [(lit "x", JInt 3)])), IdStr (lit "b"), COk (shown_as KTool (JInt 2)));
     (1, OCall CCallTool (call_params (lit "add") (JObj [(lit "x", JInt 5)])), IdStr (lit "d"), COk (shown_as KTool (JInt 3)))]%nat ∧
  (λ p, tp_session (pe_tp p)) <$> cd_peers (shaky_demo 17) = [Some (lit "s1"); Some (lit "s2")] ∧
  (length (lost_asks (shaky_demo 17) 0), length (lost_asks (shaky_demo 17) 1)) = (0, 1)%nat ∧
  cd_waiting (shaky_demo 8) !! 1%nat = Some 1%nat ∧ cd_waiting (shaky_demo 9) = [0]%nat ∧
  length (sv_calls (core StackProps.demo_config shaky (λ _, EmptyString) (shaky_demo 8))) = 0%nat ∧ length (sv_calls (core StackProps.demo_config shaky (λ _, EmptyString) (shaky_demo 9))) = 1%nat.
Proof. by vm_compute. Qed.
