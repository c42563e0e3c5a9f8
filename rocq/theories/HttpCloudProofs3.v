(** Proofs about several clients of one HTTP server that keeps no sessions. *)
From stdpp Require Import gmap strings list sets.
From Verif Require Import ListLib TextLib JsonLib SerdeLib TypesModel ManagersModel SseModel SseSpec HttpModel HttpSpec HttpProofs HttpClientModel HttpClientSpec HttpClientProofs HttpClientProofs2 HttpClientProofs3 RpcModel RpcSpec RpcProofs ServerModel ServerSpec ClientModel ClientSpec HttpStackModel HttpStackSpec HttpStackProofs HttpStackProofs2 HttpCloudModel HttpCloudSpec HttpCloudProofs HttpCloudProofs2.
From Verif Require ServerProofs ClientProofs StackModel StackSpec StackProofs StackProofs2.

Section stateless.
  Context (cf : config) (behave : list invocation → hresult) (key : list N → string) (tcf : nat → tconfig) (hcf : hconfig).
  Context (Hclash : ∀ i, no_clash (tcf i)) (Hst : hc_stateful hcf = false) (Hok : scaps_ok (cf_caps cf)).
  Notation answer := (answer cf behave key).
  Notation mcp := (mcp cf behave key).
  Notation ask := (ask cf behave key tcf hcf).
  Notation take_reply := (take_reply tcf).
  Notation d_call := (d_call cf behave key tcf hcf).
  Notation d_answer := (d_answer cf behave key tcf hcf).
  Notation d_return := (d_return cf behave key tcf hcf).
  Notation d_step := (d_step cf behave key tcf hcf).
  Notation d_run := (d_run cf behave key tcf hcf).
  Notation all_travel := (all_travel cf behave key).
  Notation caps := (scaps_json (cf_caps cf)).
  Notation step := (h_step hcf answer).
  Notation back := (back cf behave key).
  Notation part := (part cf behave key).
  Notation explained := (explained cf behave key).

  (** a transport that has no session, and no version or a known one *)
  Definition free (t : transport) : Prop := tp_session t = None ∧ ∀ w, tp_version t = Some w → w ∈ supported.
  Lemma free_ask i t v m tok fresh : free t → authorized (tcf i) tok → sendable m → ∃ q, ask i m tok fresh t v =
    match m with
    | MsgRequest id r => (HttpClientModel.request q (XPost m) t, wait (PPost None None id r) v, AWaiting)
    | _ => (HttpClientModel.request q (XPost m) t, v, AReplied (MkResp 202 None None BNone))
    end.
  Proof.
    intros [H1 H2] Ha Hm. destruct (HttpClientProofs3.posts (tcf i) t m tok (Hclash i) Ha) as (q & E1 & Ev & Eh & Eb). exists q.
    unfold HttpCloudModel.ask. rewrite E1. cbn [HttpClientModel.request tp_sent]. rewrite last_snoc. rewrite Eh, Eb, doc_back by done. cbn [h_step]. unfold post_start.
    rewrite (proj2 (post_headers _) (posted_ok t)). unfold process_init_session, validate_non_init_session, validate_protocol_version. cbn [posted h_session h_version]. rewrite Hst, H1.
    destruct (is_init m); cbn [fst snd]; [by destruct m|]. destruct (tp_version t) as [w|]; [rewrite decide_True by (by apply H2)|]; by destruct m.
  Qed.
  Lemma default_supported : default_version ∈ supported.
  Proof. by apply (bool_decide_unpack _); vm_compute. Qed.
  Lemma continue_free v k id r e1 e2 : sx_pending v !! k = Some (PPost None None id r) → ∃ v' x, step v (HContinue k e1 e2) = (v', Some x) ∧
    sx_log v' = sx_log v ++ [LProcessed None id r] ∧ sx_pending v' = delete k (sx_pending v) ∧ hr_status x = 200%Z ∧ hr_session x = None ∧
    (hr_body x = BJson (MsgResponse (answer (sx_log v) id r)) ∨ hr_body x = BEvent e2 (MsgResponse (answer (sx_log v) id r))) ∧ hr_version x = Some (if is_init (MsgRequest id r) then V else default_version).
  Proof.
    intros Hk. cbn [h_step]. rewrite Hk. set (v0 := drop_pending k v). destruct (post_run_resp hcf answer None None id r e1 e2 v0) as (v' & x & E & Hx1 & Hx2 & Hx3 & Hx4). { by right. }
    rewrite E. exists v', x. pose proof (post_run_log hcf answer None None id r e1 e2 v0) as (L1 & _ & L3 & L4). rewrite E in L1, L3, L4. cbn [fst] in *.
    do 6 (split; [done|]). rewrite Hx4. destruct (is_init (MsgRequest id r)) eqn:Ei; [|done].
    destruct r as [[] p|]; try discriminate Ei. by rewrite (negotiated_V cf behave key Hok).
  Qed.

  Definition calm (c : client) (t : transport) : Prop := (cl_initialized c = true → cl_server c = Some caps) ∧ free t.
  Definition member_ok (log : list logged) (p : peer) : Prop :=
    let c := pe_client p in let t := pe_tp p in cl_in c = [] ∧
    match pe_job p with
    | JIdle => tp_queue t = [] ∧ calm c t
    | JWaits o id f n => ∃ r t0 q, opening c o id = Some (MsgRequest id r) ∧ sendable (MsgRequest id r) ∧ t = HttpClientModel.request q (XPost (MsgRequest id r)) t0 ∧
        f = length (tp_flight t0) ∧ n = length (tp_streams t0) ∧ tp_queue t0 = [] ∧ calm c t0
    | JAnswered o id ok got => tp_queue t = [] ∧ calm c t ∧
        (ok = true ∧
         (no_request c o id ∧ got = [] ∨
          ∃ r l1 s l2, opening c o id = Some (MsgRequest id r) ∧ log = l1 ++ LProcessed s id r :: l2 ∧ back l1 id r = true ∧ got = [MsgResponse (answer l1 id r)] ∧ good_request r) ∨
         ok = false ∧ got = [] ∧
          ∃ k q l1 s l2, o = OCall k q ∧ opening c o id = Some (MsgRequest id (RClient k q)) ∧ log = l1 ++ LProcessed s id (RClient k q) :: l2 ∧ back l1 id (RClient k q) = false ∧ good_request (RClient k q))
    end.
  Definition queued (peers : list peer) (i : nat) (pe : pending) : Prop :=
    ∃ c t o id f n r, peers !! i = Some (MkPeer c t (JWaits o id f n)) ∧ opening c o id = Some (MsgRequest id r) ∧ pe = PPost None None id r.
  Record crowd_ok (y : cloud) : Prop := {
    cw_nodup : NoDup (cd_waiting y);
    cw_wait : Forall2 (queued (cd_peers y)) (cd_waiting y) (sx_pending (cd_http y));
    cw_peers : ∀ i p, cd_peers y !! i = Some p → member_ok (sx_log (cd_http y)) p;
    cw_busy : ∀ i c t o id f n, cd_peers y !! i = Some (MkPeer c t (JWaits o id f n)) → i ∈ cd_waiting y;
    cw_order : ∀ i p, cd_peers y !! i = Some p → settled_asks p `sublist_of` part true (sx_log (cd_http y));
    cw_once : part true (sx_log (cd_http y)) ≡ₚ concat (settled_asks <$> cd_peers y);
    cw_lost_order : ∀ i, lost_asks y i `sublist_of` part false (sx_log (cd_http y));
    cw_lost : part false (sx_log (cd_http y)) ≡ₚ concat (lost_asks y <$> seq 0 (length (cd_peers y)));
    cw_good : Forall (λ x, good_request x.2) (handled (sx_log (cd_http y)));
    cw_returned : Forall (explained (sx_log (cd_http y))) (cd_returned y) }.

  Lemma crowd_ok_new n : crowd_ok (cloud_new n).
  Proof.
    assert (∀ i p, replicate n (MkPeer client_new (transport_new None) JIdle) !! i = Some p → p = MkPeer client_new (transport_new None) JIdle) as H by (by intros i p [-> _]%lookup_replicate).
    assert (∀ a, lost_asks (cloud_new n) a = []) as HL.
    { intros a. unfold lost_asks, cloud_new. cbn [cd_returned cd_peers omap list_omap app]. destruct (replicate n (MkPeer client_new (transport_new None) JIdle) !! a) as [p|] eqn:E; [|done]. by apply H in E as ->. }
    split; try done; cbn [cloud_new cd_http cd_waiting cd_peers cd_returned].
    - constructor.
    - constructor.
    - intros i p ->%H. split; [done|]. split; [done|]. split; [done|]. split; [done|]. intros w E. discriminate E.
    - intros i c t o id f m E%H. discriminate E.
    - intros i p ->%H. done.
    - cbn. clear. induction n as [|n IH]; [done|]. cbn. done.
    - intros i. by rewrite HL.
    - assert (∀ l : list nat, concat (lost_asks (cloud_new n) <$> l) = []) as E; [|by rewrite E].
      intros l. induction l as [|a l IH]; [done|]. rewrite fmap_cons. cbn [concat]. by rewrite IH, HL.
    - constructor.
    - constructor.
  Qed.
  Lemma member_mono log log' p : log `prefix_of` log' → member_ok log p → member_ok log' p.
  Proof.
    intros [l ->] [Hin H]. split; [done|]. destruct (pe_job p) as [|o id f n|o id ok got]; [done|done|].
    destruct H as (H1 & H0 & H2). split; [done|]. split; [done|]. destruct H2 as [[H2 [[A B]|(r & l1 & s & l2 & A & B & C)]]|(H2 & H3 & k & q & l1 & s & l2 & A & B & C & D)].
    - left. split; [done|]. by left.
    - left. split; [done|]. right. exists r, l1, s, (l2 ++ l). by rewrite B, <-app_assoc.
    - right. split; [done|]. split; [done|]. exists k, q, l1, s, (l2 ++ l). by rewrite C, <-app_assoc.
  Qed.
  Lemma queued_insert peers i p j pe : queued peers j pe → j ≠ i → queued (<[i:=p]> peers) j pe.
  Proof. intros (c & t & o & id & f & n & r & H1 & H) Hj. exists c, t, o, id, f, n, r. by rewrite list_lookup_insert_ne. Qed.
  Lemma queued_others peers i p w pend : Forall2 (queued peers) w pend → i ∉ w → Forall2 (queued (<[i:=p]> peers)) w pend.
  Proof.
    induction 1 as [|j pe w pend H1 H2 IH]; intros Hi; [constructor|]. apply not_elem_of_cons in Hi as [Hj Hi]. constructor; [|by apply IH]. by apply queued_insert.
  Qed.
  Lemma not_queued peers i p w pend : Forall2 (queued peers) w pend → peers !! i = Some p → (∀ o id f n, pe_job p ≠ JWaits o id f n) → i ∉ w.
  Proof.
    induction 1 as [|j pe w pend H1 H2 IH]; intros Hi Hj; [apply not_elem_of_nil|]. apply not_elem_of_cons. split; [|by apply IH]. intros ->.
    destruct H1 as (c & t & o & id & f & n & r & H1 & _). rewrite Hi in H1. injection H1 as ->. by eapply Hj.
  Qed.

  (** *** Calling *)
  Lemma free_call_cases i o id tok fresh y c t : cd_peers y !! i = Some (MkPeer c t JIdle) → tp_queue t = [] → calm c t → callable o id → authorized (tcf i) tok →
    (no_request c o id ∧ ∃ t', d_call i o id tok fresh y = put i (MkPeer c t' (JAnswered o id true [])) (cd_http y) (cd_waiting y) y ∧ tp_queue t' = [] ∧ free t') ∨
    (∃ r q, opening c o id = Some (MsgRequest id r) ∧ sendable (MsgRequest id r) ∧
      d_call i o id tok fresh y = put i (MkPeer c (HttpClientModel.request q (XPost (MsgRequest id r)) t) (JWaits o id (length (tp_flight t)) (length (tp_streams t)))) (wait (PPost None None id r) (cd_http y)) (cd_waiting y ++ [i]) y).
  Proof.
    intros Hi Hq [Hcs Hfr] Hpo Ha. unfold HttpCloudModel.d_call. rewrite Hi, first_is.
    destruct (opening c o id) as [m|] eqn:Eo; [|left; split; [by left|]; by exists t].
    destruct (StackProofs2.opening_cases _ _ _ _ Eo) as [(n & -> & Hn)|[(cps & info & -> & Hi0 & ->)|(k & p & -> & Hm & Hk & ->)]].
    - destruct (signal_dec o) as [Hsg|Hsg].
      { left. split; [right; split; [by eexists|by right]|]. assert (sendable (MsgNotification n)) as Hse by (by destruct o; try done; injection Eo as <-).
        destruct (free_ask i t (cd_http y) _ tok fresh Hfr Ha Hse) as [q ->].
        destruct (reply_note tcf i q n t Hq) as (t' & -> & Hq' & Hs' & Hv'). exists t'. split; [done|]. split; [done|]. split; [rewrite Hs'; apply Hfr|rewrite Hv'; apply Hfr]. }
      assert (o = ORootsChanged) as -> by (destruct o; [unfold StackProofs.opening in Eo; by destruct (cl_initialized c)|by destruct (Hn k p)|done|by destruct Hsg..]).
      assert (cl_initialized c = true ∧ n = NClient CRootsListChanged JNull) as [Hi0 ->].
      { unfold StackProofs.opening, c_step, send_notification in Eo. cbn [e_op e_nok] in Eo. repeat (case_match; cbn [fst cl_sent ClientModel.send] in Eo; rewrite ?drop_all, ?drop_app in Eo; try discriminate Eo); cbn in Eo; by simplify_eq. }
      left. split; [right; split; [by eexists|by left]|].
      destruct (free_ask i t (cd_http y) _ tok fresh Hfr Ha sendable_roots) as [q ->].
      destruct (reply_note tcf i q (NClient CRootsListChanged JNull) t Hq) as (t' & -> & Hq' & Hs' & Hv'). exists t'. split; [done|]. split; [done|]. split; [rewrite Hs'; apply Hfr|rewrite Hv'; apply Hfr].
    - right. set (q0 := initialize_params cps info) in *. cbn [callable postable] in Hpo. fold q0 in Hpo.
      destruct (free_ask i t (cd_http y) _ tok fresh Hfr Ha Hpo) as (q & ->). by exists (RClient CInitialize q0), q.
    - right. destruct (free_ask i t (cd_http y) _ tok fresh Hfr Ha Hpo) as [q ->]. by exists (RClient k p), q.
  Qed.
  Lemma free_call_ok y i o id tok fresh : crowd_ok y → callable o id → authorized (tcf i) tok → crowd_ok (d_call i o id tok fresh y).
  Proof.
    intros K Hpo Ha.
    destruct (cd_peers y !! i) as [[c t j]|] eqn:Hi; [|unfold HttpCloudModel.d_call; by rewrite Hi].
    destruct j as [|o1 id1 f n|o1 id1 ok got]; [|unfold HttpCloudModel.d_call; by rewrite Hi..].
    destruct (cw_peers _ K i _ Hi) as (Hin & Hq & Hset). cbn [pe_client pe_tp pe_job] in *. pose proof (not_queued _ _ _ _ _ (cw_wait _ K) Hi ltac:(by intros)) as Hnw.
    destruct (free_call_cases i o id tok fresh y c t Hi Hq Hset Hpo Ha) as [(Hno & t' & -> & Hq' & Hf')|(r & q & Eo & Hse & ->)].
    - (* nothing waits *)
      assert (settled_asks (MkPeer c t' (JAnswered o id true [])) = settled_asks (MkPeer c t JIdle)) as Hsa.
      { unfold settled_asks. cbn [pe_client pe_job]. rewrite first_is. f_equal. destruct Hno as [->|[[n ->] _]]; done. }
      destruct K as [A1 A2 A3 A4 A5 A6 A7 A8 A9 A10]. split; cbn [put cd_http cd_waiting cd_peers cd_returned]; try done.
      + by apply queued_others.
      + intros j p' [[-> ->]|[_ Hj]]%put_lookup; [|by eapply A3]. split; [done|]. cbn [pe_job pe_tp pe_client]. split; [done|]. split; [split; [apply Hset|done]|]. left. split; [done|]. by left.
      + intros j c1 t1 o1 id1 f n [[_ E]|[_ Hj]]%put_lookup; [discriminate E|]. by eapply A4.
      + intros j p' [[-> ->]|[_ Hj]]%put_lookup; [|by eapply A5]. rewrite Hsa. by eapply A5.
      + rewrite A6. symmetry. erewrite concat_insert with (e := []); [by rewrite app_nil_r|exact Hi|]. by rewrite app_nil_r.
      + intros j. rewrite (lost_same y i (MkPeer c t JIdle)) by (first [done|by destruct o]). done.
      + rewrite (lost_all_same y i (MkPeer c t JIdle)) by (first [done|by destruct o]). done.
    - (* a request *)
      destruct K as [A1 A2 A3 A4 A5 A6 A7 A8 A9 A10]. split; cbn [put cd_http cd_waiting cd_peers cd_returned wait sx_streams sx_sessions sx_log sx_pending]; try done.
      + apply NoDup_app. split; [done|]. split; [|apply NoDup_singleton]. intros z Hz ->%elem_of_list_singleton. done.
      + apply Forall2_app; [by apply queued_others|]. constructor; [|constructor]. eexists c, _, o, id, _, _, r. rewrite list_lookup_insert by (by eapply lookup_lt_Some). done.
      + intros j p' [[-> ->]|[_ Hj]]%put_lookup; [|by eapply A3]. split; [done|]. cbn [pe_job pe_tp pe_client]. by exists r, t, q.
      + intros j c1 t1 o1 id1 f n [[-> E]|[_ Hj]]%put_lookup; [apply elem_of_app; right; by apply elem_of_list_singleton|]. apply elem_of_app. left. by eapply A4.
      + intros j p' [[-> ->]|[_ Hj]]%put_lookup; [|by eapply A5]. exact (A5 i _ Hi).
      + rewrite A6. symmetry. erewrite concat_insert with (e := []); [by rewrite app_nil_r|exact Hi|]. by rewrite app_nil_r.
      + intros j. rewrite (lost_same y i (MkPeer c t JIdle)) by done. done.
      + rewrite (lost_all_same y i (MkPeer c t JIdle)) by done. done.
  Qed.
  (** *** Answering *)
  Lemma queued_is y k i : crowd_ok y → cd_waiting y !! k = Some i → ∃ c t o id f n r, cd_peers y !! i = Some (MkPeer c t (JWaits o id f n)) ∧ opening c o id = Some (MsgRequest id r) ∧
    sx_pending (cd_http y) !! k = Some (PPost None None id r).
  Proof.
    intros K Hk. destruct (Forall2_lookup_l _ _ _ _ _ (cw_wait _ K) Hk) as (pe & Hpe & (c & t & o & id & f & n & r & Hi & Eo & ->)). by exists c, t, o, id, f, n, r.
  Qed.
  Lemma free_answer_cases y k e1 e2 i c t o id f n r : crowd_ok y → cd_waiting y !! k = Some i → cd_peers y !! i = Some (MkPeer c t (JWaits o id f n)) → opening c o id = Some (MsgRequest id r) →
    sx_pending (cd_http y) !! k = Some (PPost None None id r) → no_break e2 → 0%N ∉ e2 → all_travel (d_answer k e1 e2 y) →
    let b := back (sx_log (cd_http y)) id r in
    ∃ v' t', good_request r ∧ cl_in c = [] ∧ calm c t' ∧ tp_queue t' = [] ∧
      d_answer k e1 e2 y = put i (MkPeer c t' (JAnswered o id b (if b then [MsgResponse (answer (sx_log (cd_http y)) id r)] else []))) v' (delete k (cd_waiting y)) y ∧
      sx_log v' = sx_log (cd_http y) ++ [LProcessed None id r] ∧ sx_pending v' = delete k (sx_pending (cd_http y)) ∧ (b = false → ∃ kd q, o = OCall kd q ∧ r = RClient kd q) ∧ (b = true → tp_version t' = Some (if is_init (MsgRequest id r) then V else default_version)).
  Proof.
    intros K Hk Hi Eo Hpe Hb2 Hz Ht. cbn zeta. destruct (cw_peers _ K i _ Hi) as [Hin Hpk]. cbn [pe_client pe_tp pe_job] in *. destruct Hpk as (r' & t0 & q & Eo' & Hse & -> & -> & -> & Hq & Hset).
    rewrite Eo in Eo'. injection Eo' as <-. assert (good_request r) as Hg.
    { destruct (StackProofs2.opening_cases _ _ _ _ Eo) as [(? & E & _)|[(cps & info & _ & _ & E)|(kk & p & _ & _ & _ & E)]]; [discriminate E|injection E as ->; apply Hse..]. }
    destruct (back (sx_log (cd_http y)) id r) eqn:Hbk.
    - destruct (continue_free (cd_http y) k id r e1 e2 Hpe) as (v' & x & Ec & L1 & L3 & X1 & X2 & X3 & X4).
      assert (∀ ok got t1, take_reply i (length (tp_flight t0)) (length (tp_streams t0)) x (HttpClientModel.request q (XPost (MsgRequest id r)) t0) = (ok, got, t1) →
        d_answer k e1 e2 y = put i (MkPeer c t1 (JAnswered o id ok got)) v' (delete k (cd_waiting y)) y) as Ed.
      { intros ok got t1 E. unfold HttpCloudModel.d_answer. rewrite Hk, Hpe, Hi, (back_true _ _ _ _ _ _ Hbk None). cbn [snd]. by rewrite Ec, E. }
      assert (sendable (MsgResponse (answer (sx_log (cd_http y)) id r))) as Hsa.
      { destruct (take_reply i (length (tp_flight t0)) (length (tp_streams t0)) x (HttpClientModel.request q (XPost (MsgRequest id r)) t0)) as [[ok got] t1] eqn:E. rewrite (Ed _ _ _ eq_refl) in Ht.
        by apply (travel_now cf behave key _ _ None _ _ Ht). }
      destruct (reply_request tcf i q (MsgRequest id r) t0 x _ Hsa) as (t' & Er & R1 & R2 & R3); [|done..|].
      { destruct X3 as [X3|X3]; [by left|right]. by exists e2. }
      rewrite X2 in R2. rewrite X4 in R3. destruct Hset as [Hcs [F1 F2]]. exists v', t'. split; [done|]. split; [done|]. split; [|split; [done|split; [by apply Ed|by rewrite R3]]].
      split; [done|]. split; [congruence|]. rewrite R3. destruct (is_init (MsgRequest id r)); intros ? [= <-]; [apply V_supported|apply default_supported].
    - destruct (StackProofs2.opening_cases _ _ _ _ Eo) as [(? & E & _)|[(cps & info & _ & _ & E)|(kd & p & -> & Hm & Hnr & E)]]; [discriminate E|injection E as ->; discriminate Hbk|injection E as ->].
      eexists _, _. split; [done|]. split; [done|]. split; [|split; [|split]].
      3: { unfold HttpCloudModel.d_answer. rewrite Hk, Hpe, Hi, (back_false _ _ _ _ _ _ Hbk). reflexivity. }
      + cbn [tp_step]. rewrite flight_new. cbn [end_send fst answered HttpClientModel.request]. split; [apply Hset|]. apply Hset.
      + cbn [tp_step]. rewrite flight_new. cbn [end_send fst answered HttpClientModel.request tp_queue]. done.
      + split; [done|]. split; [done|]. split; [|done]. intros _. by exists kd, p.
  Qed.
  Lemma free_answer_ok y k e1 e2 : crowd_ok y → no_break e2 → 0%N ∉ e2 → all_travel (d_answer k e1 e2 y) → crowd_ok (d_answer k e1 e2 y).
  Proof.
    intros K Hb2 Hz Ht. destruct (cd_waiting y !! k) as [i|] eqn:Hk; [|unfold HttpCloudModel.d_answer; by rewrite Hk].
    destruct (queued_is _ _ _ K Hk) as (c & t & o & id & f & n & r & Hi & Eo & Hpe).
    destruct (free_answer_cases y k e1 e2 i c t o id f n r K Hk Hi Eo Hpe Hb2 Hz Ht) as (v' & t' & Hg & Hin & Hset & Hq & -> & L1 & L3 & Hcr & _). clear Ht.
    set (b := back (sx_log (cd_http y)) id r) in *. set (p1 := MkPeer c t' _).
    assert (settled_asks p1 = settled_asks (MkPeer c t (JWaits o id f n)) ++ (if decide (b = true) then [(id, r)] else [])) as Hsa.
    { unfold settled_asks, p1. cbn [pe_client pe_job]. rewrite app_nil_r. f_equal. destruct b; [|done]. by rewrite first_is, Eo. }
    assert (lost_job p1 = (if decide (b = false) then [(id, r)] else [])) as Hlj.
    { unfold lost_job, p1. cbn [pe_job]. destruct b; [by destruct o|]. destruct (Hcr eq_refl) as (kd & q & -> & ->). done. }
    assert (lost_asks y i = omap (λ '(j, o, id, r), if decide (j = i) then lost_call o id r else None) (cd_returned y)) as Hli. { unfold lost_asks. rewrite Hi. by rewrite app_nil_r. }
    assert (∀ j, lost_asks (put i p1 v' (delete k (cd_waiting y)) y) j = if decide (j = i) then lost_asks y i ++ (if decide (b = false) then [(id, r)] else []) else lost_asks y j) as Hlo.
    { intros j. rewrite (lost_put y i _ _ _ _ j Hi). destruct (decide (j = i)) as [->|]; [|done]. by rewrite Hli, Hlj. }
    assert (sx_log (cd_http y) `prefix_of` sx_log v') as Hpre by (rewrite L1; by eexists).
    assert (i ∉ delete k (cd_waiting y)) as Hid.
    { pose proof (cw_nodup _ K) as Hn. rewrite <-(take_drop_middle _ _ _ Hk) in Hn. rewrite delete_take_drop. apply NoDup_app in Hn as (_ & H2 & H3). apply NoDup_cons in H3 as [H3 _]. intros [H|H]%elem_of_app; [|done]. apply (H2 i H), elem_of_list_here. }
    destruct K as [A1 A2 A3 A4 A5 A6 A7 A8 A9 A10]. split; cbn [put cd_http cd_waiting cd_peers cd_returned]; try done.
    - rewrite <-(take_drop_middle _ _ _ Hk) in A1. rewrite delete_take_drop. apply NoDup_app in A1 as (H1 & H2 & H3). apply NoDup_cons in H3 as [H3 H4]. apply NoDup_app. split; [done|]. split; [|done]. intros z Hz1 Hz2. by apply (H2 z Hz1), elem_of_list_further.
    - rewrite L3. apply queued_others; [|done]. by apply Forall2_delete.
    - intros j p' [[-> ->]|[_ Hj]]%put_lookup; [|by apply (member_mono (sx_log (cd_http y))); [done|eapply A3]]. split; [done|]. cbn [pe_job pe_tp pe_client]. split; [done|]. split; [done|]. destruct b eqn:Eb.
      + left. split; [done|]. right. exists r, (sx_log (cd_http y)), None, []. done.
      + right. split; [done|]. split; [done|]. destruct (Hcr eq_refl) as (kd & q & -> & ->). exists kd, q, (sx_log (cd_http y)), None, []. done.
    - intros j c1 t1 o1 id1 f1 n1 [[-> E]|[Hj Hj']]%put_lookup; [discriminate E|]. pose proof (A4 _ _ _ _ _ _ _ Hj') as H. rewrite <-(take_drop_middle _ _ _ Hk) in H. rewrite delete_take_drop.
      apply elem_of_app in H as [H|H]; apply elem_of_app; [by left|right]. apply elem_of_cons in H as [->|H]; done.
    - intros j p' Hj. rewrite L1, part_snoc. fold b. destruct (put_lookup _ _ _ _ _ Hj) as [[-> ->]|[_ Hj']].
      + rewrite Hsa. apply sublist_app; [by eapply A5|done].
      + by apply sublist_inserts_r, (A5 j).
    - rewrite L1, part_snoc. fold b. rewrite A6. symmetry. by apply (concat_insert settled_asks _ _ (MkPeer c t (JWaits o id f n))).
    - intros j. rewrite Hlo, L1, part_snoc. fold b. destruct (decide (j = i)); [apply sublist_app; [apply A7|done]|]. by apply sublist_inserts_r, A7.
    - rewrite L1, part_snoc. fold b. rewrite A8, insert_length. symmetry. apply (concat_seq _ _ _ i); [by eapply lookup_lt_Some| |].
      + intros j Hj. by rewrite Hlo, decide_False.
      + by rewrite Hlo, decide_True.
    - rewrite L1, handled_snoc. apply Forall_app. split; [done|]. by apply Forall_singleton.
    - eapply Forall_impl; [exact A10|]. intros z. by apply explained_mono.
  Qed.
  (** *** Returning *)
  Lemma free_return_cases y i tok fresh c t o id ok got : crowd_ok y → cd_peers y !! i = Some (MkPeer c t (JAnswered o id ok got)) → authorized (tcf i) tok →
    ∃ c' r t', d_return i tok fresh y = give i o id r (put i (MkPeer c' t' JIdle) (cd_http y) (cd_waiting y) y) ∧
      tp_queue t' = [] ∧ cl_in c' = [] ∧ calm c' t' ∧
      settled_asks (MkPeer c' t' JIdle) = settled_asks (MkPeer c t (JAnswered o id ok got)) ∧ explained (sx_log (cd_http y)) (i, o, id, r) ∧
      option_list (lost_call o id r) = lost_job (MkPeer c t (JAnswered o id ok got)) ∧ ((∃ rq, opening c o id = Some (MsgRequest id rq)) → cl_initialized c' = true) ∧ (ok = false → r = CErr send_failed).
  Proof.
    intros K Hi Ha. destruct (cw_peers _ K i _ Hi) as [Hin Hpk]. cbn [pe_client pe_tp pe_job] in *. destruct Hpk as (Hq & [Hcs Hfr] & [[-> Hpk]|(-> & -> & k & q & l1 & s & l2 & -> & Eo & El & Hbk & Hg)]).
    2: { exists (track id c), (CErr send_failed), t. pose proof (lost_step _ _ _ _ Eo) as Hls.
      assert (cl_initialized c = true) as Hini.
      { unfold StackProofs.opening in Eo. destruct (is_method k); [|discriminate Eo]. destruct (refused k c) eqn:Hk; [discriminate Eo|]. destruct (cl_initialized c) eqn:E; [done|]. by rewrite ClientProofs.not_initialized_refused in Hk. }
      split. { unfold HttpCloudModel.d_return. rewrite Hi. unfold second_of. rewrite (Hls true). cbn [fst]. unfold sends. cbn [track cl_sent]. rewrite drop_all, drop_nil. cbn [head]. by rewrite (Hls false). }
      do 2 (split; [done|]). split; [by split|]. split; [|split; [|done]].
      - unfold settled_asks. cbn [pe_client pe_job track cl_sent]. by rewrite !app_nil_r.
      - exists c. split; [done|]. split; [done|]. right. right. left. by exists k, q, l1, s, l2. }
    destruct (c_step c (MkEvent o id true got true)) as [c' r] eqn:Hc. exists c', r.
    destruct (second_is c o id got) as (l & El & Hl & Hl0).
    assert (∃ t', d_return i tok fresh y = give i o id r (put i (MkPeer c' t' JIdle) (cd_http y) (cd_waiting y) y) ∧ tp_queue t' = [] ∧ free t') as (t' & Er & Q & F').
    { unfold HttpCloudModel.d_return. rewrite Hi, El. destruct Hl as [->| ->]; cbn [head].
      - rewrite Hc. by exists t.
      - destruct (free_ask i t (cd_http y) _ tok fresh Hfr Ha sendable_initialized) as [q ->].
        destruct (reply_note tcf i q (NClient CInitialized JNull) t Hq) as (t' & -> & H1 & H2 & H3). rewrite Hc, StackProofs.deliver_nil. exists t'. split; [done|]. split; [done|]. split; [rewrite H2; apply Hfr|rewrite H3; apply Hfr]. }
    exists t'. split; [done|]. split; [done|].
    assert (settled_asks (MkPeer c' t' JIdle) = settled_asks (MkPeer c t (JAnswered o id true got))) as Hsa.
    { unfold settled_asks. cbn [pe_client pe_job]. by rewrite (asks_step _ _ _ _ _ _ Hc), first_is, app_nil_r. }
    assert (lost_job (MkPeer c t (JAnswered o id true got)) = []) as Hlj by (by destruct o).
    destruct Hpk as [(Hno & ->)|(rq & l1 & s & l2 & Eo & El1 & Hbk & -> & Hg)].
    - destruct (quiet_step _ _ _ _ _ Hno Hc) as (U1 & U2 & U3). split; [congruence|]. split; [|split; [done|split; [|split]]].
      + split; [|done]. by rewrite U2, U3.
      + exists c. split; [done|]. split; [done|]. left. by rewrite Hc.
      + by rewrite (quiet_not_lost _ _ _ _ _ Hno Hc), Hlj.
      + split; [|done]. intros [rq Eo]. destruct Hno as [Hno|[[? Hno] _]]; rewrite Eo in Hno; discriminate Hno.
    - destruct (answered_step cf behave key Hok _ _ _ _ _ _ _ Hin Eo Hcs Hc) as (U1 & U2 & U3). split; [done|]. split; [|split; [done|split; [|split]]].
      + by split.
      + exists c. split; [done|]. split; [done|]. right. left. exists rq, l1, s, l2. by rewrite Hc.
      + by rewrite (not_lost _ _ _ _ _ _ _ _ _ _ Hin Eo Hc), Hlj.
      + done.
  Qed.
  Lemma free_return_ok y i tok fresh : crowd_ok y → authorized (tcf i) tok → crowd_ok (d_return i tok fresh y).
  Proof.
    intros K Ha. destruct (cd_peers y !! i) as [[c t j]|] eqn:Hi; [|unfold HttpCloudModel.d_return; by rewrite Hi].
    destruct j as [|o id f n|o id ok got]; [unfold HttpCloudModel.d_return; by rewrite Hi..|].
    destruct (free_return_cases y i tok fresh c t o id ok got K Hi Ha) as (c' & r & t' & -> & Q & Hin & Hset & Hsa & Hx & Hlc & _).
    pose proof (not_queued _ _ _ _ _ (cw_wait _ K) Hi ltac:(by intros)) as Hnw.
    assert (∀ j, lost_asks (give i o id r (put i (MkPeer c' t' JIdle) (cd_http y) (cd_waiting y) y)) j = lost_asks y j) as Hlo.
    { intros j. unfold lost_asks. cbn [give put cd_returned cd_peers]. rewrite omap_snoc. destruct (decide (i = j)) as [<-|Hj]; cbn [option_list].
      - rewrite list_lookup_insert by (by eapply lookup_lt_Some). rewrite Hi, Hlc, app_nil_r. done.
      - by rewrite list_lookup_insert_ne, app_nil_r. }
    destruct K as [A1 A2 A3 A4 A5 A6 A7 A8 A9 A10]. split; cbn [give put cd_http cd_waiting cd_peers cd_returned]; try done.
    - by apply queued_others.
    - intros j p' [[-> ->]|[_ Hj]]%put_lookup; [|by eapply A3]. split; [done|]. done.
    - intros j c1 t1 o1 id1 f1 n1 [[-> E]|[Hj Hj']]%put_lookup; [discriminate E|]. by eapply A4.
    - intros j p' [[-> ->]|[_ Hj]]%put_lookup; [|by eapply A5]. rewrite Hsa. by eapply A5.
    - rewrite A6. symmetry. erewrite (concat_insert settled_asks) with (e := []); [by rewrite app_nil_r|exact Hi|]. by rewrite app_nil_r.
    - intros j. rewrite Hlo. apply A7.
    - rewrite insert_length, A8. erewrite Forall_fmap_ext_1; [reflexivity|]. apply Forall_forall. intros j _. by rewrite Hlo.
    - apply Forall_app. split; [done|]. by apply Forall_singleton.
  Qed.
  (** *** Every history *)
  Lemma post_log v h b fresh : sx_log (step v (HPost h b fresh)).1 = sx_log v.
  Proof.
    cbn [h_step]. unfold post_start, process_init_session. rewrite Hst. destruct (validate_headers h Post); [done|]. destruct b as [m|]; [|done]. destruct (is_init m).
    - by destruct m.
    - destruct (validate_non_init_session hcf (h_session h) v) as [s|z]; [|done]. destruct (validate_protocol_version hcf (h_session h) (h_version h) v); [done|]. by destruct m.
  Qed.
  Lemma free_step_log y d : sx_log (cd_http y) `prefix_of` sx_log (cd_http (d_step y d)).
  Proof.
    assert (∀ i m tok fresh t v, sx_log v `prefix_of` sx_log ((ask i m tok fresh t v).1.2)) as Hask.
    { intros i m tok fresh t v. unfold HttpCloudModel.ask. destruct (tp_step (tcf i) t (TSend m None tok)) as [t1 [r|]]; [done|]. destruct (last (tp_sent t1)) as [q|]; [|done].
      pose proof (post_log v (seen_headers (cr_headers q)) (parsed (cr_body q)) fresh) as H. destruct (h_step hcf answer v _) as [v1 [x|]]; cbn [fst snd] in *; by rewrite H. }
    destruct d as [i o id tok fresh|k e1 e2|i tok fresh]; cbn [HttpCloudModel.d_step].
    - unfold HttpCloudModel.d_call. destruct (cd_peers y !! i) as [[c t [|? ? ? ?|? ? ? ?]]|]; try done. destruct (first_of c o id) as [m|]; [|done]. specialize (Hask i m tok fresh t (cd_http y)).
      destruct (ask i m tok fresh t (cd_http y)) as [[t1 v] [|x|]]; cbn [fst snd] in Hask; [done| |done]. by destruct (take_reply i _ _ x t1) as [[ok got] t2].
    - unfold HttpCloudModel.d_answer. destruct (cd_waiting y !! k) as [i|]; [|done]. destruct (sx_pending (cd_http y) !! k) as [[hdr rsid qid r|? ?]|] eqn:Hk; [|done..]. destruct (cd_peers y !! i) as [[c t [|? ? ? ?|? ? ? ?]]|]; try done.
      destruct (handle_request cf behave key qid r (mcp (sx_log (cd_http y)))).2 as [x0|]; [|cbn; by eexists].
      cbn [h_step]. rewrite Hk. pose proof (post_run_log hcf answer hdr rsid qid r e1 e2 (drop_pending k (cd_http y))) as (L1 & _). destruct (post_run hcf answer hdr rsid qid r e1 e2 (drop_pending k (cd_http y))) as [v1 x].
      cbn [fst] in L1. destruct (take_reply i _ _ x t) as [[ok got] t2]. cbn [put cd_http]. rewrite L1. by eexists.
    - unfold HttpCloudModel.d_return. destruct (cd_peers y !! i) as [[c t [|? ? ? ?|o id ok got]]|]; try done. destruct (second_of c o id ok got) as [m|]; [|by destruct (c_step c _)]. specialize (Hask i m tok fresh t (cd_http y)).
      destruct (ask i m tok fresh t (cd_http y)) as [[t1 v] a]; cbn [fst snd] in Hask.
      by destruct (match a with AReplied x => _ | _ => _ end) as [[ok2 got2] t2], (c_step c _).
  Qed.
  Lemma free_travel_before y d : all_travel (d_step y d) → all_travel y.
  Proof. intros H l1 sid id r l2 x E. destruct (free_step_log y d) as [l El]. apply (H l1 sid id r (l2 ++ l) x). by rewrite El, E, <-app_assoc. Qed.
  Lemma crowd_run n ds : Forall (usable_op tcf) ds → all_travel (d_run n ds) → crowd_ok (d_run n ds).
  Proof.
    induction ds as [|d ds IH] using rev_ind; intros Hu Ht; [apply crowd_ok_new|]. rewrite run_snoc in *. apply Forall_app in Hu as [Hu Hu1]. rewrite Forall_singleton in Hu1.
    specialize (IH Hu (free_travel_before _ _ Ht)). destruct d as [i o id tok fresh|k e1 e2|i tok fresh]; cbn [HttpCloudModel.d_step usable_op] in *.
    - destruct Hu1 as [Hpo Ha]. by apply free_call_ok.
    - destruct Hu1 as [Hb2 Hz]. by apply free_answer_ok.
    - by apply free_return_ok.
  Qed.
End stateless.
