(** Proofs about a client and a server connected over HTTP. *)
From stdpp Require Import gmap strings list sets.
From Verif Require Import ListLib TextLib JsonLib SerdeLib TypesModel ManagersModel SseModel SseSpec HttpModel HttpSpec HttpProofs HttpClientModel HttpClientSpec HttpClientProofs HttpClientProofs2 HttpClientProofs3 RpcModel RpcSpec RpcProofs ServerModel ServerSpec ClientModel ClientSpec HttpStackModel HttpStackSpec.
From Verif Require ServerProofs ClientProofs StackModel StackSpec StackProofs StackProofs2.

Section post.
  Context (cf : config) (behave : list invocation → hresult) (key : list N → string) (tcf : tconfig) (hcf : hconfig).
  Context (Hclash : no_clash tcf) (Hst : hc_stateful hcf = true).
  Notation answer := (answer cf behave key).
  Notation hrun := (h_run hcf answer).
  Notation post := (post cf behave key tcf hcf).
  Notation trip := (trip cf behave key tcf hcf).

  Lemma reached_step v o : (∃ os, v = hrun os) → ∃ os, (h_step hcf answer v o).1 = hrun os.
  Proof. intros [os ->]. exists (os ++ [o]). unfold h_run. by rewrite fold_left_app. Qed.
  Lemma post_run_sessions hdr rsid id r e1 e2 s : ¬ init_request r → sx_sessions (post_run hcf answer hdr rsid id r e1 e2 s).1 = sx_sessions s.
  Proof.
    intros Hr. unfold post_run. assert (is_init (MsgRequest id r) = false) as ->. { apply is_init_false. intros (i & p & [= <- ->]). apply Hr. by exists p. }
    set (s3 := match rsid with Some _ => _ | None => _ end). assert (sx_sessions s3 = sx_sessions s) as Es. { subst s3. destruct rsid as [sid|]; [|done]. by destruct (hc_store hcf). }
    clearbody s3. unfold build_response. destruct (hc_json hcf); [done|]. destruct hdr as [sid|]; [|done]. by destruct (sx_streams s3 !! sid).
  Qed.
  (** a connection that has been opened *)
  Record open_on (t : transport) (v : hserver) (sid w : text) : Prop := {
    oo_reached : ∃ os, v = hrun os;
    oo_session : tp_session t = Some sid; oo_version : tp_version t = Some w; oo_supported : w ∈ supported;
    oo_known : sx_sessions v !! sid = Some (MkSession true (Some w)); oo_streams : sx_streams v = ∅ }.
  Lemma open_agrees t v sid w : open_on t v sid w → version_agrees v sid (tp_version t).
  Proof. intros [_ _ -> H2 H3 _]. split; [done|]. intros x w' Hx Hw. rewrite H3 in Hx. injection Hx as <-. by injection Hw. Qed.
  Lemma post_request c t v sid w u id r : open_on t v sid w → usable tcf u → ¬ init_request r → sendable (MsgRequest id r) → sendable (MsgResponse (answer (sx_log v) id r)) →
    ∃ t' v', post (MsgRequest id r) u (MkWeb c t v) = (true, MkWeb c t' v') ∧ sx_log v' = sx_log v ++ [LProcessed (Some sid) id r] ∧
      tp_queue t' = tp_queue t ++ [MsgResponse (answer (sx_log v) id r)] ∧ open_on t' v' sid w.
  Proof.
    intros Ho (Ha & Hb & H0) Hr Hm Hresp. pose proof (open_agrees _ _ _ _ Ho) as Hag. destruct Ho as [[os ->] H1 H2 H3 H4 H5].
    destruct (HttpClientProofs3.posts tcf t (MsgRequest id r) (u_token u) Hclash Ha) as (q & E1 & Ev & Eh & Eb).
    destruct (post_run_resp hcf answer (Some sid) (Some sid) id r (u_stored u) (u_event u) (hrun os)) as (sv' & x & Ep & Hx1 & Hx2 & Hx3 & Hx4). { right. intros ? _. by rewrite H5, lookup_empty. }
    destruct (replies tcf q (MsgRequest id r) t x (MsgResponse (answer (sx_log (hrun os)) id r))) as (R1 & R2 & R3 & R4 & R5); [done|destruct Hx3 as [?|?]; [by left|right; eauto]|done|].
    pose proof (agreed_post hcf answer os (posted t) id r (u_session u) sid Hst (posted_ok t) Hr) as Hpost. cbn [posted h_session h_version] in Hpost.
    specialize (Hpost H1 Hag). assert (live sid (sx_log (hrun os))) as Hl by (apply sessions_live; [done|]; by eexists). specialize (Hpost Hl).
    unfold HttpStackModel.post. cbn [g_tp g_http g_client]. rewrite E1. cbn [HttpClientModel.request tp_sent]. rewrite last_snoc. rewrite Eh, Eb, doc_back by done. rewrite Hpost.
    rewrite continue_new, Ep. change (HttpClientModel.MkTransport _ _ _ _ _ _ _ _ _ (tp_sent t ++ [q])) with (HttpClientModel.request q (XPost (MsgRequest id r)) t).
    destruct (tp_step tcf (HttpClientModel.request q (XPost (MsgRequest id r)) t) _) as [t2 rr] eqn:Er. cbn [fst snd] in R1, R2, R4, R5. rewrite R1.
    pose proof (post_run_log hcf answer (Some sid) (Some sid) id r (u_stored u) (u_event u) (hrun os)) as (L1 & L2 & L3 & L4). rewrite Ep in L1, L3. cbn [fst] in L1, L3.
    pose proof (post_run_sessions (Some sid) (Some sid) id r (u_stored u) (u_event u) (hrun os) Hr) as L5. rewrite Ep in L5. cbn [fst] in L5.
    eexists _, _. split; [reflexivity|]. split; [exact L1|]. split; [exact R2|]. split.
    - destruct (reached_step (wait (PPost (Some sid) (Some sid) id r) (hrun os)) (HContinue (length (sx_pending (hrun os))) (u_stored u) (u_event u))) as [os' Hos].
      + destruct (reached_step (hrun os) (HPost (posted t) (Some (MsgRequest id r)) (u_session u))) as [os1 Hos1]; [by eexists|]. exists os1. rewrite <-Hos1. by rewrite Hpost.
      + rewrite continue_new, Ep in Hos. by exists os'.
    - by rewrite R4, Hx2.
    - rewrite R5, Hx4. assert (is_init (MsgRequest id r) = false) as ->. { apply is_init_false. intros (i & p & [= <- ->]). apply Hr. by exists p. }
      cbn [mbind option_bind]. by rewrite L5, H4.
    - done.
    - by rewrite L5.
    - by rewrite L3.
  Qed.
  Lemma post_note c t v sid w u n : open_on t v sid w → usable tcf u → sendable (MsgNotification n) →
    ∃ t', post (MsgNotification n) u (MkWeb c t v) = (true, MkWeb c t' v) ∧ tp_queue t' = tp_queue t ∧ open_on t' v sid w.
  Proof.
    intros Ho (Ha & Hb & H0) Hm. pose proof (open_agrees _ _ _ _ Ho) as Hag. destruct Ho as [Hos H1 H2 H3 H4 H5].
    destruct (HttpClientProofs3.posts tcf t (MsgNotification n) (u_token u) Hclash Ha) as (q & E1 & Ev & Eh & Eb).
    assert (h_step hcf answer v (HPost (posted t) (Some (MsgNotification n)) (u_session u)) = (v, Some (MkResp 202 None None BNone))) as Hpost.
    { cbn [h_step]. unfold post_start. rewrite (proj2 (post_headers _) (posted_ok t)). cbn [is_init posted h_session h_version]. unfold validate_non_init_session. rewrite Hst, H1, H4.
      unfold validate_protocol_version. rewrite H2. rewrite decide_True by done. rewrite Hst. cbn [mbind option_bind]. rewrite H4, decide_True by done. done. }
    unfold HttpStackModel.post. cbn [g_tp g_http g_client]. rewrite E1. cbn [HttpClientModel.request tp_sent]. rewrite last_snoc. rewrite Eh, Eb, doc_back by done. rewrite Hpost.
    change (HttpClientModel.MkTransport _ _ _ _ _ _ _ _ _ (tp_sent t ++ [q])) with (HttpClientModel.request q (XPost (MsgNotification n)) t).
    cbn [tp_step]. rewrite flight_new. unfold end_send. rewrite process_headers_spec. cbn [reply_of hr_status hr_session hr_version hr_body rp_status rp_session rp_version rp_type rp_body].
    rewrite (eq_refl : is_success 202 = true). cbn [default]. assert (contains application_json [] = false) as -> by by vm_compute. assert (contains text_event_stream [] = false) as -> by by vm_compute. rewrite (eq_refl : (202 =? 202)%Z = true).
    cbn [tp_step tp_streams answered HttpClientModel.request]. assert (tp_streams t !! length (tp_streams t) = None) as -> by by apply lookup_ge_None.
    eexists. split; [reflexivity|]. split; [done|]. by split.
  Qed.
  Lemma exchanged_post c t v m u t' v' x : exchanged tcf hcf answer t v m (u_token u) (u_session u) (u_stored u) (u_event u) t' v' x → post m u (MkWeb c t v) = (true, MkWeb c t' v').
  Proof.
    intros (q & c1 & c2 & sv1 & E1 & E2 & _ & E4 & E5 & E6 & E7). unfold HttpStackModel.post. cbn [g_tp g_http g_client]. rewrite E1, E2, last_snoc, E4, E5, E6, E7. done.
  Qed.
  Lemma post_run_init rsid id p e1 e2 s : sx_streams s = ∅ → ∃ v' x, post_run hcf answer None (Some rsid) id (RClient CInitialize p) e1 e2 s = (v', x) ∧
    sx_log v' = sx_log s ++ [LProcessed (Some rsid) id (RClient CInitialize p)] ∧ sx_streams v' = ∅.
  Proof.
    intros Hs. pose proof (post_run_log hcf answer None (Some rsid) id (RClient CInitialize p) e1 e2 s) as (L1 & _ & L3 & _).
    destruct (post_run _ _ _ _ _ _ _ _ _) as [v' x]. exists v', x. cbn [fst] in *. by rewrite L3.
  Qed.
  Lemma negotiated_ok id p log : scaps_ok (cf_caps cf) → default default_version (negotiated (answer log id (RClient CInitialize p))) ∈ supported.
  Proof.
    intros Hc. unfold HttpStackModel.answer, handle_request. cbn [snd]. unfold negotiated. cbn [rs_payload success]. rewrite (decode_is_of _ ClientProofs.initialize_ok _ (ClientProofs.initialize_typed _ Hc)).
    cbn [default]. assert (text_of (field "protocolVersion" (initialize_result cf)) = lit "2024-11-05") as E by done. unfold Datatypes.id. rewrite E. unfold supported. repeat (first [apply elem_of_list_here | apply elem_of_list_further]).
  Qed.
  Lemma post_init c t v u id p : scaps_ok (cf_caps cf) → (∃ os, v = hrun os) → tp_session t = None → sx_streams v = ∅ → usable tcf u → sendable (MsgRequest id (RClient CInitialize p)) →
    sendable (MsgResponse (answer (sx_log v ++ [LOpened (u_session u)]) id (RClient CInitialize p))) →
    ∃ t' v', post (MsgRequest id (RClient CInitialize p)) u (MkWeb c t v) = (true, MkWeb c t' v') ∧ sx_log v' = sx_log v ++ [LOpened (u_session u); LProcessed (Some (u_session u)) id (RClient CInitialize p)] ∧
      tp_queue t' = tp_queue t ++ [MsgResponse (answer (sx_log v ++ [LOpened (u_session u)]) id (RClient CInitialize p))] ∧ ∃ sid w, open_on t' v' sid w.
  Proof.
    intros Hok [os ->] H1 H5 (Ha & Hb & H0) Hm Hresp.
    destruct (init_exchange tcf hcf answer t os id p (u_token u) (u_session u) (u_stored u) (u_event u)) as (t' & v' & x & Hx & Hq & Hs & Hl & w & Hv & Hse & Hw); [done..|].
    exists t', v'. split; [by eapply exchanged_post|]. destruct Hx as (q & c1 & c2 & sv1 & E1 & E2 & _ & E4 & E5 & _).
    destruct (HttpClientProofs3.posts tcf t (MsgRequest id (RClient CInitialize p)) (u_token u) Hclash Ha) as (q' & E1' & _ & Eh & Eb).
    rewrite E1 in E1'. apply pair_equal_spec in E1' as [-> _]. cbn [HttpClientModel.request tp_sent] in E2. apply app_inj_tail in E2 as [_ ->].
    rewrite Eh, Eb, doc_back in E4 by done. assert (∃ os, v' = hrun os) as Hreach.
    { destruct (reached_step sv1 (HContinue (length (sx_pending (hrun os))) (u_stored u) (u_event u))) as [os' Hos].
      - destruct (reached_step (hrun os) (HPost (posted t) (Some (MsgRequest id (RClient CInitialize p))) (u_session u))) as [os1 Hos1]; [by eexists|]. rewrite E4 in Hos1. by exists os1.
      - rewrite E5 in Hos. by exists os'. }
    rewrite init_post in E4 by (try apply posted_ok; done). apply pair_equal_spec in E4 as [<- _].
    set (s0 := note _ _) in E5. change (sx_pending (hrun os)) with (sx_pending s0) in E5. rewrite continue_new in E5.
    destruct (post_run_init (u_session u) id p (u_stored u) (u_event u) s0 H5) as (v2 & x2 & Ep & L & S). rewrite Ep in E5. apply pair_equal_spec in E5 as [-> _].
    split; [rewrite L; subst s0; cbn [note sx_log HttpModel.set_session]; by rewrite <-app_assoc|]. split; [exact Hq|].
    exists (u_session u), w. split; [done..| |done|done]. rewrite Hw. by apply negotiated_ok.
  Qed.
  Lemma drain_all t : ∃ t', drain tcf (length (tp_queue t)) t = (tp_queue t, t') ∧ tp_queue t' = [] ∧ tp_session t' = tp_session t ∧ tp_version t' = tp_version t.
  Proof.
    remember (tp_queue t) as l eqn:E. revert t E. induction l as [|m l IH]; intros t E; [by exists t|].
    cbn [length drain tp_step]. unfold receive. rewrite <-E. cbn zeta beta iota.
    destruct (IH (MkTransport (tp_session t) (tp_version t) (tp_last t) l (tp_got t ++ [m]) (tp_flight t) (tp_streams t) (tp_handle t) (tp_tokens t) (tp_sent t)) eq_refl) as (t' & -> & H).
    by exists t'.
  Qed.
  Lemma open_drained t t' v sid w : open_on t v sid w → tp_session t' = tp_session t → tp_version t' = tp_version t → open_on t' v sid w.
  Proof. intros [H1 H2 H3 H4 H5 H6] E1 E2. split; [done|by rewrite E1|by rewrite E2|done..]. Qed.
  Lemma trip_request c t v sid w u id r : tp_queue t = [] → open_on t v sid w → usable tcf u → ¬ init_request r → sendable (MsgRequest id r) → sendable (MsgResponse (answer (sx_log v) id r)) →
    ∃ t' v', trip (Some (MsgRequest id r)) u (MkWeb c t v) = (true, [MsgResponse (answer (sx_log v) id r)], MkWeb c t' v') ∧ sx_log v' = sx_log v ++ [LProcessed (Some sid) id r] ∧
      tp_queue t' = [] ∧ open_on t' v' sid w.
  Proof.
    intros Hq Ho Hu Hr Hm Hx. destruct (post_request c t v sid w u id r Ho Hu Hr Hm Hx) as (t1 & v' & Hp & Hl & Hq1 & Ho1). unfold HttpStackModel.trip. rewrite Hp. cbn [g_tp g_client g_http].
    destruct (drain_all t1) as (t2 & -> & Hq2 & Hs & Hv). rewrite Hq1, Hq. eexists t2, v'. split; [done|]. split; [done|]. split; [done|]. by eapply open_drained.
  Qed.
  Lemma trip_init c t v u id p : scaps_ok (cf_caps cf) → tp_queue t = [] → (∃ os, v = hrun os) → tp_session t = None → sx_streams v = ∅ → usable tcf u → sendable (MsgRequest id (RClient CInitialize p)) →
    sendable (MsgResponse (answer (sx_log v ++ [LOpened (u_session u)]) id (RClient CInitialize p))) →
    ∃ t' v', trip (Some (MsgRequest id (RClient CInitialize p))) u (MkWeb c t v) = (true, [MsgResponse (answer (sx_log v ++ [LOpened (u_session u)]) id (RClient CInitialize p))], MkWeb c t' v') ∧
      sx_log v' = sx_log v ++ [LOpened (u_session u); LProcessed (Some (u_session u)) id (RClient CInitialize p)] ∧ tp_queue t' = [] ∧ ∃ sid w, open_on t' v' sid w.
  Proof.
    intros Hok Hq Hv Hs Hst' Hu Hm Hx. destruct (post_init c t v u id p Hok Hv Hs Hst' Hu Hm Hx) as (t1 & v' & Hp & Hl & Hq1 & sid & w & Ho1). unfold HttpStackModel.trip. rewrite Hp. cbn [g_tp g_client g_http].
    destruct (drain_all t1) as (t2 & -> & Hq2 & Hs2 & Hv2). rewrite Hq1, Hq. eexists t2, v'. split; [done|]. split; [done|]. split; [done|]. exists sid, w. by eapply open_drained.
  Qed.
  Lemma trip_note c t v sid w u n : tp_queue t = [] → open_on t v sid w → usable tcf u → sendable (MsgNotification n) →
    ∃ t', trip (Some (MsgNotification n)) u (MkWeb c t v) = (true, [], MkWeb c t' v) ∧ tp_queue t' = [] ∧ open_on t' v sid w.
  Proof.
    intros Hq Ho Hu Hm. destruct (post_note c t v sid w u n Ho Hu Hm) as (t1 & Hp & Hq1 & Ho1). unfold HttpStackModel.trip. rewrite Hp. cbn [g_tp g_client g_http].
    destruct (drain_all t1) as (t2 & -> & Hq2 & Hs & Hv). rewrite Hq1, Hq. eexists t2. split; [done|]. split; [done|]. by eapply open_drained.
  Qed.
End post.
