(** Proofs about several clients of one HTTP server. *)
From stdpp Require Import gmap strings list sets.
From Verif Require Import ListLib TextLib JsonLib SerdeLib TypesModel ManagersModel SseModel SseSpec HttpModel HttpSpec HttpProofs HttpClientModel HttpClientSpec HttpClientProofs HttpClientProofs2 HttpClientProofs3 RpcModel RpcSpec RpcProofs ServerModel ServerSpec ClientModel ClientSpec HttpStackModel HttpStackSpec HttpStackProofs HttpStackProofs2 HttpCloudModel HttpCloudSpec.
From Verif Require ServerProofs ClientProofs StackModel StackSpec StackProofs StackProofs2.

Definition V : list N := lit "2024-11-05".
Section exchanges.
  Context (cf : config) (behave : list invocation → hresult) (key : list N → string) (tcf : nat → tconfig) (hcf : hconfig).
  Context (Hclash : ∀ i, no_clash (tcf i)) (Hst : hc_stateful hcf = true) (Hok : scaps_ok (cf_caps cf)).
  Notation answer := (answer cf behave key).
  Notation ask := (ask cf behave key tcf hcf).
  Notation take_reply := (take_reply tcf).
  Notation step := (h_step hcf answer).

  Record on (v : hserver) (t : transport) (sid : text) : Prop := {
    on_session : tp_session t = Some sid; on_version : tp_version t = Some V; on_known : sx_sessions v !! sid = Some (MkSession true (Some V)) }.
  Lemma V_supported : V ∈ supported.
  Proof. by apply (bool_decide_unpack _); vm_compute. Qed.
  Lemma negotiated_V id p log : default default_version (negotiated (answer log id (RClient CInitialize p))) = V.
  Proof.
    unfold HttpStackModel.answer, handle_request. cbn [snd]. unfold negotiated. cbn [rs_payload success]. rewrite (decode_is_of _ ClientProofs.initialize_ok _ (ClientProofs.initialize_typed _ Hok)).
    cbn [default]. assert (text_of (field "protocolVersion" (initialize_result cf)) = lit "2024-11-05") as E by done. unfold Datatypes.id. by rewrite E.
  Qed.
  Lemma ask_request i t v sid id r tok fresh : on v t sid → authorized (tcf i) tok → ¬ init_request r → sendable (MsgRequest id r) →
    ∃ q, ask i (MsgRequest id r) tok fresh t v = (HttpClientModel.request q (XPost (MsgRequest id r)) t, wait (PPost (Some sid) (Some sid) id r) v, AWaiting).
  Proof.
    intros [H1 H2 H3] Ha Hr Hm. destruct (HttpClientProofs3.posts (tcf i) t (MsgRequest id r) tok (Hclash i) Ha) as (q & E1 & Ev & Eh & Eb). exists q.
    unfold HttpCloudModel.ask. rewrite E1. cbn [HttpClientModel.request tp_sent]. rewrite last_snoc. rewrite Eh, Eb, doc_back by done. cbn [h_step]. unfold post_start.
    rewrite (proj2 (post_headers _) (posted_ok t)). assert (is_init (MsgRequest id r) = false) as ->. { apply is_init_false. intros (j & p & [= <- ->]). apply Hr. by exists p. }
    unfold validate_non_init_session, validate_protocol_version. cbn [posted h_session h_version]. rewrite Hst, H1, H2, H3. rewrite decide_True by apply V_supported. cbn [mbind option_bind]. rewrite H3, decide_True by done. done.
  Qed.
  Lemma ask_init i t v id p tok fresh : tp_session t = None → authorized (tcf i) tok → sendable (MsgRequest id (RClient CInitialize p)) →
    ∃ q x, ask i (MsgRequest id (RClient CInitialize p)) tok fresh t v =
      (HttpClientModel.request q (XPost (MsgRequest id (RClient CInitialize p))) t, wait (PPost None (Some fresh) id (RClient CInitialize p)) (note (LOpened fresh) (HttpModel.set_session fresh x v)), AWaiting).
  Proof.
    intros H1 Ha Hm. destruct (HttpClientProofs3.posts (tcf i) t (MsgRequest id (RClient CInitialize p)) tok (Hclash i) Ha) as (q & E1 & Ev & Eh & Eb). exists q, (MkSession false (tp_version t)).
    unfold HttpCloudModel.ask. rewrite E1. cbn [HttpClientModel.request tp_sent]. rewrite last_snoc. rewrite Eh, Eb, doc_back by done. cbn [h_step]. unfold post_start.
    rewrite (proj2 (post_headers _) (posted_ok t)). cbn [is_init]. unfold process_init_session. cbn [posted h_session h_version]. rewrite Hst, H1. done.
  Qed.
  Lemma ask_note i t v sid n tok fresh : on v t sid → authorized (tcf i) tok → sendable (MsgNotification n) →
    ∃ q, ask i (MsgNotification n) tok fresh t v = (HttpClientModel.request q (XPost (MsgNotification n)) t, v, AReplied (MkResp 202 None None BNone)).
  Proof.
    intros [H1 H2 H3] Ha Hm. destruct (HttpClientProofs3.posts (tcf i) t (MsgNotification n) tok (Hclash i) Ha) as (q & E1 & Ev & Eh & Eb). exists q.
    unfold HttpCloudModel.ask. rewrite E1. cbn [HttpClientModel.request tp_sent]. rewrite last_snoc. rewrite Eh, Eb, doc_back by done. cbn [h_step]. unfold post_start.
    rewrite (proj2 (post_headers _) (posted_ok t)). cbn [is_init]. unfold validate_non_init_session, validate_protocol_version. cbn [posted h_session h_version]. rewrite Hst, H1, H2, H3.
    rewrite decide_True by apply V_supported. cbn [mbind option_bind]. rewrite H3, decide_True by done. done.
  Qed.
  Lemma reply_note i q n t : tp_queue t = [] → ∃ t', take_reply i (length (tp_flight t)) (length (tp_streams t)) (MkResp 202 None None BNone) (HttpClientModel.request q (XPost (MsgNotification n)) t) = (true, [], t') ∧
    tp_queue t' = [] ∧ tp_session t' = tp_session t ∧ tp_version t' = tp_version t.
  Proof.
    intros Hq. unfold HttpCloudModel.take_reply. cbn [tp_step]. rewrite flight_new. unfold end_send. rewrite process_headers_spec. cbn [reply_of hr_status hr_session hr_version hr_body rp_status rp_session rp_version rp_type rp_body].
    rewrite (eq_refl : is_success 202 = true). cbn [default]. assert (contains application_json [] = false) as -> by by vm_compute. assert (contains text_event_stream [] = false) as -> by by vm_compute. rewrite (eq_refl : (202 =? 202)%Z = true).
    cbn [tp_step tp_streams answered HttpClientModel.request]. assert (tp_streams t !! length (tp_streams t) = None) as -> by by apply lookup_ge_None. cbn [fst].
    match goal with |- context [drain _ _ ?s] => destruct (drain_all (tcf i) s) as (t' & E & Hq' & Hs & Hv) end. rewrite E. clear E. cbn in Hq', Hs, Hv |- *. rewrite Hq. by exists t'.
  Qed.
  (** without a session a stateful server refuses *)
  Lemma ask_outside i t v n tok fresh : tp_session t = None → authorized (tcf i) tok → sendable (MsgNotification n) →
    ∃ q, ask i (MsgNotification n) tok fresh t v = (HttpClientModel.request q (XPost (MsgNotification n)) t, v, AReplied (refuse 400)).
  Proof.
    intros H1 Ha Hm. destruct (HttpClientProofs3.posts (tcf i) t (MsgNotification n) tok (Hclash i) Ha) as (q & E1 & Ev & Eh & Eb). exists q.
    unfold HttpCloudModel.ask. rewrite E1. cbn [HttpClientModel.request tp_sent]. rewrite last_snoc. rewrite Eh, Eb, doc_back by done. cbn [h_step]. unfold post_start.
    rewrite (proj2 (post_headers _) (posted_ok t)). cbn [is_init]. unfold validate_non_init_session. cbn [posted h_session h_version]. by rewrite Hst, H1.
  Qed.
  Lemma reply_refused i q n t : tp_queue t = [] → ∃ t', take_reply i (length (tp_flight t)) (length (tp_streams t)) (refuse 400) (HttpClientModel.request q (XPost (MsgNotification n)) t) = (false, [], t') ∧
    tp_queue t' = [] ∧ tp_session t' = tp_session t ∧ tp_version t' = tp_version t.
  Proof.
    intros Hq. unfold HttpCloudModel.take_reply. cbn [tp_step]. rewrite flight_new. unfold end_send. rewrite process_headers_spec. cbn [refuse reply_of hr_status hr_session hr_version hr_body rp_status rp_session rp_version rp_type rp_body].
    rewrite (eq_refl : is_success 400 = false), (eq_refl : (400 =? 202)%Z = false).
    cbn [tp_step tp_streams answered HttpClientModel.request]. assert (tp_streams t !! length (tp_streams t) = None) as -> by by apply lookup_ge_None. cbn [fst].
    match goal with |- context [drain _ _ ?s] => destruct (drain_all (tcf i) s) as (t' & E & Hq' & Hs & Hv) end. rewrite E. clear E. cbn in Hq', Hs, Hv |- *. rewrite Hq. by exists t'.
  Qed.
  Lemma reply_request i q m t x m' : sendable m' → (hr_body x = BJson m' ∨ ∃ eid, hr_body x = BEvent eid m' ∧ no_break eid ∧ 0%N ∉ eid) → hr_status x = 200%Z → tp_queue t = [] →
    ∃ t', take_reply i (length (tp_flight t)) (length (tp_streams t)) x (HttpClientModel.request q (XPost m) t) = (true, [m'], t') ∧
      tp_queue t' = [] ∧ tp_session t' = match hr_session x with Some v => Some v | None => tp_session t end ∧ tp_version t' = match hr_version x with Some v => Some v | None => tp_version t end.
  Proof.
    intros Hm Hb Hs Hq. destruct (replies (tcf i) q m t x m' Hm Hb Hs) as (R1 & R2 & _ & R4 & R5). unfold HttpCloudModel.take_reply.
    destruct (tp_step (tcf i) (HttpClientModel.request q (XPost m) t) _) as [t1 rr]. cbn [fst snd] in *. rewrite R1.
    match goal with |- context [drain _ _ ?s] => destruct (drain_all (tcf i) s) as (t' & E & Hq' & Hs' & Hv') end. rewrite E, R2, Hq. exists t'. split; [done|]. split; [done|]. by rewrite Hs', Hv'.
  Qed.
  Lemma post_run_opened sid x id p e1 e2 s : sx_sessions s !! sid = Some x → sx_sessions (post_run hcf answer None (Some sid) id (RClient CInitialize p) e1 e2 s).1 = <[sid := MkSession true (Some V)]> (sx_sessions s).
  Proof.
    intros Hs. unfold post_run. assert (is_init (MsgRequest id (RClient CInitialize p)) = true) as -> by done. unfold update_session. cbn [note sx_sessions]. rewrite Hs, negotiated_V.
    assert (∀ b s3 y, build_response hcf None b e2 s3 = y → sx_sessions y.1 = sx_sessions s3) as Hbr. { intros b s3 y <-. unfold build_response. by destruct (hc_json hcf). }
    destruct (hc_store hcf); (destruct (build_response _ _ _ _ _) as [s4 [z bd]] eqn:Ebr; apply Hbr in Ebr; cbn [fst] in *; rewrite Ebr; done).
  Qed.
  (** the request that gets the lock *)
  Lemma continue_request v k hdr rsid id r e1 e2 : sx_pending v !! k = Some (PPost hdr rsid id r) → sx_streams v = ∅ → ∃ v' x, step v (HContinue k e1 e2) = (v', Some x) ∧
    sx_log v' = sx_log v ++ [LProcessed rsid id r] ∧ sx_streams v' = ∅ ∧ sx_pending v' = delete k (sx_pending v) ∧ hr_status x = 200%Z ∧ hr_session x = rsid ∧
    (hr_body x = BJson (MsgResponse (answer (sx_log v) id r)) ∨ hr_body x = BEvent e2 (MsgResponse (answer (sx_log v) id r))) ∧
    (¬ init_request r → sx_sessions v' = sx_sessions v ∧ ∀ sid, rsid = Some sid → sx_sessions v !! sid = Some (MkSession true (Some V)) → hr_version x = Some V) ∧
    (init_request r → hdr = None → ∀ sid, rsid = Some sid → is_Some (sx_sessions v !! sid) → sx_sessions v' = <[sid := MkSession true (Some V)]> (sx_sessions v) ∧ hr_version x = Some V).
  Proof.
    intros Hk Hs. cbn [h_step]. rewrite Hk. set (v0 := drop_pending k v). destruct (post_run_resp hcf answer hdr rsid id r e1 e2 v0) as (v' & x & E & Hx1 & Hx2 & Hx3 & Hx4). { right. intros sid _. unfold v0. cbn. by rewrite Hs. }
    rewrite E. exists v', x. pose proof (post_run_log hcf answer hdr rsid id r e1 e2 v0) as (L1 & _ & L3 & L4). rewrite E in L1, L3, L4. cbn [fst] in *.
    split; [done|]. split; [done|]. split; [rewrite L3; done|]. split; [done|]. split; [done|]. split; [done|]. split; [done|]. split.
    - intros Hr. pose proof (post_run_sessions cf behave key hcf hdr rsid id r e1 e2 v0 Hr) as L5. rewrite E in L5. cbn [fst] in L5. split; [done|]. intros sid -> Hv.
      assert (is_init (MsgRequest id r) = false) as Ei. { apply is_init_false. intros (j & p & [= <- ->]). apply Hr. by exists p. }
      rewrite Ei in Hx4. cbn [mbind option_bind] in Hx4. rewrite L5 in Hx4. change (sx_sessions v0) with (sx_sessions v) in Hx4. rewrite Hv in Hx4. done.
    - intros [p ->] -> sid -> [y Hy]. pose proof (post_run_opened sid y id p e1 e2 v0 Hy) as L5. rewrite E in L5. cbn [fst] in L5. split; [done|]. rewrite Hx4. assert (is_init (MsgRequest id (RClient CInitialize p)) = true) as -> by done. by rewrite negotiated_V.
  Qed.
End exchanges.
