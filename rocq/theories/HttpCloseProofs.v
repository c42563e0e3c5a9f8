(** Proofs about closing one client's transport. *)
From stdpp Require Import gmap strings list sets.
From Verif Require Import ListLib TextLib JsonLib SerdeLib TypesModel ManagersModel SseModel SseSpec HttpModel HttpSpec HttpProofs HttpClientModel HttpClientSpec HttpClientProofs HttpClientProofs2 HttpClientProofs3 RpcModel RpcSpec RpcProofs ServerModel ServerSpec ClientModel ClientSpec HttpStackModel HttpStackSpec HttpStackProofs HttpStackProofs2 HttpCloudModel HttpCloudSpec HttpCloudProofs HttpCloudProofs2 HttpCloseModel.
From Verif Require ServerProofs ClientProofs StackModel StackSpec StackProofs StackProofs2.

Lemma roots_step c : (∃ er, ∀ id ok ms nok, c_step c (MkEvent ORootsChanged id ok ms nok) = (c, CErr er)) ∨ (∀ id ok ms nok, c_step c (MkEvent ORootsChanged id ok ms nok) = send_notification (NClient CRootsListChanged JNull) nok c).
Proof.
  unfold c_step. cbn [e_op e_nok]. destruct (cl_initialized c); [|left; eexists; intros; reflexivity].
  destruct (cl_caps c) as [caps|]; [|right; intros; reflexivity]. destruct (has_key "roots" caps); [|right; intros; reflexivity].
  destruct (field "listChanged" (field "roots" caps)) as [|[]| | | | |]; (left; eexists; intros; reflexivity) || (right; intros; reflexivity).
Qed.
Section close.
  Context (cf : config) (behave : list invocation → hresult) (key : list N → string) (tcf : nat → tconfig) (hcf : hconfig).
  Context (Hclash : ∀ i, no_clash (tcf i)) (Hst : hc_stateful hcf = true).
  Notation answer := (answer cf behave key).
  Notation mcp := (mcp cf behave key).
  Notation ask := (ask cf behave key tcf hcf).
  Notation take_reply := (take_reply tcf).
  Notation d_call := (d_call cf behave key tcf hcf).
  Notation d_answer := (d_answer cf behave key tcf hcf).
  Notation d_return := (d_return cf behave key tcf hcf).
  Notation d_step := (d_step cf behave key tcf hcf).
  Notation opening := StackProofs.opening.

  (** *** A client without a session gets nothing from a server that keeps sessions *)
  Lemma ask_shut i t v m tok fresh : tp_session t = None → authorized (tcf i) tok → sendable m → is_init m = false →
    ∃ q, ask i m tok fresh t v = (HttpClientModel.request q (XPost m) t, v, AReplied (refuse 400)).
  Proof.
    intros H1 Ha Hm Hi. destruct (HttpClientProofs3.posts (tcf i) t m tok (Hclash i) Ha) as (q & E1 & Ev & Eh & Eb). exists q.
    unfold HttpCloudModel.ask. rewrite E1. cbn [HttpClientModel.request tp_sent]. rewrite last_snoc. rewrite Eh, Eb, doc_back by done. cbn [h_step]. unfold post_start.
    rewrite (proj2 (post_headers _) (posted_ok t)). rewrite Hi. unfold validate_non_init_session. cbn [posted h_session h_version]. by rewrite Hst, H1.
  Qed.
  Lemma reply_shut i q m t : tp_queue t = [] → ∃ t', take_reply i (length (tp_flight t)) (length (tp_streams t)) (refuse 400) (HttpClientModel.request q (XPost m) t) = (false, [], t') ∧
    tp_queue t' = [] ∧ tp_session t' = tp_session t.
  Proof.
    intros Hq. unfold HttpCloudModel.take_reply. cbn [tp_step]. rewrite flight_new. unfold end_send. rewrite process_headers_spec. cbn [refuse reply_of hr_status hr_session hr_version hr_body rp_status rp_session rp_version rp_type rp_body].
    rewrite (eq_refl : is_success 400 = false), (eq_refl : (400 =? 202)%Z = false).
    cbn [tp_step tp_streams answered HttpClientModel.request]. assert (tp_streams t !! length (tp_streams t) = None) as -> by by apply lookup_ge_None. cbn [fst].
    match goal with |- context [drain _ _ ?s] => destruct (drain_all (tcf i) s) as (t' & E & Hq' & Hs & Hv) end. rewrite E. clear E. cbn in Hq', Hs, Hv |- *. rewrite Hq. by exists t'.
  Qed.
  Definition dead (p : peer) : Prop :=
    cl_initialized (pe_client p) = true ∧ tp_session (pe_tp p) = None ∧ tp_queue (pe_tp p) = [] ∧
    match pe_job p with JIdle => True | JWaits _ _ _ _ => False | JAnswered o id b got => got = [] ∧ (b = true → opening (pe_client p) o id = None) end.
  Lemma put_same i p y : cd_peers y !! i = Some p → put i p (cd_http y) (cd_waiting y) y = y.
  Proof. intros H. unfold put. rewrite list_insert_id by done. by destruct y. Qed.
  Lemma dead_call i o id tok fresh y p : cd_peers y !! i = Some p → dead p → callable o id → authorized (tcf i) tok →
    ∃ p', dead p' ∧ d_call i o id tok fresh y = put i p' (cd_http y) (cd_waiting y) y.
  Proof.
    intros Hi Hd Hc Ha. destruct p as [c t [|o' id' f n|o' id' b got]].
    - destruct Hd as (H1 & H2 & H3 & _). cbn [pe_client pe_tp] in *. unfold HttpCloudModel.d_call. rewrite Hi, first_is. destruct (opening c o id) as [m|] eqn:Eo.
      + assert (sendable m ∧ is_init m = false) as [Hm Hn].
        { destruct (StackProofs2.opening_cases _ _ _ _ Eo) as [(n & -> & Hn)|[(cps & info & -> & Hi0 & ->)|(k & p & -> & Hm & Hk & ->)]].
          - split; [|done]. destruct o as [| | |j|q].
            + cbn [StackProofs.opening] in Eo. by rewrite H1 in Eo.
            + by destruct (Hn k p).
            + unfold StackProofs.opening in Eo. destruct (roots_step c) as [[er E]|E]; rewrite E in Eo; cbn [send_notification fst cl_sent ClientModel.send] in Eo; [rewrite drop_all in Eo; discriminate Eo|].
              rewrite drop_app in Eo. cbn [head] in Eo. assert (n = NClient CRootsListChanged JNull) as -> by congruence. apply sendable_roots.
            + cbn [StackProofs.opening] in Eo. by injection Eo as <-.
            + cbn [StackProofs.opening] in Eo. by injection Eo as <-.
          - congruence.
          - split; [exact Hc|]. by destruct k. }
        destruct (ask_shut i t (cd_http y) m tok fresh H2 Ha Hm Hn) as [q ->]. destruct (reply_shut i q m t H3) as (t' & -> & Q1 & Q2).
        exists (MkPeer c t' (JAnswered o id false [])). split; [|done]. split; [done|]. split; [by cbn; rewrite Q2|]. by split.
      + exists (MkPeer c t (JAnswered o id true [])). split; [|done]. by split.
    - by destruct Hd as (_ & _ & _ & []).
    - exists (MkPeer c t (JAnswered o' id' b got)). split; [done|]. rewrite put_same by done. unfold HttpCloudModel.d_call. by rewrite Hi.
  Qed.
  Lemma dead_step c o id b : cl_initialized c = true → (b = true → opening c o id = None) → second_of c o id b [] = None ∧
    ∃ c' e, c_step c (MkEvent o id b [] b) = (c', CErr e) ∧ cl_initialized c' = true.
  Proof.
    intros Hi Hb. destruct b.
    - destruct (second_is c o id []) as (l & E & _ & L). specialize (Hb eq_refl). rewrite (L Hb) in E. split; [by rewrite E|]. clear E L l.
      destruct o as [caps info|k p| |j|p]; cbn [StackProofs.opening] in Hb; try discriminate Hb.
      + unfold c_step, initialize. cbn [e_op]. rewrite Hi. by eexists _, _.
      + unfold c_step. cbn [e_op]. destruct (is_method k); [|by eexists _, _]. destruct (refused k c); [|discriminate Hb]. by eexists _, _.
      + destruct (roots_step c) as [[er E]|E]; rewrite E in *; [by exists c, er|]. cbn [send_notification fst cl_sent ClientModel.send] in Hb. rewrite drop_app in Hb. discriminate Hb.
    - destruct o as [caps info|k p| |j|p].
      + split; [|unfold c_step, initialize; cbn [e_op]; rewrite Hi; by eexists _, _]. unfold second_of, sends, c_step, initialize. cbn [e_op]. rewrite Hi. cbn [fst]. by rewrite drop_all, drop_nil.
      + unfold second_of, sends, c_step. cbn [e_op e_ok e_id e_arrived]. destruct (is_method k); [|cbn [fst]; rewrite drop_all, drop_nil; split; [done|]; by eexists _, _].
        destruct (refused k c); [cbn [fst]; rewrite drop_all, drop_nil; split; [done|]; by eexists _, _|]. cbn [send_request track]. cbn [fst cl_sent]. rewrite drop_all, drop_nil. split; [done|]. by eexists _, _.
      + unfold second_of, sends, first_of, sends. destruct (roots_step c) as [[er E]|E]; rewrite !E; cbn [send_notification fst cl_sent ClientModel.send].
        * rewrite !drop_all. cbn [head option_list length]. rewrite ?drop_nil. split; [done|]. by exists c, er.
        * rewrite !drop_app. cbn [head option_list length drop]. split; [done|]. by eexists _, _.
      + split; [by apply signal_once|]. exists c, send_failed. split; [|done]. by apply signal_failed.
      + split; [by apply signal_once|]. exists c, send_failed. split; [|done]. by apply signal_failed.
  Qed.
  Lemma dead_return i tok fresh y p : cd_peers y !! i = Some p → dead p →
    ∃ p' rs, dead p' ∧ d_return i tok fresh y = MkCloud (cd_http y) (cd_waiting y) (<[i := p']> (cd_peers y)) (cd_returned y ++ rs) ∧ Forall (λ x, ∃ o id e, x = (i, o, id, CErr e)) rs.
  Proof.
    intros Hi Hd. unfold HttpCloudModel.d_return. rewrite Hi. destruct p as [c t [|o id f n|o id b got]].
    - exists (MkPeer c t JIdle), []. split; [done|]. rewrite list_insert_id, app_nil_r by done. split; [by destruct y|done].
    - by destruct Hd as (_ & _ & _ & []).
    - destruct Hd as (H1 & H2 & H3 & -> & H4). cbn [pe_client pe_tp] in *. destruct (dead_step c o id b H1 H4) as (-> & c' & e & -> & Hc'). exists (MkPeer c' t JIdle), [(i, o, id, CErr e)].
      split; [by split|]. split; [done|]. apply Forall_singleton. by eexists _, _, _.
  Qed.

  (** *** What other clients do does not depend on client [i] if it does not wait *)
  Definition mask (i : nat) (q : peer) (r : list (nat * cop * rid * cresult)) (y : cloud) : cloud := MkCloud (cd_http y) (cd_waiting y) (<[i := q]> (cd_peers y)) r.
  Lemma mask_put i q r y j p v w : j ≠ i → put j p v w (mask i q r y) = mask i q r (put j p v w y).
  Proof. intros Hj. unfold put, mask. cbn. by rewrite list_insert_commute. Qed.
  Lemma mask_peer i q r y j : j ≠ i → cd_peers (mask i q r y) !! j = cd_peers y !! j.
  Proof. intros Hj. cbn. by rewrite list_lookup_insert_ne. Qed.
  Lemma mask_step i q r y d : done_by i d = false → i ∉ cd_waiting y →
    ∃ rs, d_step (mask i q r y) d = mask i q (r ++ rs) (d_step y d) ∧ cd_returned (d_step y d) = cd_returned y ++ rs ∧ Forall (λ x, x.1.1.1 ≠ i) rs ∧
      i ∉ cd_waiting (d_step y d) ∧ cd_peers (d_step y d) !! i = cd_peers y !! i ∧ length (cd_peers (d_step y d)) = length (cd_peers y).
  Proof.
    intros Hd Hw. destruct d as [j o id tok fresh|k e1 e2|j tok fresh]; cbn [done_by] in Hd; cbn [HttpCloudModel.d_step].
    - apply bool_decide_eq_false in Hd. exists []. rewrite !app_nil_r. unfold HttpCloudModel.d_call. rewrite mask_peer by done.
      destruct (cd_peers y !! j) as [[c t [|o' id' f n|o' id' b got]]|]; [|done..]. destruct (first_of c o id) as [m|].
      + change (cd_http (mask i q r y)) with (cd_http y). change (cd_waiting (mask i q r y)) with (cd_waiting y). destruct (ask j m tok fresh t (cd_http y)) as [[t1 v] [|x|]].
        * rewrite mask_put by done. cbn. rewrite insert_length, list_lookup_insert_ne by done. done.
        * destruct (take_reply _ _ _ _ _) as [[ok got] t2]. rewrite mask_put by done. cbn. rewrite insert_length, list_lookup_insert_ne by done. done.
        * rewrite mask_put by done. cbn. rewrite insert_length, list_lookup_insert_ne by done. do 3 (split; [done|]). split; [|done]. intros [H|H%elem_of_list_singleton]%elem_of_app; done.
      + rewrite mask_put by done. cbn. rewrite insert_length, list_lookup_insert_ne by done. done.
    - exists []. rewrite !app_nil_r. unfold HttpCloudModel.d_answer. change (cd_waiting (mask i q r y)) with (cd_waiting y). change (cd_http (mask i q r y)) with (cd_http y).
      destruct (cd_waiting y !! k) as [j|] eqn:Ej; [|done]. assert (j ≠ i) as Hj by (intros ->; apply Hw; by eapply elem_of_list_lookup_2). rewrite mask_peer by done.
      assert (i ∉ delete k (cd_waiting y)) as Hw'. { intros H. apply Hw. eapply elem_of_list_lookup in H as [m H]. destruct (decide (m < k)%nat); [rewrite lookup_delete_lt in H by done|rewrite lookup_delete_ge in H by lia]; by eapply elem_of_list_lookup_2. }
      destruct (sx_pending (cd_http y) !! k) as [[hdr rsid qid rq|]|]; [|done..]. destruct (cd_peers y !! j) as [[c t [|o id f n|o id b got]]|]; [done| |done..].
      destruct (handle_request _ _ _ _ _ _).2; [destruct (h_step _ _ _ _) as [v [x|]]; [|done]; destruct (take_reply _ _ _ _ _) as [[ok got] t2]|];
        rewrite mask_put by done; cbn; rewrite insert_length, list_lookup_insert_ne by done; done.
    - apply bool_decide_eq_false in Hd. unfold HttpCloudModel.d_return. rewrite mask_peer by done. change (cd_http (mask i q r y)) with (cd_http y). change (cd_waiting (mask i q r y)) with (cd_waiting y).
      destruct (cd_peers y !! j) as [[c t [|o id f n|o id b got]]|]; [exists []; by rewrite !app_nil_r..| |exists []; by rewrite !app_nil_r].
      assert (∀ p v r0, give j o id r0 (put j p v (cd_waiting y) (mask i q r y)) = mask i q (r ++ [(j, o, id, r0)]) (give j o id r0 (put j p v (cd_waiting y) y))) as G. { intros p v r0. rewrite mask_put by done. done. }
      destruct (second_of c o id b got) as [m|].
      + destruct (ask j m tok fresh t (cd_http y)) as [[t1 v] a]. destruct (match a with AReplied x => _ | _ => _ end) as [[ok2 got2] t2]. destruct (c_step c (MkEvent o id b got ok2)) as [c' r0].
        exists [(j, o, id, r0)]. rewrite G. split; [done|]. cbn. rewrite insert_length, list_lookup_insert_ne by done. split; [done|]. split; [by apply Forall_singleton|done].
      + destruct (c_step c (MkEvent o id b got b)) as [c' r0].
        exists [(j, o, id, r0)]. rewrite G. split; [done|]. cbn. rewrite insert_length, list_lookup_insert_ne by done. split; [done|]. split; [by apply Forall_singleton|done].
  Qed.
  (** A dead client changes nothing for the others. *)
  Lemma dead_run i ds y p : cd_peers y !! i = Some p → dead p → i ∉ cd_waiting y → Forall (usable_op tcf) ds →
    let z := fold_left d_step ds y in let z0 := fold_left d_step (filter (λ d, done_by i d = false) ds) y in
    ∃ q rs, dead q ∧ z = mask i q (cd_returned y ++ rs) z0 ∧ cd_returned z0 = cd_returned y ++ filter (λ x, x.1.1.1 ≠ i) rs ∧ i ∉ cd_waiting z0 ∧ length (cd_peers z0) = length (cd_peers y) ∧
      cd_peers z0 !! i = Some p ∧ ∀ o id r, (i, o, id, r) ∈ rs → ∃ e, r = CErr e.
  Proof.
    intros Hi Hd Hw. cbn zeta. induction ds as [|d ds IH] using rev_ind; intros Hu.
    - exists p, []. split; [done|]. split; [|split; [by rewrite app_nil_r|]]. { cbn. unfold mask. rewrite list_insert_id, app_nil_r by done. by destruct y. }
      do 3 (split; [done|]). intros o id r H. by apply elem_of_nil in H.
    - apply Forall_app in Hu as [Hu Hu1]. rewrite Forall_singleton in Hu1. destruct (IH Hu) as (q & rs & Hq & Ez & Er & Hw0 & Hl & Hp & Hrs). rewrite filter_app, !fold_left_app. cbn [fold_left].
      set (z0 := fold_left d_step (filter (λ d, done_by i d = false) ds) y) in *. rewrite Ez. assert (i < length (cd_peers z0)) as Hlt by (rewrite Hl; by eapply lookup_lt_Some).
      destruct (done_by i d) eqn:Ed.
      + rewrite (filter_cons_False _ d) by congruence. cbn [filter list_filter fold_left]. change (fold_left d_step [] z0) with z0.
        assert (cd_peers (mask i q (cd_returned y ++ rs) z0) !! i = Some q) as Hmi by (cbn; by apply list_lookup_insert).
        destruct d as [j o id tok fresh|k e1 e2|j tok fresh]; cbn [done_by] in Ed; [apply bool_decide_eq_true in Ed as -> |discriminate Ed|apply bool_decide_eq_true in Ed as ->]; cbn [usable_op HttpCloudModel.d_step] in *.
        * destruct Hu1 as [Hc Ha]. destruct (dead_call i o id tok fresh _ q Hmi Hq Hc Ha) as (p' & Hp' & ->). exists p', rs. split; [done|]. split; [unfold put, mask; cbn; by rewrite list_insert_insert|done].
        * destruct (dead_return i tok fresh _ q Hmi Hq) as (p' & rs' & Hp' & -> & Hf). exists p', (rs ++ rs'). split; [done|]. split; [unfold mask; cbn; by rewrite list_insert_insert, app_assoc|].
          split; [|do 3 (split; [done|])]. { rewrite filter_app. assert (filter (λ x : nat * cop * rid * cresult, x.1.1.1 ≠ i) rs' = []) as ->; [|by rewrite app_nil_r]. clear -Hf. induction Hf as [|x l (o & id & e & ->) _ IH]; [done|]. rewrite filter_cons_False; [done|]. cbn. intros H. by apply H. }
          intros o id r [H|H]%elem_of_app; [by apply (Hrs o id)|]. rewrite Forall_forall in Hf. destruct (Hf _ H) as (o' & id' & e & E). exists e. congruence.
      + rewrite (filter_cons_True _ d) by done. cbn [filter list_filter fold_left]. change (fold_left d_step [d] z0) with (d_step z0 d).
        destruct (mask_step i q (cd_returned y ++ rs) z0 d Ed Hw0) as (rs' & -> & E1 & Hf & Hw1 & Hp1 & Hl1). exists q, (rs ++ rs'). split; [done|]. split; [by rewrite app_assoc|].
        split. { rewrite E1, Er, filter_app, <-app_assoc. f_equal. f_equal. clear -Hf. induction Hf as [|x l Hx _ IH]; [done|]. rewrite filter_cons_True by done. by f_equal. }
        split; [done|]. split; [congruence|]. split; [congruence|]. intros o id r [H|H]%elem_of_app; [by apply (Hrs o id)|]. rewrite Forall_forall in Hf. by destruct (Hf _ H).
  Qed.

  (** *** A server that has closed session [s], and one that has not *)
  Record shut (s : text) (v w : hserver) : Prop := {
    sh_sessions : sx_sessions w = delete s (sx_sessions v); sh_streams : sx_streams w = sx_streams v; sh_opened : sx_opened w = sx_opened v;
    sh_store : sx_store w = sx_store v; sh_pending : sx_pending w = sx_pending v; sh_mcp : mcp (sx_log w) = mcp (sx_log v);
    sh_free : Forall (λ p, match p with PPost hdr rsid _ _ => hdr ≠ Some s ∧ rsid ≠ Some s | PGet _ _ => True end) (sx_pending v) }.
  Lemma mcp_note l l' x : mcp l = mcp l' → mcp (l ++ [x]) = mcp (l' ++ [x]).
  Proof. intros H. rewrite !mcp_snoc. by rewrite H. Qed.
  Lemma answer_same l l' id r : mcp l = mcp l' → answer l id r = answer l' id r.
  Proof. intros H. unfold HttpStackModel.answer. by rewrite H. Qed.
  Lemma shut_session s v w sid : shut s v w → sid ≠ s → sx_sessions w !! sid = sx_sessions v !! sid.
  Proof. intros [-> _ _ _ _ _ _] H. by rewrite lookup_delete_ne. Qed.
  Lemma shut_post s v w h m fresh : shut s v w → h_session h ≠ Some s → fresh ≠ s →
    ∃ v' w' x, h_step hcf answer v (HPost h m fresh) = (v', x) ∧ h_step hcf answer w (HPost h m fresh) = (w', x) ∧ shut s v' w' ∧ ∀ r, x = Some r → hr_session r = None.
  Proof.
    intros Hs Hh Hf. cbn [h_step]. unfold post_start. destruct (validate_headers h Post); [by eexists _, _, _; split; [reflexivity|split; [reflexivity|split; [exact Hs|intros ? [= <-]; reflexivity]]]|].
    destruct m as [m|]; [|by eexists _, _, _; split; [reflexivity|split; [reflexivity|split; [exact Hs|intros ? [= <-]; reflexivity]]]].
    destruct (is_init m) eqn:Ei.
    - unfold process_init_session. rewrite Hst. destruct (h_session h) as [sid|] eqn:Es.
      + rewrite (shut_session s v w sid Hs) by congruence. destruct m as [id r| |]; try discriminate Ei.
        assert (shut s (wait (PPost (Some sid) (Some sid) id r) v) (wait (PPost (Some sid) (Some sid) id r) w)) as Hw.
        { destruct Hs as [S1 S2 S3 S4 S5 S6 S7]. split; cbn; try done; [by rewrite S5|]. apply Forall_app. split; [done|]. apply Forall_singleton. by split. }
        destruct (sx_sessions v !! sid) as [[[] ?]|]; (eexists _, _, _; split; [reflexivity|]; split; [reflexivity|]; split; [assumption|]; intros x [= <-] || intros x [=]); done.
      + destruct m as [id r| |]; try discriminate Ei. eexists _, _, _. split; [reflexivity|]. split; [reflexivity|]. split; [|done].
        destruct Hs as [S1 S2 S3 S4 S5 S6 S7]. split; cbn; try done; [rewrite S1; by rewrite delete_insert_ne|by rewrite S5|by apply mcp_note|]. apply Forall_app. split; [done|]. apply Forall_singleton. split; congruence.
    - unfold validate_non_init_session, validate_protocol_version. rewrite Hst. destruct (h_session h) as [sid|] eqn:Es; [|by eexists _, _, _; split; [reflexivity|split; [reflexivity|split; [exact Hs|intros ? [= <-]; reflexivity]]]].
      cbn [mbind option_bind]. rewrite (shut_session s v w sid Hs) by congruence. destruct (sx_sessions v !! sid) as [y|] eqn:Ey; [|by eexists _, _, _; split; [reflexivity|split; [reflexivity|split; [exact Hs|intros ? [= <-]; reflexivity]]]].
      destruct (match h_version h with Some _ => _ | None => _ end); [by eexists _, _, _; split; [reflexivity|split; [reflexivity|split; [exact Hs|intros ? [= <-]; reflexivity]]]|].
      destruct m as [id r| |]; [|by eexists _, _, _; split; [reflexivity|split; [reflexivity|split; [exact Hs|intros ? [= <-]; reflexivity]]]..].
      eexists _, _, _. split; [reflexivity|]. split; [reflexivity|]. split; [|done]. destruct Hs as [S1 S2 S3 S4 S5 S6 S7]. split; cbn; try done; [by rewrite S5|]. apply Forall_app. split; [done|]. apply Forall_singleton. by split.
  Qed.
  Lemma shut_drop s v w k : shut s v w → shut s (drop_pending k v) (drop_pending k w).
  Proof. intros [S1 S2 S3 S4 S5 S6 S7]. split; cbn; try done; [by rewrite S5|]. by apply Forall_delete. Qed.
  Lemma shut_note s v w l : shut s v w → shut s (note l v) (note l w).
  Proof. intros [S1 S2 S3 S4 S5 S6 S7]. split; cbn; try done. by apply mcp_note. Qed.
  Lemma shut_run s v w hdr rsid id r e1 e2 : shut s v w → hdr ≠ Some s → rsid ≠ Some s →
    ∃ v' w' x, post_run hcf answer hdr rsid id r e1 e2 v = (v', x) ∧ post_run hcf answer hdr rsid id r e1 e2 w = (w', x) ∧ shut s v' w' ∧ hr_session x = rsid.
  Proof.
    intros Hs Hh Hr. unfold post_run. rewrite (answer_same _ _ id r (sh_mcp _ _ _ Hs)). set (resp := answer (sx_log v) id r). clearbody resp.
    apply (shut_note _ _ _ (LProcessed rsid id r)) in Hs. revert Hs. generalize (note (LProcessed rsid id r) v) as v1, (note (LProcessed rsid id r) w) as w1. clear v w. intros v w Hs.
    assert (shut s (if is_init (MsgRequest id r) then update_session rsid (negotiated resp) v else v) (if is_init (MsgRequest id r) then update_session rsid (negotiated resp) w else w)) as Hs1.
    { destruct (is_init _); [|done]. unfold update_session. destruct rsid as [sid|]; [|done]. rewrite (shut_session s v w sid Hs) by congruence. destruct (sx_sessions v !! sid); [|done].
      destruct Hs as [S1 S2 S3 S4 S5 S6 S7]. split; cbn; try done. rewrite S1. rewrite delete_insert_ne; [done|]. congruence. }
    revert Hs1. generalize (if is_init (MsgRequest id r) then update_session rsid (negotiated resp) v else v) as v1, (if is_init (MsgRequest id r) then update_session rsid (negotiated resp) w else w) as w1. clear v w Hs. intros v w Hs.
    assert (shut s (match rsid with Some sid => if hc_store hcf then keep sid e1 (MsgResponse resp) v else v | None => v end) (match rsid with Some sid => if hc_store hcf then keep sid e1 (MsgResponse resp) w else w | None => w end)) as Hs1.
    { destruct rsid as [sid|]; [|done]. destruct (hc_store hcf); [|done]. destruct Hs as [S1 S2 S3 S4 S5 S6 S7]. split; cbn; try done. by rewrite S4. }
    revert Hs1. generalize (match rsid with Some sid => if hc_store hcf then keep sid e1 (MsgResponse resp) v else v | None => v end) as v1, (match rsid with Some sid => if hc_store hcf then keep sid e1 (MsgResponse resp) w else w | None => w end) as w1. clear v w Hs. intros v w Hs.
    assert (∃ v' w' b, build_response hcf hdr (MsgResponse resp) e2 v = (v', b) ∧ build_response hcf hdr (MsgResponse resp) e2 w = (w', b) ∧ shut s v' w') as (v' & w' & [z b] & -> & -> & Hs1).
    { unfold build_response. destruct (hc_json hcf); [by eexists _, _, _|]. destruct hdr as [sid|]; [|by eexists _, _, _]. rewrite (sh_streams _ _ _ Hs). destruct (sx_streams v !! sid); [|by eexists _, _, _].
      eexists _, _, _. split; [reflexivity|]. split; [reflexivity|]. destruct Hs as [S1 S2 S3 S4 S5 S6 S7]. split; cbn; try done. by rewrite S3. }
    eexists v', w', _. split; [reflexivity|]. split; [|done]. f_equal. f_equal. destruct (is_init _); [done|]. destruct rsid as [sid|]; [|done]. cbn [mbind option_bind]. by rewrite (shut_session s v' w' sid Hs1) by congruence.
  Qed.

  (** a transport learns a session id from a reply only *)
  Lemma event_session t e : tp_session (take_event t e) = tp_session t.
  Proof. unfold take_event. repeat case_match; done. Qed.
  Lemma body_session body t : tp_session (take_body body t) = tp_session t.
  Proof. unfold take_body. destruct (feed parser0 body) as [[? es]|]; [|done]. revert t. induction es as [|e es IH]; intros t; [done|]. cbn [fold_left]. by rewrite IH, event_session. Qed.
  Lemma abort_session t : tp_session (abort_stream t) = tp_session t.
  Proof. unfold abort_stream. by destruct (tp_handle t). Qed.
  Lemma get_session a token tok quiet t : tp_session (begin_get a token tok quiet t).1 = tp_session t.
  Proof. unfold begin_get. destruct (build_request _ _ _); cbn; apply abort_session. Qed.
  Lemma headers_session (r : reply) t s : tp_session t ≠ Some s → rp_session r ≠ Some s → tp_session (process_headers r t) ≠ Some s.
  Proof. intros H1 H2. rewrite process_headers_spec. cbn. by destruct (rp_session r). Qed.
  Lemma reply_session a t f (r : option reply) tok s : tp_session t ≠ Some s → (∀ x, r = Some x → rp_session x ≠ Some s) → tp_session (tp_step a t (TReply f r tok)).1 ≠ Some s.
  Proof.
    intros H1 H2. cbn [tp_step]. destruct (tp_flight t !! f) as [[[m|quiet|]|]|]; try done.
    - unfold end_send. destruct r as [r|]; [|done]. assert (tp_session (process_headers r (answered f t)) ≠ Some s) as H3 by (apply headers_session; [done|by apply H2]). revert H3. generalize (process_headers r (answered f t)) as t1. intros t1 H3.
      repeat (case_match; try done). by rewrite get_session.
    - unfold end_get. destruct r as [r|]; [|done]. assert (tp_session (process_headers r (answered f t)) ≠ Some s) as H3 by (apply headers_session; [done|by apply H2]).
      by destruct (rp_status r =? 405)%Z; [|destruct (is_success (rp_status r))].
  Qed.
  Lemma taken_session i f n x t s : tp_session t ≠ Some s → hr_session x ≠ Some s → tp_session (take_reply i f n x t).2 ≠ Some s.
  Proof.
    intros H1 H2. unfold HttpCloudModel.take_reply. destruct (tp_step (tcf i) t (TReply f (Some (reply_of x)) None)) as [t1 rr] eqn:E1.
    assert (tp_session t1 ≠ Some s) as H3. { pose proof (reply_session (tcf i) t f (Some (reply_of x)) None s H1) as H. rewrite E1 in H. apply H. intros y [= <-]. done. }
    match goal with |- context [drain _ _ ?s] => destruct (drain_all (tcf i) s) as (t' & E & _ & Hs' & _) end. rewrite E. cbn [snd]. rewrite Hs'. cbn [tp_step]. destruct (tp_streams t1 !! n) as [[]|]; [|done..]. cbn [fst]. by rewrite body_session.
  Qed.

  (** *** The others do not notice that a client has closed its transport *)
  Record gone (i : nat) (s : text) (y z : cloud) : Prop := {
    go_http : shut s (cd_http y) (cd_http z); go_waiting : cd_waiting z = cd_waiting y; go_returned : cd_returned z = cd_returned y;
    go_peers : ∃ q, cd_peers z = <[i := q]> (cd_peers y); go_still : i ∉ cd_waiting y;
    go_apart : ∀ j p, j ≠ i → cd_peers y !! j = Some p → tp_session (pe_tp p) ≠ Some s }.
  Lemma gone_put i s y z j p v w l : gone i s y z → j ≠ i → shut s v w → tp_session (pe_tp p) ≠ Some s → i ∉ l → gone i s (put j p v l y) (put j p w l z).
  Proof.
    intros [G1 G2 G3 [q G4] G5 G6] Hj Hs Hp Hl. split; cbn; try done.
    - exists q. rewrite G4. by rewrite list_insert_commute.
    - intros k p' Hk H. destruct (decide (k = j)) as [->|Hn]; [|rewrite list_lookup_insert_ne in H by done; by apply (G6 k)].
      destruct (decide (j < length (cd_peers y))%nat) as [Hlt|Hge]; [rewrite list_lookup_insert in H by done; by injection H as <-|]. rewrite list_insert_ge in H by lia. by apply (G6 j).
  Qed.
  Lemma gone_ask s v w j m tok fresh t : shut s v w → authorized (tcf j) tok → tp_session t ≠ Some s → fresh ≠ s →
    ∃ t' v' w' a, ask j m tok fresh t v = (t', v', a) ∧ ask j m tok fresh t w = (t', w', a) ∧ shut s v' w' ∧ tp_session t' ≠ Some s ∧ ∀ x, a = AReplied x → hr_session x = None.
  Proof.
    intros Hs Ha Ht Hf. destruct (HttpClientProofs3.posts (tcf j) t m tok (Hclash j) Ha) as (q & E1 & Ev & Eh & Eb). unfold HttpCloudModel.ask. rewrite E1. cbn [HttpClientModel.request tp_sent]. rewrite last_snoc. rewrite Eh.
    destruct (shut_post s v w (posted t) (parsed (cr_body q)) fresh Hs Ht Hf) as (v' & w' & [x|] & -> & -> & Hs' & Hx); eexists _, _, _, _; (split; [reflexivity|]; split; [reflexivity|]; split; [done|]; split; [done|]); [|done]. intros y [= <-]. by apply Hx.
  Qed.
  Lemma gone_step i s y z d : gone i s y z → done_by i d = false → usable_op tcf d → s ∉ drawn [d] → gone i s (d_step y d) (d_step z d).
  Proof.
    intros G Hd Hu Hf. destruct (go_peers _ _ _ _ G) as [q0 Gp]. assert (∀ j, j ≠ i → cd_peers z !! j = cd_peers y !! j) as Gj by (intros j Hj; rewrite Gp; by rewrite list_lookup_insert_ne).
    destruct d as [j o id tok fresh|k e1 e2|j tok fresh]; cbn [done_by usable_op] in Hd, Hu; cbn [HttpCloudModel.d_step].
    - apply bool_decide_eq_false in Hd. assert (fresh ≠ s) as Hfs by (intros ->; apply Hf; apply elem_of_list_here). destruct Hu as [_ Ha]. unfold HttpCloudModel.d_call. rewrite Gj by done.
      destruct (cd_peers y !! j) as [[c t [|o' id' f n|o' id' b got]]|] eqn:Ej; [|done..]. pose proof (go_apart _ _ _ _ G j _ Hd Ej) as Ht. cbn [pe_tp] in Ht. destruct (first_of c o id) as [m|].
      + destruct (gone_ask s (cd_http y) (cd_http z) j m tok fresh t (go_http _ _ _ _ G) Ha Ht Hfs) as (t' & v' & w' & a & -> & -> & Hs' & Ht' & Hx). rewrite (go_waiting _ _ _ _ G). destruct a as [|x|].
        * apply gone_put; try done. apply (go_still _ _ _ _ G).
        * pose proof (taken_session j (length (tp_flight t)) (length (tp_streams t)) x t' s Ht') as Hts. destruct (take_reply _ _ _ _ _) as [[ok got] t2]. apply gone_put; try done; [apply Hts; by rewrite (Hx x eq_refl)|apply (go_still _ _ _ _ G)].
        * apply gone_put; try done. intros [H|H%elem_of_list_singleton]%elem_of_app; [by apply (go_still _ _ _ _ G)|done].
      + rewrite (go_waiting _ _ _ _ G). apply gone_put; try done; [apply (go_http _ _ _ _ G)|apply (go_still _ _ _ _ G)].
    - unfold HttpCloudModel.d_answer. rewrite (go_waiting _ _ _ _ G), (sh_pending _ _ _ (go_http _ _ _ _ G)). destruct (cd_waiting y !! k) as [j|] eqn:Ew; [|done].
      assert (j ≠ i) as Hj by (intros ->; apply (go_still _ _ _ _ G); by eapply elem_of_list_lookup_2). rewrite Gj by done.
      assert (i ∉ delete k (cd_waiting y)) as Hw'. { intros H. apply (go_still _ _ _ _ G). eapply elem_of_list_lookup in H as [m H]. destruct (decide (m < k)%nat); [rewrite lookup_delete_lt in H by done|rewrite lookup_delete_ge in H by lia]; by eapply elem_of_list_lookup_2. }
      destruct (sx_pending (cd_http y) !! k) as [[hdr rsid qid r|]|] eqn:Ep; [|done..]. destruct (cd_peers y !! j) as [[c t [|o id f n|o id b got]]|] eqn:Ej; [done| |done..].
      pose proof (go_apart _ _ _ _ G j _ Hj Ej) as Ht. cbn [pe_tp] in Ht. rewrite (sh_mcp _ _ _ (go_http _ _ _ _ G)). destruct (handle_request cf behave key qid r (mcp (sx_log (cd_http y)))).2.
      + cbn [h_step]. rewrite (sh_pending _ _ _ (go_http _ _ _ _ G)), Ep. pose proof (sh_free _ _ _ (go_http _ _ _ _ G)) as Hfr. rewrite Forall_lookup in Hfr. destruct (Hfr k _ Ep) as [F1 F2].
        destruct (shut_run s _ _ hdr rsid qid r e1 e2 (shut_drop s _ _ k (go_http _ _ _ _ G)) F1 F2) as (v' & w' & x & -> & -> & Hs' & Hx).
        pose proof (taken_session j f n x t s Ht) as Hts. destruct (take_reply _ _ _ _ _) as [[ok got] t2]. apply gone_put; try done. apply Hts. by rewrite Hx.
      + apply gone_put; try done; [apply shut_note, shut_drop, (go_http _ _ _ _ G)|]. cbn [pe_tp]. by apply reply_session.
    - apply bool_decide_eq_false in Hd. assert (fresh ≠ s) as Hfs by (intros ->; apply Hf; apply elem_of_list_here). unfold HttpCloudModel.d_return. rewrite Gj by done.
      assert (∀ y z o id r, gone i s y z → gone i s (give j o id r y) (give j o id r z)) as Hg. { intros y' z' o id r [? ? E ? ? ?]. split; cbn; try done. by rewrite E. }
      destruct (cd_peers y !! j) as [[c t [|o id f n|o id b got]]|] eqn:Ej; [done..| |done]. pose proof (go_apart _ _ _ _ G j _ Hd Ej) as Ht. cbn [pe_tp] in Ht. rewrite (go_waiting _ _ _ _ G). destruct (second_of c o id b got) as [m|].
      + destruct (gone_ask s (cd_http y) (cd_http z) j m tok fresh t (go_http _ _ _ _ G) Hu Ht Hfs) as (t' & v' & w' & a & -> & -> & Hs' & Ht' & Hx).
        assert (tp_session (match a with AReplied x => take_reply j (length (tp_flight t)) (length (tp_streams t)) x t' | _ => (false, [], t') end).2 ≠ Some s) as Hts. { destruct a as [|x|]; [done| |done]. apply taken_session; [done|]. by rewrite (Hx x eq_refl). }
        destruct (match a with AReplied x => _ | _ => _ end) as [[ok2 got2] t2]. destruct (c_step c (MkEvent o id b got ok2)) as [c' r0]. apply Hg, gone_put; try done. apply (go_still _ _ _ _ G).
      + destruct (c_step c (MkEvent o id b got b)) as [c' r0]. apply Hg, gone_put; try done; [apply (go_http _ _ _ _ G)|apply (go_still _ _ _ _ G)].
  Qed.
  Lemma gone_run i s ds y z : gone i s y z → Forall (λ d, done_by i d = false) ds → Forall (usable_op tcf) ds → s ∉ drawn ds → gone i s (fold_left d_step ds y) (fold_left d_step ds z).
  Proof.
    revert y z. induction ds as [|d ds IH]; intros y z G Hn Hu Hf; [done|]. apply Forall_cons in Hn as [Hn1 Hn]. apply Forall_cons in Hu as [Hu1 Hu]. cbn [fold_left].
    assert (drawn (d :: ds) = drawn [d] ++ drawn ds) as E. { unfold drawn. change (d :: ds) with ([d] ++ ds). by rewrite fmap_app, concat_app. } rewrite E in Hf. rewrite elem_of_app in Hf.
    apply IH; [|done|done|tauto]. apply gone_step; try done. tauto.
  Qed.

  (** *** Closing *)
  Lemma closed i tok y c t j sid : cd_peers y !! i = Some (MkPeer c t j) → authorized (tcf i) tok → tp_session t = Some sid → is_Some (sx_sessions (cd_http y) !! sid) →
    ∃ t', d_close cf behave key tcf hcf i tok y = put i (MkPeer c t' j) (note (LClosed sid) (MkHttp (delete sid (sx_sessions (cd_http y))) (delete sid (sx_streams (cd_http y))) (sx_opened (cd_http y)) (sx_store (cd_http y)) (sx_pending (cd_http y)) (sx_log (cd_http y)))) (cd_waiting y) y ∧
      tp_session t' = None ∧ tp_queue t' = tp_queue t.
  Proof.
    intros Hi Ha Hs Hk. unfold d_close. rewrite Hi. cbn [tp_step]. unfold begin_close. rewrite abort_session, Hs. destruct (build_request (tcf i) tok (abort_stream t)) as [hs|] eqn:E.
    - cbn [HttpClientModel.request tp_sent]. rewrite last_snoc. cbn [cr_headers h_step]. unfold delete_session.
      assert (h_session (seen_headers hs) = Some sid) as ->. { unfold seen_headers. cbn [h_session]. rewrite (own_header (tcf i) tok (abort_stream t) hs SESSION (Hclash i) E); [|by apply (bool_decide_unpack _); vm_compute]. rewrite decide_True by done. by rewrite abort_session. }
      rewrite Hst, (bool_decide_eq_true_2 _ Hk). cbn [andb negb].
      assert (tp_flight (abort_stream t) = tp_flight t) as Ef by (unfold abort_stream; by destruct (tp_handle t)). assert (∀ q x c, tp_flight (HttpClientModel.request q x c) !! length (tp_flight c) = Some (Some x)) as Hfn by (intros; cbn [HttpClientModel.request tp_flight]; by rewrite lookup_app_r, Nat.sub_diag). rewrite <-Ef, Hfn. cbn [fst]. eexists. split; [reflexivity|]. split; [done|]. cbn. unfold abort_stream. by destruct (tp_handle t).
    - exfalso. unfold build_request in E. unfold authorized in Ha. destruct (tc_auth (tcf i)); [|done]. destruct (Ha eq_refl) as [x ->]. done.
  Qed.
End close.
