(** Proofs about the streamable HTTP server. *)
From stdpp Require Import gmap strings list.
From Verif Require Import ListLib TextLib JsonLib SerdeLib TypesModel RpcModel RpcSpec RpcProofs ServerModel HttpModel HttpSpec.

(** ** Headers *)
Lemma post_headers h : validate_headers h Post = None ↔ json_post h.
Proof.
  unfold validate_headers, json_post, application_json, text_event_stream. destruct (h_content_type h) as [ct|]; [|split; [done|by intros (? & ? & ? & _)]].
  destruct (contains (lit "application/json") ct) eqn:E.
  - apply contains_spec in E. destruct (h_accept h) as [a|]; [|split; [done|by intros (? & ? & _ & _ & ? & _)]].
    destruct (contains (lit "application/json") a || contains (lit "text/event-stream") a) eqn:Ea.
    + split; [|done]. intros _. apply orb_true_iff in Ea. rewrite !contains_spec in Ea. exists ct, a. exact (conj eq_refl (conj E (conj eq_refl Ea))).
    + split; [done|]. intros (ct' & a' & [= <-] & _ & [= <-] & H). apply orb_false_iff in Ea as [E1 E2].
      destruct H as [H|H]; apply contains_spec in H; [by rewrite H in E1|by rewrite H in E2].
  - split; [done|]. intros (ct' & a' & [= <-] & H & _). apply contains_spec in H. by rewrite H in E.
Qed.
Lemma post_status h z : validate_headers h Post = Some z → z = 415%Z ∨ z = 406%Z.
Proof. unfold validate_headers. intros H. repeat case_match; simplify_eq; auto. Qed.
Lemma get_headers h : validate_headers h Get = None ↔ sse_get h.
Proof.
  unfold validate_headers, sse_get, text_event_stream. destruct (h_accept h) as [a|]; [|split; [done|by intros (? & ? & _)]].
  destruct (contains (lit "text/event-stream") a) eqn:E.
  - split; [|done]. intros _. apply contains_spec in E. by exists a.
  - split; [done|]. intros (a' & [= <-] & H). apply contains_spec in H. by rewrite H in E.
Qed.
Lemma get_status h z : validate_headers h Get = Some z → z = 406%Z.
Proof. unfold validate_headers. intros H. repeat case_match; simplify_eq; auto. Qed.
Lemma is_init_spec m : is_init m = true ↔ initializes m.
Proof.
  unfold is_init, initializes. split.
  - destruct m as [id [c p|]| |]; [|done..]. destruct c; try done. eauto.
  - by intros (id & p & ->).
Qed.
Lemma is_init_false m : is_init m = false ↔ ¬ initializes m.
Proof. rewrite <- is_init_spec. by destruct (is_init m). Qed.

(** ** Live sessions *)
Lemma live_nil sid : ¬ live sid [].
Proof. intros (l1 & l2 & H & _). by destruct l1. Qed.
Lemma live_snoc sid l x : live sid (l ++ [x]) ↔ x = LOpened sid ∨ (x ≠ LClosed sid ∧ live sid l).
Proof.
  split.
  - intros (l1 & l2 & H & Hc). destruct l2 as [|y l2 _] using rev_ind.
    + apply app_inj_tail in H as [-> ->]. by left.
    + rewrite app_comm_cons, app_assoc in H. apply app_inj_tail in H as [-> <-]. right. split; [intros ->; apply Hc; apply elem_of_app; right; by apply elem_of_list_singleton|].
      exists l1, l2. split; [done|]. intros Hin. apply Hc. apply elem_of_app. by left.
  - intros [->|(Hx & l1 & l2 & -> & Hc)]; [exists l, []; split; [done|apply not_elem_of_nil]|].
    exists l1, (l2 ++ [x]). split; [by rewrite <- app_assoc|]. rewrite elem_of_app, elem_of_list_singleton. naive_solver.
Qed.

Section http.
  Context (cf : hconfig) (answer : list logged → rid → request → rpc_response).
  Notation step := (h_step cf answer).
  Notation run := (h_run cf answer).
  Lemma run_snoc os o : run (os ++ [o]) = (step (run os) o).1.
  Proof. unfold h_run. by rewrite fold_left_app. Qed.
  Lemma run_app os os' : run (os ++ os') = fold_left (λ s o, (step s o).1) os' (run os).
  Proof. unfold h_run. by rewrite fold_left_app. Qed.

  (** How a step changes sessions and log *)
  Inductive changed (s s' : hserver) : Prop :=
  | ch_same : (∀ sid, is_Some (sx_sessions s' !! sid) ↔ is_Some (sx_sessions s !! sid)) → sx_log s' = sx_log s → changed s s'
  | ch_open sid : (∀ x, is_Some (sx_sessions s' !! x) ↔ x = sid ∨ is_Some (sx_sessions s !! x)) → sx_log s' = sx_log s ++ [LOpened sid] → changed s s'
  | ch_close sid : (∀ x, is_Some (sx_sessions s' !! x) ↔ x ≠ sid ∧ is_Some (sx_sessions s !! x)) → sx_log s' = sx_log s ++ [LClosed sid] → changed s s'
  | ch_process rsid id r : (∀ sid, is_Some (sx_sessions s' !! sid) ↔ is_Some (sx_sessions s !! sid)) → sx_log s' = sx_log s ++ [LProcessed rsid id r] → changed s s'.
  Lemma insert_some {A} (m : gmap text A) k v x : is_Some (<[k := v]> m !! x) ↔ x = k ∨ is_Some (m !! x).
  Proof. rewrite lookup_insert_is_Some. destruct (decide (k = x)); naive_solver. Qed.
  Lemma post_run_log hdr rsid id r e1 e2 s : 
    sx_log (post_run cf answer hdr rsid id r e1 e2 s).1 = sx_log s ++ [LProcessed rsid id r] ∧
    (∀ sid, is_Some (sx_sessions (post_run cf answer hdr rsid id r e1 e2 s).1 !! sid) ↔ is_Some (sx_sessions s !! sid)) ∧
    sx_streams (post_run cf answer hdr rsid id r e1 e2 s).1 = sx_streams s ∧ sx_pending (post_run cf answer hdr rsid id r e1 e2 s).1 = sx_pending s.
  Proof.
    unfold post_run. set (resp := answer _ _ _). set (s1 := note _ s).
    assert (sx_log s1 = sx_log s ++ [LProcessed rsid id r] ∧ sx_sessions s1 = sx_sessions s ∧ sx_streams s1 = sx_streams s ∧ sx_pending s1 = sx_pending s) as (L1 & S1 & T1 & P1) by done.
    set (s2 := if is_init _ then _ else s1).
    assert (sx_log s2 = sx_log s ++ [LProcessed rsid id r] ∧ (∀ sid, is_Some (sx_sessions s2 !! sid) ↔ is_Some (sx_sessions s !! sid)) ∧ sx_streams s2 = sx_streams s ∧ sx_pending s2 = sx_pending s) as (L2 & S2 & T2 & P2).
    { subst s2. destruct (is_init _); [|by rewrite S1]. unfold update_session. destruct rsid as [sid|]; [|by rewrite S1].
      destruct (sx_sessions s1 !! sid) eqn:E; [|by rewrite S1]. cbn. split; [done|]. split; [|done]. intros x. rewrite insert_some. rewrite S1 in E. split; [|by right]. intros [->|H]; [by rewrite E|done]. }
    set (s3 := match rsid with Some _ => _ | None => s2 end).
    assert (sx_log s3 = sx_log s ++ [LProcessed rsid id r] ∧ (∀ sid, is_Some (sx_sessions s3 !! sid) ↔ is_Some (sx_sessions s !! sid)) ∧ sx_streams s3 = sx_streams s ∧ sx_pending s3 = sx_pending s) as (L3 & S3 & T3 & P3).
    { subst s3. destruct rsid; [|done]. by destruct (hc_store cf). }
    clearbody s3. unfold build_response. destruct (hc_json cf); [done|]. destruct hdr as [sid|]; [|done]. by destruct (sx_streams s3 !! sid).
  Qed.
  Lemma step_changed s o : hc_stateful cf = true → changed s (step s o).1.
  Proof.
    intros Hst. destruct o as [h body fresh|h fresh|i e1 e2|h|n eid|n]; cbn [h_step].
    - unfold post_start. destruct (validate_headers h Post); [by apply ch_same|]. destruct body as [m|]; [|by apply ch_same].
      unfold process_init_session. rewrite Hst. destruct (is_init m).
      + destruct (h_session h) as [sid|].
        * destruct (sx_sessions s !! sid) as [[[] ?]|]; [by apply ch_same| |]; destruct m; by apply ch_same.
        * set (s1 := note _ _). assert (changed s s1) as H1. { apply (ch_open _ _ fresh); [|done]. intros x. cbn. apply insert_some. }
          destruct m; [|done..]. cbn. destruct H1; [by apply ch_same|by eapply ch_open|by eapply ch_close|by eapply ch_process].
      + destruct (validate_non_init_session cf (h_session h) s) as [rsid|z]; [|by apply ch_same].
        destruct (validate_protocol_version _ _ _ _); [by apply ch_same|]. destruct m; by apply ch_same.
    - unfold get_start. destruct (validate_headers h Get); [by apply ch_same|]. rewrite Hst.
      destruct (h_session h) as [sid|].
      + destruct (sx_sessions s !! sid); [|by apply ch_same]. destruct (sx_streams s !! sid); by apply ch_same.
      + cbn. destruct (sx_streams s !! fresh); cbn; (apply (ch_open _ _ fresh); [|done]); intros x; cbn; apply insert_some.
    - destruct (sx_pending s !! i) as [[hdr rsid id r|sid last]|]; [| |by apply ch_same].
      + destruct (post_run_log hdr rsid id r e1 e2 (drop_pending i s)) as (H1 & H2 & _). destruct (post_run _ _ _ _ _ _ _ _ _) as [s' x]. cbn in *.
        by eapply ch_process.
      + by apply ch_same.
    - unfold delete_session. destruct (h_session h) as [sid|]; [|by apply ch_same]. rewrite Hst. cbn [andb].
      destruct (negb _); [by apply ch_same|]. cbn. apply (ch_close _ _ sid); [|done]. intros x. cbn. rewrite lookup_delete_is_Some. naive_solver.
    - unfold emit. destruct (sx_opened s !! n) as [[sid [|m q] out []]|]; try (by apply ch_same). destruct (hc_store cf); by apply ch_same.
    - by apply ch_same.
  Qed.
  Lemma sessions_live os : hc_stateful cf = true → ∀ sid, is_Some (sx_sessions (run os) !! sid) ↔ live sid (sx_log (run os)).
  Proof.
    intros Hst. induction os as [|o os IH] using rev_ind; intros sid.
    - cbn. rewrite lookup_empty. split; [by intros [? ?]|]. by intros ?%live_nil.
    - rewrite run_snoc. destruct (step_changed (run os) o Hst) as [Hs ->|x Hs ->|x Hs ->|rsid id r Hs ->]; rewrite Hs, ?live_snoc, IH; [done|..].
      + split; [intros [->|H]; [by left|by right]|]. intros [[= ->]|[_ H]]; [by left|by right].
      + split; [intros [H1 H2]; right; split; [congruence|done]|]. intros [?|[H1 H2]]; [done|]. split; [congruence|done].
      + split; [by right|]. by intros [?|[_ H]].
  Qed.
  (** a dead session stays dead until the generator hands out its id again *)
  Definition caused (s : hserver) (o : hop) (x : logged) : Prop :=
    match x with
    | LOpened sid => sid ∈ generated o
    | LClosed sid => ∃ h, o = HDelete h ∧ h_session h = Some sid
    | LProcessed rsid id r => ∃ hdr, PPost hdr rsid id r ∈ sx_pending s
    end.
  Lemma log_grows s o : hc_stateful cf = true → ∃ l, sx_log (step s o).1 = sx_log s ++ l ∧ length l ≤ 1 ∧ ∀ x, x ∈ l → caused s o x.
  Proof.
    intros Hst. destruct o as [h body fresh|h fresh|i e1 e2|h|n eid|n]; cbn [h_step generated].
    - unfold post_start. assert (∀ s', sx_log s' = sx_log s → ∃ l, sx_log s' = sx_log s ++ l ∧ length l ≤ 1 ∧ ∀ x, x ∈ l → caused s (HPost h body fresh) x) as W.
      { intros s' H. exists []. rewrite app_nil_r. split; [done|]. split; [cbn; lia|]. intros x. by rewrite elem_of_nil. }
      destruct (validate_headers h Post); [by apply W|]. destruct body as [m|]; [|by apply W].
      unfold process_init_session. rewrite Hst. destruct (is_init m).
      + destruct (h_session h) as [sid|].
        * destruct (sx_sessions s !! sid) as [[[] ?]|]; [by apply W| |]; destruct m; by apply W.
        * exists [LOpened fresh]. split; [by destruct m|]. split; [cbn; lia|]. intros x ->%elem_of_list_singleton. cbn. by apply elem_of_list_singleton.
      + destruct (validate_non_init_session cf (h_session h) s) as [rsid|z]; [|by apply W].
        destruct (validate_protocol_version _ _ _ _); [by apply W|]. destruct m; by apply W.
    - unfold get_start. assert (∀ s', sx_log s' = sx_log s → ∃ l, sx_log s' = sx_log s ++ l ∧ length l ≤ 1 ∧ ∀ x, x ∈ l → caused s (HGet h fresh) x) as W.
      { intros s' H. exists []. rewrite app_nil_r. split; [done|]. split; [cbn; lia|]. intros x. by rewrite elem_of_nil. }
      destruct (validate_headers h Get); [by apply W|]. rewrite Hst.
      destruct (h_session h) as [sid|].
      + destruct (sx_sessions s !! sid); [|by apply W]. destruct (sx_streams s !! sid); by apply W.
      + exists [LOpened fresh]. split; [cbn; by destruct (sx_streams s !! fresh)|]. split; [cbn; lia|]. intros x ->%elem_of_list_singleton. cbn. by apply elem_of_list_singleton.
    - destruct (sx_pending s !! i) as [[hdr rsid id r|sid last]|] eqn:Ep.
      + destruct (post_run_log hdr rsid id r e1 e2 (drop_pending i s)) as (H1 & H2 & _). destruct (post_run _ _ _ _ _ _ _ _ _) as [s' x]. cbn in *.
        exists [LProcessed rsid id r]. split; [done|]. split; [cbn; lia|]. intros y ->%elem_of_list_singleton. exists hdr. by eapply elem_of_list_lookup_2.
      + exists []. rewrite app_nil_r. split; [done|]. split; [cbn; lia|]. intros x. by rewrite elem_of_nil.
      + exists []. rewrite app_nil_r. split; [done|]. split; [cbn; lia|]. intros x. by rewrite elem_of_nil.
    - unfold delete_session. destruct (h_session h) as [sid|] eqn:Hs.
      2: { exists []. rewrite app_nil_r. split; [done|]. split; [cbn; lia|]. intros x. by rewrite elem_of_nil. }
      rewrite Hst. cbn [andb]. destruct (negb _).
      + exists []. rewrite app_nil_r. split; [done|]. split; [cbn; lia|]. intros x. by rewrite elem_of_nil.
      + exists [LClosed sid]. split; [done|]. split; [cbn; lia|]. intros x ->%elem_of_list_singleton. cbn. by exists h.
    - exists []. rewrite app_nil_r. split; [|split; [cbn; lia|]; intros x; by rewrite elem_of_nil].
      unfold emit. destruct (sx_opened s !! n) as [[sid [|m q] out []]|]; try done. by destruct (hc_store cf).
    - exists []. rewrite app_nil_r. split; [done|]. split; [cbn; lia|]. intros x. by rewrite elem_of_nil.
  Qed.
  Lemma stays_dead os os' sid : hc_stateful cf = true → ¬ live sid (sx_log (run os)) → sid ∉ os' ≫= generated → ¬ live sid (sx_log (run (os ++ os'))).
  Proof.
    intros Hst Hd. induction os' as [|o os' IH] using rev_ind; [by rewrite app_nil_r|].
    rewrite bind_app, elem_of_app, app_assoc, run_snoc. intros Hg.
    destruct (log_grows (run (os ++ os')) o Hst) as (l & Hl & Hlen & Hin). rewrite Hl.
    destruct l as [|x [|y l]]; [rewrite app_nil_r; apply IH; naive_solver| |cbn in Hlen; lia].
    rewrite live_snoc. intros [->|[_ H]]; [|apply IH in H; naive_solver].
    apply Hg. right. cbn. rewrite app_nil_r. apply (Hin (LOpened sid)). by apply elem_of_list_singleton.
  Qed.

  Lemma stays_live os os' sid : hc_stateful cf = true → live sid (sx_log (run os)) → Forall (λ o, ∀ h, o = HDelete h → h_session h ≠ Some sid) os' → live sid (sx_log (run (os ++ os'))).
  Proof.
    intros Hst Hl. induction os' as [|o os' IH] using rev_ind; [by rewrite app_nil_r|].
    intros [Ho Hx]%Forall_app. rewrite Forall_singleton in Hx. specialize (IH Ho). rewrite app_assoc, run_snoc.
    destruct (log_grows (run (os ++ os')) o Hst) as (l & -> & Hlen & Hin). destruct l as [|x [|y l]]; [by rewrite app_nil_r| |cbn in Hlen; lia].
    apply live_snoc. right. split; [|done]. intros ->. destruct (Hin (LClosed sid)) as (h & -> & Hs); [by apply elem_of_list_singleton|]. by apply (Hx h).
  Qed.

  (** ** Requests and their sessions *)
  Lemma post_admitted s h m f s' : step s (HPost h (Some m) f) = (s', None) → ¬ initializes m → hc_stateful cf = true →
    ∃ sid id r, h_session h = Some sid ∧ is_Some (sx_sessions s !! sid) ∧ m = MsgRequest id r ∧ s' = wait (PPost (Some sid) (Some sid) id r) s.
  Proof.
    cbn [h_step]. unfold post_start. intros H Hm Hst. apply is_init_false in Hm. rewrite Hm in H.
    destruct (validate_headers h Post); [done|]. unfold validate_non_init_session in H. rewrite Hst in H.
    destruct (h_session h) as [sid|]; [|done]. destruct (sx_sessions s !! sid) eqn:E; [|done].
    destruct (validate_protocol_version _ _ _ _); [done|]. destruct m as [id r| |]; [|done..]. injection H as <-.
    exists sid, id, r. done.
  Qed.
  Lemma dead_post os h m f sid : hc_stateful cf = true → json_post h → ¬ initializes m → h_session h = Some sid → ¬ live sid (sx_log (run os)) →
    step (run os) (HPost h (Some m) f) = (run os, Some (refuse 404)).
  Proof.
    intros Hst Hh Hm Hs Hl. cbn [h_step]. unfold post_start. apply post_headers in Hh. apply is_init_false in Hm. rewrite Hh, Hm.
    unfold validate_non_init_session. rewrite Hst, Hs. destruct (sx_sessions (run os) !! sid) eqn:E; [|done].
    exfalso. apply Hl, sessions_live; [done|]. by rewrite E.
  Qed.
  Lemma dead_get os h f sid : hc_stateful cf = true → sse_get h → h_session h = Some sid → ¬ live sid (sx_log (run os)) →
    step (run os) (HGet h f) = (run os, Some (refuse 404)).
  Proof.
    intros Hst Hh Hs Hl. cbn [h_step]. unfold get_start. apply get_headers in Hh. rewrite Hh, Hs, Hst.
    destruct (sx_sessions (run os) !! sid) eqn:E; [|done]. exfalso. apply Hl, sessions_live; [done|]. by rewrite E.
  Qed.
  Lemma dead_delete os h sid : hc_stateful cf = true → h_session h = Some sid → ¬ live sid (sx_log (run os)) →
    step (run os) (HDelete h) = (run os, Some (refuse 404)).
  Proof.
    intros Hst Hs Hl. cbn [h_step]. unfold delete_session. rewrite Hs, Hst. rewrite bool_decide_eq_false_2; [done|]. intros E. by apply Hl, sessions_live.
  Qed.
  Lemma live_delete os h sid : hc_stateful cf = true → h_session h = Some sid → live sid (sx_log (run os)) →
    (step (run os) (HDelete h)).2 = Some (MkResp 200 None None BOk) ∧ sx_log (step (run os) (HDelete h)).1 = sx_log (run os) ++ [LClosed sid].
  Proof.
    intros Hst Hs Hl. cbn [h_step]. unfold delete_session. rewrite Hs, Hst. rewrite bool_decide_eq_true_2; [done|]. by apply sessions_live.
  Qed.
  Lemma live_post os h id r f sid : hc_stateful cf = true → json_post h → ¬ init_request r → h_session h = Some sid → h_version h = None → live sid (sx_log (run os)) →
    step (run os) (HPost h (Some (MsgRequest id r)) f) = (wait (PPost (Some sid) (Some sid) id r) (run os), None).
  Proof.
    intros Hst Hh Hr Hs Hv Hl. cbn [h_step]. unfold post_start. apply post_headers in Hh. rewrite Hh.
    assert (is_init (MsgRequest id r) = false) as ->. { apply is_init_false. intros (i & p & [= <- ->]). apply Hr. by exists p. }
    unfold validate_non_init_session. rewrite Hst, Hs. apply sessions_live in Hl as [x Hx]; [|done]. rewrite Hx, Hv. done.
  Qed.
  Lemma init_post os h id p f : hc_stateful cf = true → json_post h → h_session h = None →
    step (run os) (HPost h (Some (MsgRequest id (RClient CInitialize p))) f) =
      (wait (PPost None (Some f) id (RClient CInitialize p)) (note (LOpened f) (set_session f (MkSession false (h_version h)) (run os))), None).
  Proof.
    intros Hst Hh Hs. cbn [h_step]. unfold post_start. apply post_headers in Hh. rewrite Hh. cbn [is_init]. unfold process_init_session. rewrite Hst, Hs. done.
  Qed.
  Lemma supplied_post os h id p f sid : hc_stateful cf = true → json_post h → h_session h = Some sid → ¬ live sid (sx_log (run os)) →
    step (run os) (HPost h (Some (MsgRequest id (RClient CInitialize p))) f) = (wait (PPost (Some sid) (Some sid) id (RClient CInitialize p)) (run os), None).
  Proof.
    intros Hst Hh Hs Hl. cbn [h_step]. unfold post_start. apply post_headers in Hh. rewrite Hh. cbn [is_init]. unfold process_init_session. rewrite Hst, Hs.
    destruct (sx_sessions (run os) !! sid) eqn:E; [|done]. exfalso. apply Hl, sessions_live; [done|]. by rewrite E.
  Qed.

  Definition owned (log : list logged) (hdr rsid : option text) (r : request) : Prop :=
    ∃ sid, rsid = Some sid ∧ (∀ x, hdr = Some x → x = sid) ∧ (¬ init_request r → ∃ l0, l0 `prefix_of` log ∧ live sid l0).
  Definition owners (s : hserver) : Prop :=
    (∀ hdr rsid id r, PPost hdr rsid id r ∈ sx_pending s → owned (sx_log s) hdr rsid r) ∧
    (∀ l1 rsid id r l2, sx_log s = l1 ++ LProcessed rsid id r :: l2 → ∃ sid, rsid = Some sid ∧ (¬ init_request r → ∃ l0, l0 `prefix_of` l1 ∧ live sid l0)).
  Lemma owned_mono l l' hdr rsid r : l `prefix_of` l' → owned l hdr rsid r → owned l' hdr rsid r.
  Proof. intros Hp (sid & -> & Hh & H). exists sid. split; [done|]. split; [done|]. intros Hr. destruct (H Hr) as (l0 & H0 & Hl). exists l0. split; [by etrans|done]. Qed.
  Lemma processed_snoc (Q : list logged → option text → rid → request → Prop) l x :
    (∀ l1 rsid id r l2, l = l1 ++ LProcessed rsid id r :: l2 → Q l1 rsid id r) → (∀ rsid id r, x = LProcessed rsid id r → Q l rsid id r) →
    ∀ l1 rsid id r l2, l ++ [x] = l1 ++ LProcessed rsid id r :: l2 → Q l1 rsid id r.
  Proof.
    intros H1 H2 l1 rsid id r l2 H. destruct l2 as [|y l2 _] using rev_ind.
    - apply app_inj_tail in H as [-> ->]. by apply H2.
    - rewrite app_comm_cons, app_assoc in H. apply app_inj_tail in H as [-> _]. by eapply H1.
  Qed.
  Lemma in_delete {A} (l : list A) i x : x ∈ delete i l → x ∈ l.
  Proof. revert i. induction l as [|y l IH]; intros [|i]; cbn; rewrite ?elem_of_cons; naive_solver. Qed.
  (** pending requests and the log after a step, whatever it is *)
  Lemma pending_step s o : hc_stateful cf = true → ∀ p, p ∈ sx_pending (step s o).1 → p ∈ sx_pending s ∨
    (∃ h f sid last, o = HGet h f ∧ p = PGet sid last ∧ last = h_last h) ∨
    (∃ h id r f sid, o = HPost h (Some (MsgRequest id r)) f ∧ p = PPost (h_session h) (Some sid) id r ∧
      ((h_session h = Some sid ∧ (init_request r ∨ is_Some (sx_sessions s !! sid)) ∧ sx_log (step s o).1 = sx_log s) ∨ (h_session h = None ∧ init_request r))).
  Proof.
    intros Hst p. destruct o as [h body fresh|h fresh|i e1 e2|h|n eid|n]; cbn [h_step].
    - unfold post_start. destruct (validate_headers h Post); [by left|]. destruct body as [m|]; [|by left].
      unfold process_init_session. rewrite Hst. destruct (is_init m) eqn:Hi.
      + apply is_init_spec in Hi as (id & q & ->). destruct (h_session h) as [sid|] eqn:Hs.
        * destruct (sx_sessions s !! sid) as [[[] ?]|]; [by left|..]; cbn; rewrite elem_of_app, elem_of_list_singleton; (intros [H| ->]; [by left|]); right; right;
            exists h, id, (RClient CInitialize q), fresh, sid; (split; [done|split; [by rewrite Hs|]]); left; (split; [done|]); (split; [|done]); left; by exists q.
        * cbn. rewrite elem_of_app, elem_of_list_singleton. intros [H| ->]; [by left|]. right. right. exists h, id, (RClient CInitialize q), fresh, fresh. split; [done|]. split; [by rewrite Hs|]. right. split; [done|]. by exists q.
      + unfold validate_non_init_session. rewrite Hst. destruct (h_session h) as [sid|] eqn:Hs; [|by left]. destruct (sx_sessions s !! sid) eqn:E; [|by left].
        destruct (validate_protocol_version _ _ _ _); [by left|]. destruct m as [id r| |]; [|by left..]. cbn. rewrite elem_of_app, elem_of_list_singleton.
        intros [H| ->]; [by left|]. right. right. exists h, id, r, fresh, sid. split; [done|]. split; [by rewrite Hs|]. left. split; [done|]. split; [|done]. by right.
    - unfold get_start. destruct (validate_headers h Get); [by left|]. rewrite Hst. destruct (h_session h) as [sid|].
      + destruct (sx_sessions s !! sid); [|by left]. destruct (sx_streams s !! sid); [by left|]. cbn. rewrite elem_of_app, elem_of_list_singleton. intros [H| ->]; [by left|]. right. left. by eexists _, _, _, _.
      + cbn. destruct (sx_streams s !! fresh); [by left|]. cbn. rewrite elem_of_app, elem_of_list_singleton. intros [H| ->]; [by left|]. right. left. by eexists _, _, _, _.
    - destruct (sx_pending s !! i) as [[hdr rsid id r|sid last]|]; [| |by left].
      + destruct (post_run_log hdr rsid id r e1 e2 (drop_pending i s)) as (_ & _ & _ & H). destruct (post_run _ _ _ _ _ _ _ _ _) as [s' x]. cbn in *. rewrite H. intros Hin%in_delete. by left.
      + cbn. intros Hin%in_delete. by left.
    - unfold delete_session. destruct (h_session h) as [sid|]; [|by left]. destruct (_ && _); by left.
    - unfold emit. destruct (sx_opened s !! n) as [[sid [|m q] out []]|]; try (by left). destruct (hc_store cf); by left.
    - by left.
  Qed.
  Lemma owners_run os : hc_stateful cf = true → owners (run os).
  Proof.
    intros Hst. induction os as [|o os IH] using rev_ind.
    - split; [intros ? ? ? ?; by rewrite elem_of_nil|]. intros [] ? ? ? ?; done.
    - destruct IH as [I1 I2]. rewrite run_snoc. destruct (log_grows (run os) o Hst) as (l & Hl & Hlen & Hcause). split.
      + intros hdr rsid id r Hin. destruct (pending_step _ _ Hst _ Hin) as [H|[(?&?&?&?&_&?&_)|(h & id' & r' & f & sid & _ & [= -> -> -> ->] & H)]]; [|done|].
        * apply I1 in H. eapply owned_mono; [|done]. rewrite Hl. by eexists.
        * exists sid. split; [done|]. destruct H as [(Hs & Hr & Hlog)|[Hs Hr]].
          -- split; [intros x; rewrite Hs; by intros [= <-]|]. intros Hni. destruct Hr as [Hr|Hr]; [done|]. exists (sx_log (run os)). split; [by rewrite Hlog|]. by apply sessions_live.
          -- split; [by rewrite Hs|]. done.
      + rewrite Hl. destruct l as [|x [|y l]]; [by rewrite app_nil_r| |cbn in Hlen; lia].
        apply (processed_snoc (λ l1 rsid id r, ∃ sid, rsid = Some sid ∧ (¬ init_request r → ∃ l0, l0 `prefix_of` l1 ∧ live sid l0))); [intros ? ? ? ? ? H; by eapply I2|].
        intros rsid id r ->. destruct (Hcause (LProcessed rsid id r)) as (hdr & Hin); [by apply elem_of_list_singleton|].
        apply I1 in Hin as (sid & -> & _ & H). by exists sid.
  Qed.

  (** ** The store *)
  Lemma store_step s o : ∃ l, sx_store (step s o).1 = fold_left (λ s x, store_event x.1.1 x.1.2 x.2 s) l (sx_store s).
  Proof.
    assert (∀ s', sx_store s' = sx_store s → ∃ l : list (text * text * message), sx_store s' = fold_left (λ s x, store_event x.1.1 x.1.2 x.2 s) l (sx_store s)) as W by (intros s' H; by exists []).
    destruct o as [h body fresh|h fresh|i e1 e2|h|n eid|n]; cbn [h_step].
    - apply W. unfold post_start. destruct (validate_headers h Post); [done|]. destruct body as [m|]; [|done].
      unfold process_init_session. destruct (is_init m); [destruct (hc_stateful cf); [destruct (h_session h) as [sid|]; [destruct (sx_sessions s !! sid) as [[[] ?]|]|]|]; by destruct m|].
      destruct (validate_non_init_session cf (h_session h) s); [|done]. destruct (validate_protocol_version _ _ _ _); [done|]. by destruct m.
    - apply W. unfold get_start. destruct (validate_headers h Get); [done|]. destruct (h_session h) as [sid|], (hc_stateful cf); cbn; [destruct (sx_sessions s !! sid); [by destruct (sx_streams s !! sid)|done]|by destruct (sx_streams s !! sid)|by destruct (sx_streams s !! fresh)|done].
    - destruct (sx_pending s !! i) as [[hdr rsid id r|sid last]|]; [|by apply W..].
      unfold post_run. set (resp := answer _ _ _). set (s1 := note _ _).
      assert (sx_store s1 = sx_store s) as H1 by done. clearbody s1.
      set (s2 := if is_init _ then _ else s1).
      assert (sx_store s2 = sx_store s) as H2. { subst s2. destruct (is_init _); [|done]. unfold update_session. destruct rsid as [sid|]; [|done]. by destruct (sx_sessions s1 !! sid). }
      clearbody s2. set (s3 := match rsid with Some _ => _ | None => s2 end).
      assert (∃ l, sx_store s3 = fold_left (λ s x, store_event x.1.1 x.1.2 x.2 s) l (sx_store s)) as [l Hl].
      { subst s3. destruct rsid as [sid|]; [|by apply W]. destruct (hc_store cf); [|by apply W]. exists [(sid, e1, MsgResponse resp)]. cbn. by rewrite H2. }
      exists l. clearbody s3. unfold build_response. destruct (hc_json cf); [done|]. destruct hdr as [sid|]; [|done]. by destruct (sx_streams s3 !! sid).
    - apply W. unfold delete_session. destruct (h_session h) as [sid|]; [|done]. by destruct (_ && _).
    - unfold emit. destruct (sx_opened s !! n) as [[sid [|m q] out []]|]; try (by apply W). destruct (hc_store cf); [|by apply W]. by exists [(sid, eid, m)].
    - by apply W.
  Qed.
  Lemma run_filled os : ∃ l, sx_store (run os) = filled l.
  Proof.
    induction os as [|o os (l & Hl)] using rev_ind; [by exists []|]. rewrite run_snoc. destruct (store_step (run os) o) as (l' & ->). exists (l ++ l'). rewrite Hl. unfold filled. by rewrite fold_left_app.
  Qed.

  (** ** Streams *)
  Definition streams_ok (s : hserver) : Prop :=
    (∀ sid n, sx_streams s !! sid = Some n → ∃ x, sx_opened s !! n = Some x ∧ st_session x = sid) ∧
    (∀ hdr rsid id r sid, PPost hdr rsid id r ∈ sx_pending s → hdr = Some sid → rsid = Some sid) ∧
    (∀ sid last, PGet sid last ∈ sx_pending s → last = None) ∧
    (∀ n x, sx_opened s !! n = Some x → Forall (answer_in answer (sx_log s) (st_session x)) (contents x)).
  Lemma answer_in_mono l l' sid m : answer_in answer l sid m → answer_in answer (l ++ l') sid m.
  Proof. intros (l1 & id & r & l2 & -> & ->). exists l1, id, r, (l2 ++ l'). split; [|done]. by rewrite <- app_assoc. Qed.
  Lemma lookup_alter_stream (l : list stream) n f k x : alter f n l !! k = Some x → ∃ y, l !! k = Some y ∧ (x = y ∨ (k = n ∧ x = f y)).
  Proof.
    destruct (decide (n = k)) as [->|Hn].
    - rewrite list_lookup_alter. destruct (l !! k) as [y|]; [|done]. intros [= <-]. exists y. naive_solver.
    - rewrite list_lookup_alter_ne by done. intros H. exists x. naive_solver.
  Qed.
  Lemma post_run_opened hdr rsid id r e1 e2 s :
    sx_opened (post_run cf answer hdr rsid id r e1 e2 s).1 = sx_opened s ∨
    ∃ sid n, hdr = Some sid ∧ sx_streams s !! sid = Some n ∧ sx_opened (post_run cf answer hdr rsid id r e1 e2 s).1 = alter (queue (MsgResponse (answer (sx_log s) id r))) n (sx_opened s).
  Proof.
    unfold post_run. set (resp := answer _ _ _). set (s1 := note _ s).
    assert (sx_opened s1 = sx_opened s ∧ sx_streams s1 = sx_streams s) as [T1 P1] by done. clearbody s1.
    set (s2 := if is_init _ then _ else s1).
    assert (sx_opened s2 = sx_opened s ∧ sx_streams s2 = sx_streams s) as [T2 P2].
    { subst s2. destruct (is_init _); [|done]. unfold update_session. destruct rsid as [sid|]; [|done]. by destruct (sx_sessions s1 !! sid). }
    clearbody s2. set (s3 := match rsid with Some _ => _ | None => s2 end).
    assert (sx_opened s3 = sx_opened s ∧ sx_streams s3 = sx_streams s) as [T3 P3].
    { subst s3. destruct rsid; [|done]. by destruct (hc_store cf). }
    clearbody s3. unfold build_response. destruct (hc_json cf); [by left|]. destruct hdr as [sid|]; [|by left].
    destruct (sx_streams s3 !! sid) as [n|] eqn:E; [|by left]. right. exists sid, n. split; [done|]. split; [by rewrite <- P3|]. cbn. by rewrite T3.
  Qed.
  Lemma queue_session m x : st_session (queue m x) = st_session x.
  Proof. unfold queue. by destruct (st_open x). Qed.
  Lemma streams_run os : hc_stateful cf = true → no_replay os → streams_ok (run os).
  Proof.
    intros Hst. induction os as [|o os IH] using rev_ind; intros Hn.
    { split; [|split; [|split]]; cbn; intros *; [by rewrite lookup_empty|by intros ?%elem_of_nil|by intros ?%elem_of_nil|done]. }
    apply Forall_app in Hn as [Hn Ho]. rewrite Forall_singleton in Ho. specialize (IH Hn) as (I1 & I2 & I3 & I4).
    rewrite run_snoc. pose proof (pending_step (run os) o Hst) as Hp. pose proof (log_grows (run os) o Hst) as (l & Hl & _).
    set (s := run os) in *. set (s' := (step s o).1) in *.
    split; [|split; [|split]].
    2: { intros hdr rsid id r sid Hin Hh. destruct (Hp _ Hin) as [H|[(?&?&?&?&_&?&_)|(h & id' & r' & f & sid' & _ & [= -> -> -> ->] & H)]]; [by eapply I2|done|].
         destruct H as [(Hs & _)|[Hs _]]; congruence. }
    2: { intros sid last Hin. destruct (Hp _ Hin) as [H|[(h & f & sid' & last' & -> & [= <- ->] & ->)|(?&?&?&?&?&_&?&_)]]; [by eapply I3|done|done]. }
    all: assert (∀ n x, sx_opened s !! n = Some x → Forall (answer_in answer (sx_log s') (st_session x)) (contents x)) as W4 by
      (intros n x Hx; rewrite Hl; eapply Forall_impl; [by eapply I4|]; intros m; apply answer_in_mono).
    - subst s'. clear Hp W4 Hl l Ho. destruct o as [h body fresh|h fresh|i e1 e2|h|n eid|n]; cbn [h_step].
      + assert (sx_streams (post_start cf h body fresh s).1 = sx_streams s ∧ sx_opened (post_start cf h body fresh s).1 = sx_opened s) as [-> ->]; [|done].
        unfold post_start. destruct (validate_headers h Post); [done|]. destruct body as [m|]; [|done].
        unfold process_init_session. destruct (is_init m); [destruct (hc_stateful cf); [destruct (h_session h) as [sid|]; [destruct (sx_sessions s !! sid) as [[[] ?]|]|]|]; by destruct m|].
        destruct (validate_non_init_session cf (h_session h) s); [|done]. destruct (validate_protocol_version _ _ _ _); [done|]. by destruct m.
      + assert (sx_streams (get_start cf h fresh s).1 = sx_streams s ∧ sx_opened (get_start cf h fresh s).1 = sx_opened s) as [-> ->]; [|done].
        unfold get_start. destruct (validate_headers h Get); [done|]. destruct (h_session h) as [sid|], (hc_stateful cf); cbn; [destruct (sx_sessions s !! sid); [by destruct (sx_streams s !! sid)|done]|by destruct (sx_streams s !! sid)|by destruct (sx_streams s !! fresh)|done].
      + destruct (sx_pending s !! i) as [[hdr rsid id r|sid last]|]; [| |done].
        * destruct (post_run_log hdr rsid id r e1 e2 (drop_pending i s)) as (_ & _ & H1 & _).
          assert (∀ n x, sx_opened s !! n = Some x → ∃ y, sx_opened (post_run cf answer hdr rsid id r e1 e2 (drop_pending i s)).1 !! n = Some y ∧ st_session y = st_session x) as H2.
          { intros n x Hx. destruct (post_run_opened hdr rsid id r e1 e2 (drop_pending i s)) as [->|(sid & k & _ & _ & ->)]; [by exists x|]. cbn.
            destruct (decide (k = n)) as [->|Hk]; [|rewrite list_lookup_alter_ne by done; by exists x]. rewrite list_lookup_alter, Hx. eexists. split; [done|]. apply queue_session. }
          destruct (post_run _ _ _ _ _ _ _ _ _) as [s' y]. cbn in *. rewrite H1. intros sid n Hs. destruct (I1 _ _ Hs) as (x & Hx & Hs'). destruct (H2 _ _ Hx) as (y' & Hy & E). exists y'. by rewrite E.
        * cbn. intros sid' n Hs. apply lookup_insert_Some in Hs as [[<- <-]|[Hne Hs]].
          -- eexists. rewrite lookup_app_r by lia. rewrite Nat.sub_diag. done.
          -- destruct (I1 _ _ Hs) as (x & Hx & Hs'). exists x. split; [|done]. by apply lookup_app_l_Some.
      + unfold delete_session. destruct (h_session h) as [sid|]; [|done]. destruct (_ && _); [done|]. cbn. intros sid' n [_ Hs]%lookup_delete_Some. by apply I1.
      + cbn [fst]. intros sid k. assert (sx_streams (emit cf n eid s) = sx_streams s) as ->. { unfold emit. destruct (sx_opened s !! n) as [[? [|m q] out []]|]; try done. by destruct (hc_store cf). }
        intros Hs. destruct (I1 _ _ Hs) as (x & Hx & Hs'). unfold emit. cbn [fst]. destruct (sx_opened s !! n) as [[sid' [|m q] out []]|] eqn:E; try (by exists x).
        assert (∃ y, alter (λ _, MkStream sid' q (out ++ [(eid, m)]) true) n (sx_opened s) !! k = Some y ∧ st_session y = sid) as H.
        { destruct (decide (n = k)) as [->|Hnk]; [|rewrite list_lookup_alter_ne by done; by exists x]. rewrite list_lookup_alter, E. cbn. eexists. split; [done|]. cbn. rewrite Hx in E. injection E as ->. done. }
        by destruct (hc_store cf).
      + cbn. intros sid k Hs. destruct (I1 _ _ Hs) as (x & Hx & Hs'). destruct (decide (n = k)) as [->|Hnk]; [|rewrite list_lookup_alter_ne by done; by exists x]. rewrite list_lookup_alter, Hx. by eexists.
    - intros n x Hx. subst s'. clear Hp. destruct o as [h body fresh|h fresh|i e1 e2|h|k eid|k]; cbn [h_step] in *.
      + assert (sx_opened (post_start cf h body fresh s).1 = sx_opened s) as E.
        { unfold post_start. destruct (validate_headers h Post); [done|]. destruct body as [m|]; [|done].
          unfold process_init_session. destruct (is_init m); [destruct (hc_stateful cf); [destruct (h_session h) as [sid|]; [destruct (sx_sessions s !! sid) as [[[] ?]|]|]|]; by destruct m|].
          destruct (validate_non_init_session cf (h_session h) s); [|done]. destruct (validate_protocol_version _ _ _ _); [done|]. by destruct m. }
        rewrite E in Hx. by apply (W4 n).
      + assert (sx_opened (get_start cf h fresh s).1 = sx_opened s) as E.
        { unfold get_start. destruct (validate_headers h Get); [done|]. destruct (h_session h) as [sid|], (hc_stateful cf); cbn; [destruct (sx_sessions s !! sid); [by destruct (sx_streams s !! sid)|done]|by destruct (sx_streams s !! sid)|by destruct (sx_streams s !! fresh)|done]. }
        rewrite E in Hx. by apply (W4 n).
      + destruct (sx_pending s !! i) as [[hdr rsid id r|sid last]|] eqn:Ep; [| |by apply (W4 n)].
        * destruct (post_run_log hdr rsid id r e1 e2 (drop_pending i s)) as (H1 & _).
          pose proof (post_run_opened hdr rsid id r e1 e2 (drop_pending i s)) as H2.
          destruct (post_run _ _ _ _ _ _ _ _ _) as [s' y]. cbn [fst drop_pending sx_log sx_opened sx_streams] in *.
          destruct H2 as [H2|(sid & k & -> & Hk & H2)]; [rewrite H2 in Hx; by apply (W4 n)|]. rewrite H2 in Hx.
          apply lookup_alter_stream in Hx as (z & Hz & [->|[-> ->]]); [rewrite H1; eapply Forall_impl; [by eapply I4|]; intros m; apply answer_in_mono|].
          rewrite queue_session. assert (Forall (answer_in answer (sx_log s') (st_session z)) (contents z)) as Hold.
          { rewrite H1. eapply Forall_impl; [by eapply I4|]. intros m. apply answer_in_mono. }
          unfold queue. destruct (st_open z); [|done]. unfold contents in *. cbn. rewrite app_assoc, Forall_app, Forall_singleton. split; [done|].
          destruct (I1 _ _ Hk) as (z' & Hz' & Hs). rewrite Hz in Hz'. injection Hz' as <-. rewrite Hs.
          rewrite (I2 (Some sid) rsid id r sid (elem_of_list_lookup_2 _ _ _ Ep) eq_refl) in *.
          exists (sx_log s), id, r, []. split; [by rewrite H1|done].
        * cbn in *. apply lookup_app_Some in Hx as [Hx|[_ Hx]]; [eapply Forall_impl; [by eapply I4|]; done|].
          apply list_lookup_singleton_Some in Hx as [_ <-]. rewrite (I3 sid last) by (by eapply elem_of_list_lookup_2). by constructor.
      + assert (sx_opened (let '(s0, x0) := delete_session cf h s in (s0, Some x0)).1 = sx_opened s) as E.
        { unfold delete_session. destruct (h_session h) as [sid|]; [|done]. by destruct (_ && _). }
        rewrite E in Hx. by apply (W4 n).
      + rewrite Hl. unfold emit in Hx. cbn [fst] in Hx.
        assert (∀ y, sx_opened s !! n = Some y → Forall (answer_in answer (sx_log s ++ l) (st_session y)) (contents y)) as Hold.
        { intros y Hy. eapply Forall_impl; [by eapply I4|]. intros m. apply answer_in_mono. }
        destruct (sx_opened s !! k) as [[sid [|m q] out []]|] eqn:E; try (by apply Hold).
        assert (alter (λ _, MkStream sid q (out ++ [(eid, m)]) true) k (sx_opened s) !! n = Some x) as Hx' by (by destruct (hc_store cf)).
        apply lookup_alter_stream in Hx' as (z & Hz & [->|[-> ->]]); [by apply Hold|].
        specialize (Hold z Hz). rewrite Hz in E. injection E as ->. unfold contents in *. cbn in *. rewrite fmap_app, <- app_assoc. done.
      + cbn in *. apply lookup_alter_stream in Hx as (z & Hz & [->|[-> ->]]); [by apply (W4 n)|].
        assert (Forall (answer_in answer (sx_log s) (st_session z)) (contents z)) as Hold by (by eapply I4).
        unfold contents in *. cbn. rewrite app_nil_r. by apply Forall_app in Hold as [? _].
  Qed.
End http.

(** ** Event stores *)
Lemma filled_snoc l x : filled (l ++ [x]) = store_event x.1.1 x.1.2 x.2 (filled l).
Proof. unfold filled. by rewrite fold_left_app. Qed.
Definition eids (l : list (text * text * message)) : list text := (λ x, x.1.2) <$> l.
Lemma filled_order l : es_order (filled l) = eids l.
Proof. induction l as [|x l IH] using rev_ind; [done|]. rewrite filled_snoc. cbn. rewrite IH. unfold eids. by rewrite fmap_app. Qed.
Definition of_session (sid : text) (x : text * text * message) : option (text * message) := if decide (x.1.1 = sid) then Some (x.1.2, x.2) else None.
Lemma filled_events l sid : default [] (es_events (filled l) !! sid) = omap (of_session sid) l.
Proof.
  induction l as [|x l IH] using rev_ind; [cbn; by rewrite lookup_empty|]. rewrite filled_snoc, omap_app. cbn. unfold of_session at 2.
  destruct (decide (x.1.1 = sid)) as [<-|Hn]; [rewrite lookup_insert; cbn; by rewrite IH|]. rewrite lookup_insert_ne by done. by rewrite IH, app_nil_r.
Qed.
Lemma filled_stream l sid eid m : NoDup (eids l) → (sid, eid, m) ∈ l → es_stream (filled l) !! eid = Some sid.
Proof.
  induction l as [|x l IH] using rev_ind; intros Hn Hin; [by apply elem_of_nil in Hin|]. unfold eids in Hn. rewrite fmap_app in Hn. apply NoDup_app in Hn as (Hn & Hf & _).
  rewrite filled_snoc. cbn. apply elem_of_app in Hin as [Hin|Hin].
  - rewrite lookup_insert_ne; [by apply IH|]. intros E. apply (Hf eid); [by apply (elem_of_list_fmap_1 (λ x, x.1.2) _ _ Hin)|]. cbn. rewrite E. by apply elem_of_list_singleton.
  - apply elem_of_list_singleton in Hin as <-. by rewrite lookup_insert.
Qed.
Lemma first_event_in l sid eid m : NoDup (eids l) → (sid, eid, m) ∈ l → first_event eid (omap (of_session sid) l) = Some (eid, m).
Proof.
  induction l as [|[[s e] m'] l IH]; intros Hn Hin; [by apply elem_of_nil in Hin|]. apply NoDup_cons in Hn as [Hf Hn]. cbn [omap list_omap]. unfold of_session at 1. cbn [fst snd].
  apply elem_of_cons in Hin as [[= <- <- <-]|Hin].
  - rewrite decide_True by done. cbn. by rewrite decide_True.
  - destruct (decide (s = sid)); [|by apply IH]. cbn. rewrite decide_False; [by apply IH|]. intros ->. apply Hf. apply (elem_of_list_fmap_1 (λ x, x.1.2) _ _ Hin).
Qed.
Lemma event_of_in l sid eid m : NoDup (eids l) → (sid, eid, m) ∈ l → event_of (filled l) eid = Some (eid, m).
Proof.
  intros Hn Hin. unfold event_of. rewrite (filled_stream l sid eid m Hn Hin). pose proof (filled_events l sid) as H. pose proof (first_event_in l sid eid m Hn Hin) as Hf. rewrite <- H in Hf.
  destruct (es_events (filled l) !! sid); [done|]. cbn in Hf. done.
Qed.
Lemma after_in l1 x l2 : x ∉ l1 → after x (l1 ++ x :: l2) = Some l2.
Proof. induction l1 as [|y l1 IH]; cbn; [by rewrite decide_True|]. rewrite not_elem_of_cons. intros [Hy Hl]. rewrite decide_False by done. by apply IH. Qed.
Lemma after_not x l : x ∉ l → after x l = None.
Proof. induction l as [|y l IH]; cbn; [done|]. rewrite not_elem_of_cons. intros [Hy Hl]. rewrite decide_False by done. by apply IH. Qed.
Lemma omap_events l l' : NoDup (eids l) → (∀ x, x ∈ l' → x ∈ l) → omap (event_of (filled l)) (eids l') = (λ x, (x.1.2, x.2)) <$> l'.
Proof.
  intros Hn. induction l' as [|[[s e] m] l' IH]; intros Hin; [done|]. cbn. rewrite (event_of_in l s e m Hn) by (apply Hin; by left). f_equal. apply IH. intros x Hx. apply Hin. by right.
Qed.
Lemma replay_after l1 sid x m l2 : NoDup (eids (l1 ++ (sid, x, m) :: l2)) → replay_events_after x (filled (l1 ++ (sid, x, m) :: l2)) = (λ y, (y.1.2, y.2)) <$> l2.
Proof.
  intros Hn. unfold replay_events_after. rewrite filled_order. unfold eids at 1. rewrite fmap_app. cbn. rewrite after_in.
  - fold (eids l2). apply omap_events; [done|]. intros y Hy. apply elem_of_app. right. by right.
  - unfold eids in Hn. rewrite fmap_app in Hn. apply NoDup_app in Hn as (_ & Hf & _). intros Hin. apply (Hf _ Hin). cbn. by left.
Qed.
Lemma replay_unknown l x : NoDup (eids l) → x ∉ eids l → replay_events_after x (filled l) = (λ y, (y.1.2, y.2)) <$> l.
Proof. intros Hn Hx. unfold replay_events_after. rewrite filled_order, after_not by done. by apply omap_events. Qed.

(** ** Bodies *)
Lemma variant_hit {A} (tag : A → text) all a : NoDup (tag <$> all) → a ∈ all → variant tag all (tag a) = Some a.
Proof.
  intros Hnd. induction 1 as [a all|a b all Ha IH]; cbn [variant]; [by rewrite decide_True|].
  rewrite fmap_cons, NoDup_cons in Hnd. destruct Hnd as [Hb Hnd].
  rewrite decide_False; [auto|]. intros E. apply Hb. rewrite <-E. by apply elem_of_list_fmap_1.
Qed.
Lemma variant_miss {A} (tag : A → text) all m : m ∉ tag <$> all → variant tag all m = None.
Proof.
  induction all as [|a all IH]; [done|]. rewrite fmap_cons, not_elem_of_cons. intros [? ?]. cbn [variant].
  rewrite decide_False by done. auto.
Qed.
Lemma str_method l m : str_field "method" ((lit "method", JStr m) :: l) = Some m.
Proof. done. Qed.
Lemma tagged_back {A} (tag : A → text) bd all a p : NoDup (tag <$> all) → a ∈ all → body_ty_ok (bd a) → holds (bd a) p →
  tagged tag bd all (tagged_doc (tag a) (bd a) p) = Some (a, p).
Proof.
  intros Hn Ha Hb Hp. unfold tagged, tagged_doc. rewrite str_method. cbn [mbind option_bind]. rewrite variant_hit by done.
  destruct (bd a) as [|t] eqn:E; [cbn in Hp; subst; done|].
  assert (assoc (lit "params") [(lit "method", JStr (tag a)); (lit "params", p)] = Some p) as -> by done.
  rewrite body_roundtrip; done.
Qed.
Lemma tagged_miss {A} (tag : A → text) bd all m b p : m ∉ tag <$> all → tagged tag bd all (tagged_doc m b p) = None.
Proof. intros H. unfold tagged, tagged_doc. rewrite str_method. cbn [mbind option_bind]. by rewrite variant_miss. Qed.
Lemma own_request id c p : rid_ok id → holds (creq_body c) p → message_of_doc (message_doc (MsgRequest id (RClient c p))) = Some (MsgRequest id (RClient c p)).
Proof.
  intros Hi Hp. cbn [message_doc message_of_doc]. set (d := tagged_doc _ _ _).
  assert (assoc (lit "id") [(lit "id", rid_json id); (lit "request", JObj d)] = Some (rid_json id)) as -> by done.
  assert (assoc (lit "request") [(lit "id", rid_json id); (lit "request", JObj d)] = Some (JObj d)) as -> by done.
  cbn [mbind option_bind]. rewrite rid_roundtrip by done. cbn [request_of_doc]. subst d.
  rewrite tagged_back; [done|exact creq_tags|apply creq_all|apply creq_body_ok|done].
Qed.
Lemma own_response x : good_response x → message_of_doc (message_doc (MsgResponse x)) = Some (MsgResponse x).
Proof.
  intros Hx. cbn [message_doc]. pose proof (response_roundtrip x Hx) as H. unfold message_of_doc. rewrite H. unfold response_json.
  assert (∀ i l, assoc (lit "request") ((lit "jsonrpc", JStr (rs_jsonrpc x)) :: (lit "id", i) :: [match rs_payload x with PResult v => (lit "result", v) | PError e => (lit "error", error_json e) end]) ≫= l = (None : option request)) as -> by (intros; by destruct (rs_payload x)).
  by destruct (_ ≫= rid_of_json).
Qed.
Definition envelope (l : list (text * json)) (m : text) (po : option json) : list (text * json) := l ++ (lit "method", JStr m) :: opt_field "params" po.
Lemma tagged_envelope {A} (tag : A → text) bd all j m po :
  tagged tag bd all (envelope [(lit "jsonrpc", j)] m po) =
    match variant tag all m with
    | Some a => match po with Some p => pair a <$> body_of (bd a) p | None => match bd a with BUnit => Some (a, JNull) | BTy _ => None end end
    | None => None
    end.
Proof. unfold tagged. assert (str_field "method" (envelope [(lit "jsonrpc", j)] m po) = Some m) as -> by done. cbn [mbind option_bind]. destruct (variant tag all m); [|done]. by destruct po. Qed.
Lemma standard_notification c p : holds (cnot_body c) p → message_of_doc (message_json (MsgNotification (NClient c p))) = Some (MsgNotification (NClient c p)).
Proof.
  intros Hp. cbn [message_json]. unfold create_notification. assert (∃ po, cnot_wire c p = (cnot_tag c, po) ∧ match po with Some q => q = p | None => cnot_body c = BUnit ∧ p = JNull end) as (po & -> & Hpo).
  { destruct c; cbn in Hp; eexists; (split; [reflexivity|]); cbn; done. }
  change (notification_json (new_notification (cnot_tag c) po)) with (JObj (envelope [(lit "jsonrpc", JStr jsonrpc_version)] (cnot_tag c) po)).
  cbn [message_of_doc]. assert (assoc (lit "request") (envelope [(lit "jsonrpc", JStr jsonrpc_version)] (cnot_tag c) po) = None) as -> by (by destruct po).
  assert (response_of_json (JObj (envelope [(lit "jsonrpc", JStr jsonrpc_version)] (cnot_tag c) po)) = None) as -> by (by destruct po).
  cbn [mbind option_bind]. cbn [notification_of_doc]. rewrite tagged_envelope, variant_hit; [|exact cnot_tags|apply cnot_all].
  assert (match po with Some p0 => pair c <$> body_of (cnot_body c) p0 | None => match cnot_body c with BUnit => Some (c, JNull) | BTy _ => None end end = Some (c, p)) as ->.
  { destruct po as [q|]; [subst q|]. - rewrite body_roundtrip; [done|apply cnot_body_ok|done]. - destruct Hpo as [-> ->]. done. }
  by destruct (_ ≫= rid_of_json).
Qed.
Lemma tagged_envelope2 {A} (tag : A → text) bd all j i m po : variant tag all m = None → tagged tag bd all (envelope [(lit "jsonrpc", j); (lit "id", i)] m po) = None.
Proof. intros H. unfold tagged. assert (str_field "method" (envelope [(lit "jsonrpc", j); (lit "id", i)] m po) = Some m) as -> by done. cbn [mbind option_bind]. by rewrite H. Qed.
Lemma standard_request_none j i m po : variant cnot_tag cnots m = None → variant snot_tag snots m = None → message_of_doc (JObj (envelope [(lit "jsonrpc", j); (lit "id", i)] m po)) = None.
Proof.
  intros H1 H2. cbn [message_of_doc]. assert (assoc (lit "request") (envelope [(lit "jsonrpc", j); (lit "id", i)] m po) = None) as -> by (by destruct po).
  assert (response_of_json (JObj (envelope [(lit "jsonrpc", j); (lit "id", i)] m po)) = None) as ->.
  { unfold response_of_json. assert (find_payload (envelope [(lit "jsonrpc", j); (lit "id", i)] m po) = None) as -> by (by destruct po). destruct (str_field _ _); [|done]. by destruct (_ ≫= _). }
  cbn [mbind option_bind notification_of_doc]. rewrite !tagged_envelope2 by done.
  assert (decode t_progress (JObj (envelope [(lit "jsonrpc", j); (lit "id", i)] m po)) = None) as -> by (by destruct po).
  assert (decode t_cancelled (JObj (envelope [(lit "jsonrpc", j); (lit "id", i)] m po)) = None) as -> by (by destruct po).
  by destruct (_ ≫= rid_of_json).
Qed.
Lemma standard_request id r : message_of_doc (message_json (MsgRequest id r)) = None.
Proof.
  cbn [message_json]. unfold create_request. destruct (match r with RClient c p => client_wire c p | RServer s p => server_wire s p end) as [m po] eqn:E.
  change (request_json (new_request id m po)) with (JObj (envelope [(lit "jsonrpc", JStr jsonrpc_version); (lit "id", rid_json id)] m po)).
  assert (m ∈ (creq_tag <$> creqs) ++ (sreq_tag <$> sreqs) ++ [lit "elicitation/input"]) as Hm.
  { destruct r as [c p|c p]; [apply elem_of_app; left|destruct c; cbn [server_wire] in E; injection E as <- <-; apply (bool_decide_unpack _); by vm_compute].
    assert (m = creq_tag c) as ->. { destruct c; cbn [client_wire] in E; injection E as <- <-; by vm_compute. } apply elem_of_list_fmap_1, creq_all. }
  assert (Forall (λ m, variant cnot_tag cnots m = None ∧ variant snot_tag snots m = None) ((creq_tag <$> creqs) ++ (sreq_tag <$> sreqs) ++ [lit "elicitation/input"])) as H.
  { apply (bool_decide_unpack _); by vm_compute. }
  rewrite Forall_forall in H. destruct (H _ Hm). by apply standard_request_none.
Qed.

(** ** Negotiated versions and registered streams *)
Section kept.
  Context (cf : hconfig) (answer : list logged → rid → request → rpc_response).
  Local Notation step := (h_step cf answer).
  Local Notation run := (h_run cf answer).
  Definition negotiated_as (sid w : text) (s : hserver) : Prop :=
    sx_sessions s !! sid = Some (MkSession true (Some w)) ∧ ∀ hdr id p, PPost hdr (Some sid) id (RClient CInitialize p) ∉ sx_pending s.
  Lemma negotiated_init hdr rsid id p sid w s : negotiated_as sid w s → PPost hdr rsid id (RClient CInitialize p) ∈ sx_pending s → rsid ≠ Some sid.
  Proof. intros [_ H] Hin ->. by apply (H hdr id p). Qed.
  Lemma post_run_sessions hdr rsid id r e1 e2 s sid : (init_request r → rsid ≠ Some sid) → sx_sessions (post_run cf answer hdr rsid id r e1 e2 s).1 !! sid = sx_sessions s !! sid.
  Proof.
    intros Hr. unfold post_run. set (resp := answer _ _ _). set (s1 := note _ s). assert (sx_sessions s1 = sx_sessions s) as <- by done. clearbody s1.
    set (s2 := if is_init _ then _ else _). assert (sx_sessions s2 !! sid = sx_sessions s1 !! sid) as <-.
    { subst s2. destruct (is_init (MsgRequest id r)) eqn:E; [|done]. apply is_init_spec in E as (i & p & [= <- ->]).
      assert (rsid ≠ Some sid) as H by (apply Hr; by exists p). unfold update_session. destruct rsid as [y|]; [|done]. destruct (sx_sessions s1 !! y); [|done]. cbn. apply lookup_insert_ne. congruence. }
    clearbody s2. set (s3 := match rsid with Some _ => _ | None => _ end). assert (sx_sessions s3 = sx_sessions s2) as <-. { subst s3. destruct rsid; [|done]. by destruct (hc_store cf). }
    clearbody s3. unfold build_response. destruct (hc_json cf); [done|]. destruct hdr; [|done]. by destruct (sx_streams s3 !! _).
  Qed.
  Lemma negotiated_kept s o sid w : hc_stateful cf = true → negotiated_as sid w s → spares sid o → negotiated_as sid w (step s o).1.
  Proof.
    intros Hst Hn [Hg Hd]. pose proof Hn as [Hs Hp]. destruct o as [h body fresh|h fresh|i e1 e2|h|n eid|n]; cbn [h_step].
    - cbn in Hg. assert (fresh ≠ sid) as Hf by (intros ->; apply Hg; by apply elem_of_list_singleton). unfold post_start.
      destruct (validate_headers h Post); [done|]. destruct body as [m|]; [|done].
      unfold process_init_session, validate_non_init_session. rewrite Hst. destruct (is_init m) eqn:Em.
      + apply is_init_spec in Em as (i & p & ->). destruct (h_session h) as [y|] eqn:Ey.
        * destruct (sx_sessions s !! y) as [[[] v]|] eqn:E; [done| |].
          -- cbn. split; [done|]. intros hdr id q. cbn. rewrite elem_of_app, elem_of_list_singleton. intros [H|[= -> -> -> ->]]; [by apply (Hp hdr id q)|]. congruence.
          -- cbn. split; [done|]. intros hdr id q. cbn. rewrite elem_of_app, elem_of_list_singleton. intros [H|[= -> -> -> ->]]; [by apply (Hp hdr id q)|]. congruence.
        * cbn. split; [cbn; by rewrite lookup_insert_ne|]. intros hdr id q. cbn. rewrite elem_of_app, elem_of_list_singleton. intros [H|[= -> -> -> ->]]; [by apply (Hp hdr id q)|done].
      + apply is_init_false in Em. destruct (h_session h) as [y|]; [|done]. destruct (sx_sessions s !! y); [|done]. destruct (validate_protocol_version cf _ _ s); [done|].
        destruct m as [id r| |]; [|done..]. cbn. split; [done|]. intros hdr i q. cbn. rewrite elem_of_app, elem_of_list_singleton. intros [H|[= -> -> -> <-]]; [by apply (Hp hdr i q)|]. apply Em. by eexists _, _.
    - cbn in Hg. assert (fresh ≠ sid) as Hf by (intros ->; apply Hg; by apply elem_of_list_singleton). unfold get_start. rewrite Hst. destruct (validate_headers h Get); [done|].
      assert (∀ s' y, negotiated_as sid w s' → negotiated_as sid w (match sx_streams s' !! y with Some _ => (s', Some (refuse 409)) | None => (wait (PGet y (h_last h)) s', None) end).1) as W.
      { intros s' y [Hs' Hp']. destruct (sx_streams s' !! y); [done|]. split; [done|]. intros hdr i q. cbn. rewrite elem_of_app, elem_of_list_singleton. intros [H|H]; [by apply (Hp' hdr i q)|done]. }
      destruct (h_session h) as [y|]; [destruct (sx_sessions s !! y); [by apply W|done]|]. apply W. split; [cbn; by rewrite lookup_insert_ne|done].
    - destruct (sx_pending s !! i) as [[hdr rsid id r|y last]|] eqn:Ep; [| |done].
      + destruct (post_run_log cf answer hdr rsid id r e1 e2 (drop_pending i s)) as (_ & _ & _ & Hq).
        pose proof (post_run_sessions hdr rsid id r e1 e2 (drop_pending i s) sid) as Hx. destruct (post_run _ _ _ _ _ _ _ _ _) as [s' x]. cbn [fst] in *. split.
        * rewrite Hx; [done|]. intros (p & ->). eapply negotiated_init; [done|]. by eapply elem_of_list_lookup_2.
        * intros hdr' id' p'. rewrite Hq. intros H%(in_delete (sx_pending s)). by apply (Hp hdr' id' p').
      + cbn. split; [done|]. intros hdr' id' p' H%(in_delete (sx_pending s)). by apply (Hp hdr' id' p').
    - unfold delete_session. destruct (h_session h) as [y|] eqn:Ey; [|done]. destruct (_ && _); [done|]. cbn. split; [|done]. cbn. rewrite lookup_delete_ne; [done|]. intros ->. by apply (Hd h).
    - unfold emit. destruct (sx_opened s !! n) as [[y [|m q] out []]|]; try done. by destruct (hc_store cf).
    - done.
  Qed.
  Lemma negotiated_run os os' sid w : hc_stateful cf = true → negotiated_as sid w (run os) → Forall (spares sid) os' → negotiated_as sid w (run (os ++ os')).
  Proof.
    intros Hst Hn. induction os' as [|o os' IH] using rev_ind; [by rewrite app_nil_r|]. intros [Ho Hx]%Forall_app. rewrite Forall_singleton in Hx.
    rewrite app_assoc, run_snoc. apply negotiated_kept; auto.
  Qed.
  (** A session's stream stays registered until the session is deleted. *)
  Lemma stream_kept s o sid : is_Some (sx_streams s !! sid) → (∀ h, o = HDelete h → h_session h ≠ Some sid) → is_Some (sx_streams (step s o).1 !! sid).
  Proof.
    intros Hs Hd. destruct o as [h body fresh|h fresh|i e1 e2|h|n eid|n]; cbn [h_step].
    - unfold post_start. destruct (validate_headers h Post); [done|]. destruct body as [m|]; [|done].
      assert (∀ s' : hserver, ∀ r : option text + Z, sx_streams s' = sx_streams s → is_Some (sx_streams (match r with
         | inl rsid => match (if is_init m then None else validate_protocol_version cf (h_session h) (h_version h) s') with
                        | Some z => (s', Some (refuse z)) | None => match m with MsgRequest id r => (wait (PPost (h_session h) rsid id r) s', None) | _ => (s', Some (MkResp 202 None None BNone)) end end
         | inr z => (s', Some (refuse z)) end).1 !! sid)) as W.
      { intros s' [rsid|z] H; [|cbn; by rewrite H]. destruct (if is_init m then None else _); [cbn; by rewrite H|]. destruct m; cbn; by rewrite H. }
      destruct (is_init m) eqn:Em; [|by apply (W s (validate_non_init_session cf (h_session h) s))]. destruct (process_init_session cf (h_session h) (h_version h) fresh s) as [s' r] eqn:E.
      apply W. unfold process_init_session in E. destruct (hc_stateful cf); [|by injection E as <- <-]. destruct (h_session h); [|by injection E as <- <-].
      destruct (sx_sessions s !! _) as [[[] ?]|]; by injection E as <- <-.
    - unfold get_start. destruct (validate_headers h Get); [done|].
      assert (∀ s' y, sx_streams s' = sx_streams s → is_Some (sx_streams (match sx_streams s' !! y with Some _ => (s', Some (refuse 409)) | None => (wait (PGet y (h_last h)) s', None) end).1 !! sid)) as W.
      { intros s' y H. destruct (sx_streams s' !! y); cbn; by rewrite H. }
      destruct (h_session h) as [y|].
      + destruct (hc_stateful cf); [|by apply W]. destruct (sx_sessions s !! y); [by apply W|done].
      + destruct (hc_stateful cf); [|done]. by apply W.
    - destruct (sx_pending s !! i) as [[hdr rsid id r|y last]|]; [| |done].
      + destruct (post_run_log cf answer hdr rsid id r e1 e2 (drop_pending i s)) as (_ & _ & Hq & _). destruct (post_run _ _ _ _ _ _ _ _ _) as [s' x]. cbn [fst] in *. by rewrite Hq.
      + cbn. apply insert_some. by right.
    - unfold delete_session. destruct (h_session h) as [y|] eqn:Ey; [|done]. destruct (_ && _); [done|]. cbn. rewrite lookup_delete_ne; [done|]. intros ->. by apply (Hd h).
    - unfold emit. destruct (sx_opened s !! n) as [[y [|m q] out []]|]; try done. by destruct (hc_store cf).
    - done.
  Qed.
  Lemma stream_run os os' sid : is_Some (sx_streams (run os) !! sid) → Forall (λ o, ∀ h, o = HDelete h → h_session h ≠ Some sid) os' → is_Some (sx_streams (run (os ++ os')) !! sid).
  Proof.
    intros Hn. induction os' as [|o os' IH] using rev_ind; [by rewrite app_nil_r|]. intros [Ho Hx]%Forall_app. rewrite Forall_singleton in Hx.
    rewrite app_assoc, run_snoc. apply stream_kept; auto.
  Qed.
  Lemma conflict s h f sid : sse_get h → h_session h = Some sid → is_Some (sx_streams s !! sid) → ∃ z, step s (HGet h f) = (s, Some (refuse z)) ∧ (z = 409%Z ∨ z = 404%Z).
  Proof.
    intros Hh Hs [n Hn]. cbn [h_step]. unfold get_start. apply get_headers in Hh. rewrite Hh, Hs. 
    destruct (hc_stateful cf); [destruct (sx_sessions s !! sid)|]; try (rewrite Hn); eauto.
  Qed.
End kept.
