(** C29 - C33: cancellation, subscriptions, roots, elicitation. *)
From stdpp Require Import gmap strings list.
From Verif Require Import ManagersModel ManagersSpec ManagersProofs.

(** ** C29: cancelling cancels exactly the request's token *)
(** The manager hands out the token that the history registered for a request. *)
Theorem C29_token : ∀ h id, get_token (k_run h) id = registered id h.
Proof. intros h id. apply (proj2 (tokens_registered h)). Qed.
Print Assumptions C29_token.
(** A token is cancelled – or about to be, by a call of cancel_request under way – iff such a call
    found it registered, clear found it registered, or a holder cancelled it. *)
Theorem C29_exact : ∀ h t, t ∈ k_cancelled (k_run h) ∨ t ∈ (k_taken (k_run h)).*1 ↔
  t ∈ (cancellations [] h).*1 ∨ (∃ h1 h2 id, h = h1 ++ KClear :: h2 ∧ registered id h1 = Some t) ∨ KOwn t ∈ h.
Proof. intros h t. apply (proj2 (in_flight h)). Qed.
Print Assumptions C29_exact.
(** One notification per call that found a token, and no token is found twice. *)
Theorem C29_once : ∀ h, k_sent (k_run h) ++ (k_taken (k_run h)).*2 ≡ₚ (cancellations [] h).*2 ∧ NoDup (cancellations [] h).*1.
Proof. intros h. split; [apply (proj1 (in_flight h))|by destruct (cancellations_old h) as (_ & _ & ?)]. Qed.
Print Assumptions C29_once.
(** A call under way completes whatever else happens: it cancels its token and sends its notification. *)
Theorem C29_completes : ∀ s i t n, k_taken s !! i = Some (t, n) →
  t ∈ k_cancelled (k_step s (KAct i)) ∧ k_sent (k_step s (KAct i)) = k_sent s ++ [n] ∧
  (∀ t', t' ∈ k_cancelled (k_step s (KAct i)) → t' = t ∨ t' ∈ k_cancelled s).
Proof. intros s i t n E. cbn. rewrite E. cbn. set_solver. Qed.
Print Assumptions C29_completes.
Example C29_example :
  let h := [KCreate "a"; KCreate "b"; KTake "a" None; KCreate "a"; KAct 0; KTake "c" None; KTake "b" (Some "slow"); KAct 0] in
  cancellations [] h = [(0, ("a", "Cancelled by server")); (1, ("b", "slow"))] ∧ k_sent (k_run h) = [("a", "Cancelled by server"); ("b", "slow")] ∧
  elements (k_cancelled (k_run h)) = [0; 1] ∧ get_token (k_run h) "a" = Some 2.
Proof. by vm_compute. Qed.

(** ** C30: is_cancelled *)
(** The token itself stays cancelled for ever, so its holder sees the cancellation … *)
Theorem C30_token_partial : ∀ s t os, t ∈ k_cancelled s → t ∈ k_cancelled (fold_left k_step os s).
Proof. intros s t os. revert s. induction os as [|o os IH]; intros s Ht; [done|]. cbn. by apply IH, k_step_monotone. Qed.
Print Assumptions C30_token_partial.
(** … but is_cancelled never reports it: unless a holder cancels a token itself, is_cancelled is
    false for every request after every history. *)
Theorem C30_report_refuted : ∀ h id, (∀ t, KOwn t ∉ h) → is_cancelled (k_run h) id = false.
Proof.
  intros h id Hown. unfold is_cancelled. rewrite (proj2 (tokens_registered h)). destruct (registered id h) as [t|] eqn:E; [|done].
  apply bool_decide_eq_false. intros Ht. by destruct (cancelled_created h t (or_introl Ht) Hown) as [_ Hn]; apply Hn in E.
Qed.
Print Assumptions C30_report_refuted.
(** What it does report: the registered token was cancelled by a holder. *)
Theorem C30_holder_partial : ∀ h id, is_cancelled (k_run h) id = true ↔ ∃ t, registered id h = Some t ∧ t ∈ k_cancelled (k_run h).
Proof.
  intros h id. unfold is_cancelled. rewrite (proj2 (tokens_registered h)). destruct (registered id h) as [t|].
  - rewrite bool_decide_eq_true. naive_solver.
  - naive_solver.
Qed.
Print Assumptions C30_holder_partial.
Example C30_example :
  let h := [KCreate "a"; KTake "a" None; KAct 0] in
  0 ∈ k_cancelled (k_run h) ∧ is_cancelled (k_run h) "a" = false ∧ is_cancelled (k_run [KCreate "a"; KOwn 0]) "a" = true.
Proof. by vm_compute. Qed.

(** ** C31: subscriptions are a relation *)
Theorem C31_queries : ∀ h u c,
  (c ∈ get_subscribers (s_run h) u ↔ (u, c) ∈ pairs h) ∧ NoDup (get_subscribers (s_run h) u) ∧
  (u ∈ get_subscriptions (s_run h) c ↔ (u, c) ∈ pairs h) ∧ NoDup (get_subscriptions (s_run h) c) ∧
  (has_subscribers (s_run h) u = true ↔ ∃ c, (u, c) ∈ pairs h).
Proof.
  intros h u c. destruct (represents_run h) as [Hne Hin]. set (s := s_run h) in *. clearbody s.
  split; [|split; [|split; [|split]]].
  - rewrite <-Hin. unfold get_subscribers. destruct (s !! u); cbn; [by rewrite elem_of_elements|]. set_solver.
  - unfold get_subscribers. destruct (s !! u); cbn; [apply NoDup_elements|constructor].
  - rewrite <-Hin. unfold get_subscriptions. rewrite elem_of_list_fmap. split.
    + intros ([u' cs] & -> & Hf). apply elem_of_list_filter in Hf as [Hc Hl]. apply elem_of_map_to_list in Hl. cbn. by rewrite Hl.
    + destruct (s !! u) as [cs|] eqn:E; cbn; [|set_solver]. intros Hc. exists (u, cs). split; [done|]. apply elem_of_list_filter. split; [done|]. by apply elem_of_map_to_list.
  - unfold get_subscriptions. apply NoDup_fmap_fst; [|apply NoDup_filter, NoDup_map_to_list]. intros x y1 y2 [_ H1]%elem_of_list_filter [_ H2]%elem_of_list_filter.
    apply elem_of_map_to_list in H1, H2. congruence.
  - unfold has_subscribers. setoid_rewrite <-Hin. destruct (s !! u) as [cs|] eqn:E; cbn; [|set_solver].
    rewrite negb_true_iff, bool_decide_eq_false. split; [|intros [? ?]; set_solver]. intros _. apply set_choose_L. by eapply Hne.
Qed.
Print Assumptions C31_queries.
(** An update is announced once iff somebody subscribes, and the count is the number of subscribers. *)
Theorem C31_notify : ∀ h u, let n := size (filter (λ x, x.1 = u) (pairs h)) in
  notify_updated (s_run h) u = (if decide (n = 0) then [] else [u], n).
Proof.
  intros h u n. unfold n. rewrite <-(count_subscribers _ _ u (represents_run h)). unfold notify_updated. destruct (s_run h !! u) as [cs|] eqn:E; cbn [default id]; [|done].
  case_bool_decide; destruct (decide (size cs = 0)); try done; try lia. by replace (size cs) with 0 by lia.
Qed.
Print Assumptions C31_notify.
(** The statistics count the relation. *)
Theorem C31_stats : ∀ h, stat_subscriptions (s_run h) = size (pairs h) ∧ stat_resources (s_run h) = size (set_map fst (pairs h) : gset string) ∧
  stat_subscribers (s_run h) = size (set_map snd (pairs h) : gset string).
Proof.
  intros h. pose proof (represents_run h) as Hr. split; [symmetry; by apply pairs_list|]. split; [by apply resources_count|by apply subscribers_count].
Qed.
Print Assumptions C31_stats.
Example C31_example :
  let h := [SSub "f" "x"; SSub "f" "y"; SSub "g" "x"; SSub "f" "x"; SUnsub "f" "z"; SGone "y"] in
  elements (pairs h) = [("f", "x"); ("g", "x")] ∧ notify_updated (s_run h) "f" = (["f"], 1) ∧ notify_updated (s_run h) "h" = ([], 0) ∧
  stat_subscriptions (s_run h) = 2 ∧ stat_subscribers (s_run h) = 1.
Proof. by vm_compute. Qed.

(** ** C32: roots *)
(** Registration succeeds exactly for file:// URIs and appends; otherwise nothing changes. *)
Theorem C32_register : ∀ h uri name, ((r_step (r_run h) (RRegister uri name)).2 = true ↔ acceptable uri) ∧
  (acceptable uri → r_roots (r_run (h ++ [RRegister uri name])) = r_roots (r_run h) ++ [MkRoot uri name]) ∧
  (¬ acceptable uri → r_run (h ++ [RRegister uri name]) = r_run h).
Proof.
  intros h uri name. rewrite r_run_snoc. rewrite <-prefix_acceptable. cbn [r_step]. unfold file_scheme.
  destruct (String.prefix "file://" uri); cbn; naive_solver.
Qed.
Print Assumptions C32_register.
(** The URIs listed are those of the registrations still standing, and each change was announced
    exactly once. *)
Theorem C32_uris_partial : ∀ h, root_uri <$> r_roots (r_run h) ≡ₚ (root_uri ∘ snd <$> standing h) ∧ r_sent (r_run h) = changes [] h.
Proof. intros h. pose proof (rinv_run h) as Hr. split; [apply (ri_uris _ _ Hr)|apply (ri_sent _ _ Hr)]. Qed.
Print Assumptions C32_uris_partial.
(** While standing registrations have distinct URIs, the roots are exactly those registrations, in
    order: each unregister function removes its own. *)
Theorem C32_distinct_partial : ∀ h, distinct_roots h → r_roots (r_run h) = (standing h).*2.
Proof. exact roots_distinct. Qed.
Print Assumptions C32_distinct_partial.
(** With one URI registered under two names, the second unregister function removes the first
    registration. *)
Theorem C32_twin_refuted : ∀ uri n1 n2, acceptable uri → r_roots (r_run [RRegister uri n1; RRegister uri n2; RUnregister 1]) = [MkRoot uri n2].
Proof.
  intros uri n1 n2 Ha. apply prefix_acceptable in Ha. unfold r_run. cbn [fold_left r_step]. unfold file_scheme. rewrite Ha. cbn [fst roots_new r_roots r_closures r_sent app].
  cbn. rewrite decide_True by done. done.
Qed.
Print Assumptions C32_twin_refuted.
Example C32_example :
  let h := [RRegister "file:///a" None; RRegister "http://b" None; RRegister "file:///c" (Some "c"); RUnregister 0; RUnregister 0] in
  distinct_roots [RRegister "file:///a" None; RRegister "file:///c" None] ∧ r_roots (r_run h) = [MkRoot "file:///c" (Some "c")] ∧ r_sent (r_run h) = 3.
Proof.
  split; [|by vm_compute]. intros h1 h2 Heq. destruct h1 as [|? [|? [|]]]; cbn in Heq; simplify_eq; apply (bool_decide_unpack _); by vm_compute.
Qed.

(** ** C33: elicitation *)
(** A call that ends with an answer gets one for its own identifier, and a response it gets was
    really sent. *)
Theorem C33_own : ∀ h w c a, e_callers (e_run h) !! w = Some c → c_place c = Ended (Answered a) →
  asked h !! w = Some (answer_id a) ∧ ∀ id n, a = Response id n → answers h !! n = Some id.
Proof.
  intros h w c a Hc Hp. destruct (ei_ok _ _ _ (einv_run h) _ _ Hc) as (Hq & Hb & He & _). destruct (Hb a (He a Hp)) as [Hi Hn]. by rewrite <-Hi.
Qed.
Print Assumptions C33_own.
(** No response is consumed by two calls. *)
Theorem C33_once : ∀ h w1 w2 c1 c2 id n, e_callers (e_run h) !! w1 = Some c1 → e_callers (e_run h) !! w2 = Some c2 →
  c_place c1 = Ended (Answered (Response id n)) → c_place c2 = Ended (Answered (Response id n)) → w1 = w2.
Proof.
  intros h w1 w2 c1 c2 id n Hc1 Hc2 Hp1 Hp2. pose proof (einv_run h) as Hi.
  destruct (ei_ok _ _ _ Hi _ _ Hc1) as (_ & _ & He1 & _). destruct (ei_ok _ _ _ Hi _ _ Hc2) as (_ & _ & He2 & _).
  eapply (ei_one _ _ _ Hi); eauto.
Qed.
Print Assumptions C33_once.
(** Once every call has ended no entry is left. *)
Theorem C33_clean : ∀ h, (∀ w c, e_callers (e_run h) !! w = Some c → ∃ o, c_place c = Ended o) → pending_count (e_run h) = 0.
Proof.
  intros h Hall. unfold pending_count. apply map_size_empty_iff. apply map_empty. intros id. destruct (e_pending (e_run h) !! id) as [w|] eqn:E; [|done].
  destruct (ei_pend _ _ _ (einv_run h) _ _ E) as (c & Hc & _ & _ & Hn). destruct Hn. by eapply Hall.
Qed.
Print Assumptions C33_clean.
(** A response or cancellation for an identifier none of whose calls is still under way is refused and
    touches no call. *)
Theorem C33_refused : ∀ h id o, (∀ w c, e_callers (e_run h) !! w = Some c → c_id c = id → ∃ o, c_place c = Ended o) → o = ERespond id ∨ o = ECancel id →
  (e_step (e_run h) o).2 = false ∧ e_callers (e_step (e_run h) o).1 = e_callers (e_run h) ∧ e_pending (e_step (e_run h) o).1 = e_pending (e_run h).
Proof.
  intros h id o Hall Ho. assert (e_pending (e_run h) !! id = None) as E.
  { destruct (e_pending (e_run h) !! id) as [w|] eqn:E; [|done]. destruct (ei_pend _ _ _ (einv_run h) _ _ E) as (c & Hc & Hid & _ & Hn). destruct Hn. by eapply Hall. }
  destruct Ho as [->| ->]; cbn; by rewrite E.
Qed.
Print Assumptions C33_refused.
(** A call's own step counts exactly if it moves the call. *)
Theorem C33_moves : ∀ s w o, o ∈ [ESend w true; ESend w false; EFail w; EWake w; EExpire w; ETimeout w; EAbandon w] →
  (e_step s o).2 = true ↔ place_of (e_step s o).1 w ≠ place_of s w.
Proof.
  intros s w o Ho. assert (∀ id : string, c_place <$> drop_sender id s !! w = place_of s w) as Hd.
  { intros id. unfold drop_sender, place_of. destruct (e_pending s !! id) as [w'|]; [|done]. destruct (decide (w = w')) as [->|]; [|by rewrite lookup_alter_ne]. rewrite lookup_alter. by destruct (e_callers s !! w'). }
  assert (∀ (m : gmap nat caller) p, c_place <$> m !! w = place_of s w → is_Some (place_of s w) → c_place <$> alter (set_place p) w m !! w = Some p) as Ha.
  { intros m p E [q Hq]. rewrite lookup_alter. rewrite Hq in E. by destruct (m !! w). }
  repeat (apply elem_of_cons in Ho as [->|Ho]); [..|by apply elem_of_nil in Ho]; cbn [e_step].
  1,2,7: destruct (place_of s w) as [[]|] eqn:Ep; cbn [fst snd]; (split; intros H); try done; try (by destruct H);
    unfold place_of; cbn [e_callers]; rewrite Ha; try (by eauto); try (by rewrite <-Ep); fold (place_of s w); rewrite Ep; congruence.
  all: unfold place_of in Hd, Ha; destruct (e_callers s !! w) as [[id sl pl]|] eqn:Ec; cbn [fst snd] in *.
  2,4,6,8: split; [done|intros H; by destruct H].
  all: destruct pl; try destruct sl; cbn [fst snd]; (split; [intros ?|intros H]); try done; try (by destruct H); unfold place_of; cbn [e_callers]; rewrite Ec, Ha; try (by eauto); try (by rewrite ?Hd, ?Ec); done.
Qed.
Print Assumptions C33_moves.
(** A waiting call can always end by its own next steps, whatever the others do. *)
Theorem C33_ends : ∀ s w c, e_callers s !! w = Some c → c_place c = Waiting →
  ∃ os o, (∀ x, x ∈ os → x = EWake w ∨ x = EExpire w ∨ x = ETimeout w) ∧ place_of (fold_left (λ s o, (e_step s o).1) os s) w = Some (Ended o).
Proof.
  intros s w [id sl pl] Hc Hp. cbn in Hp. subst pl. destruct sl as [|a|].
  - exists [EExpire w; ETimeout w], TimedOut. split; [intros x Hx; apply elem_of_cons in Hx as [->|Hx]; [eauto|apply elem_of_list_singleton in Hx; eauto]|].
    cbn [fold_left e_step]. rewrite Hc. cbn [fst e_callers]. rewrite lookup_alter, Hc. cbn. unfold place_of. cbn. rewrite lookup_alter. unfold drop_sender. cbn.
    destruct (e_pending s !! id) as [w'|]; [|by rewrite lookup_alter, Hc]. destruct (decide (w' = w)) as [->|]; [rewrite !lookup_alter, Hc; done|].
    by rewrite lookup_alter_ne, lookup_alter, Hc by done.
  - exists [EWake w], (Answered a). split; [intros x Hx; apply elem_of_list_singleton in Hx; eauto|]. cbn. rewrite Hc. unfold place_of. cbn. by rewrite lookup_alter, Hc.
  - exists [EWake w], ChannelClosed. split; [intros x Hx; apply elem_of_list_singleton in Hx; eauto|]. cbn. rewrite Hc. unfold place_of. cbn. by rewrite lookup_alter, Hc.
Qed.
Print Assumptions C33_ends.
(** A waiting call that has received nothing is reached by the next response to its identifier. *)
Theorem C33_reached : ∀ h w c, e_callers (e_run h) !! w = Some c → c_place c = Waiting → c_slot c = Empty →
  (e_step (e_run h) (ERespond (c_id c))).2 = true ∧
  place_of (e_run (h ++ [ERespond (c_id c); EWake w])) w = Some (Ended (Answered (Response (c_id c) (length (answers h))))).
Proof.
  intros h w [id sl pl] Hc Hp Hs. cbn in Hp, Hs. subst sl pl. pose proof (einv_run h) as Hi. pose proof (ei_empty _ _ _ Hi _ _ Hc eq_refl) as Hpe. cbn [c_id] in *.
  split; [cbn; by rewrite Hpe|].
  unfold e_run. rewrite fold_left_app. fold (e_run h). cbn [fold_left]. cbn [e_step]. rewrite Hpe. cbn [fst e_callers]. rewrite lookup_alter, Hc. cbn.
  unfold place_of. cbn. rewrite !lookup_alter, Hc. cbn. by rewrite (ei_resp _ _ _ Hi).
Qed.
Print Assumptions C33_reached.
(** If no call reuses the identifier of an unfinished one, none ends with a closed channel, and a
    waiting call has either its answer or its sender. *)
Theorem C33_exclusive : ∀ h w c, exclusive h → e_callers (e_run h) !! w = Some c →
  c_place c ≠ Ended ChannelClosed ∧ (c_place c = Waiting → c_slot c = Empty ∨ ∃ a, c_slot c = Filled a).
Proof.
  intros h w c He Hc. destruct (xi_steady _ (xinv_run h He) _ _ Hc) as [H1 H2]. split; [done|]. intros Hw. destruct (c_slot c) eqn:E; eauto. by destruct (H1 (or_intror Hw)).
Qed.
Print Assumptions C33_exclusive.
(** A caller that drops its future leaves its entry behind. *)
Theorem C33_abandoned_leaks : ∀ h w id, e_pending (e_run h) !! id = Some w → e_pending (e_run (h ++ [EAbandon w])) !! id = Some w.
Proof.
  intros h w id Hp. rewrite e_run_snoc. cbn. unfold place_of. destruct (e_callers (e_run h) !! w) as [c|]; cbn; [|done]. by destruct (c_place c).
Qed.
Print Assumptions C33_abandoned_leaks.
(** With a reused identifier, the timeout of the older call takes the entry of the newer one: its
    response is refused and it ends with a closed channel. *)
Theorem C33_reuse_interferes : ∀ h w1 w2 id c1 c2, e_callers (e_run h) !! w1 = Some c1 → c_id c1 = id → c_place c1 = Expired →
  e_pending (e_run h) !! id = Some w2 → e_callers (e_run h) !! w2 = Some c2 → c_place c2 = Waiting →
  (e_step (e_run (h ++ [ETimeout w1])) (ERespond id)).2 = false ∧
  place_of (e_run (h ++ [ETimeout w1; ERespond id; EWake w2])) w2 = Some (Ended ChannelClosed).
Proof.
  intros h w1 w2 id [id1 sl1 pl1] [id2 sl2 pl2] Hc1 Hid Hp1 Hpe Hc2 Hp2. cbn in *. subst id1 pl1 pl2.
  assert (Hne : w1 ≠ w2) by (intros ->; congruence).
  assert (e_run (h ++ [ETimeout w1]) = (e_step (e_run h) (ETimeout w1)).1) as E1 by apply e_run_snoc.
  assert (e_run (h ++ [ETimeout w1; ERespond id; EWake w2]) = (e_step (e_step (e_run (h ++ [ETimeout w1])) (ERespond id)).1 (EWake w2)).1) as ->.
  { unfold e_run. rewrite !fold_left_app. done. }
  rewrite E1. cbn [e_step]. rewrite Hc1. cbn [fst e_pending e_callers]. rewrite lookup_delete. split; [done|]. cbn [fst e_callers].
  unfold drop_sender. rewrite Hpe. rewrite lookup_alter_ne by done. rewrite lookup_alter, Hc2. cbn. unfold place_of. cbn.
  rewrite lookup_alter, lookup_alter_ne by done. rewrite lookup_alter, Hc2. done.
Qed.
Print Assumptions C33_reuse_interferes.
Example C33_example :
  let h := [EStart "a"; ESend 0 true; EStart "b"; ESend 1 true; ERespond "b"; EWake 1; EExpire 0; ETimeout 0] in
  place_of (e_run h) 1 = Some (Ended (Answered (Response "b" 0))) ∧ place_of (e_run h) 0 = Some (Ended TimedOut) ∧ pending_count (e_run h) = 0.
Proof. by vm_compute. Qed.
(** The reuse of an identifier is possible. *)
Example C33_example_reuse :
  let h := [EStart "a"; ESend 0 true; EExpire 0; EStart "a"; ESend 1 true] in
  place_of (e_run h) 0 = Some Expired ∧ e_pending (e_run h) !! "a" = Some 1 ∧ place_of (e_run h) 1 = Some Waiting.
Proof. by vm_compute. Qed.
