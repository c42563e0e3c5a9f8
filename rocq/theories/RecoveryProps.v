(** C23, C24, C25, C82: circuit breakers, retries and strategies. *)
From stdpp Require Import gmap strings list.
From Verif Require Import RecoveryModel RecoverySpec RecoveryProofs.
Local Open Scope Z_scope.

(** ** C23: an open breaker stops calls *)
(** The executor asks the breaker only after the operation was called and failed; then, while the
    breaker is open and its timeout has not elapsed, it does not call it again. *)
Theorem C23_guarded_partial : ∀ op clock x id b t e f s to,
  op 0%nat = Fail e → get_strategy (x_policy x) (default (-32603) (e_code e)) = Breaker f s to →
  x_breakers x !! id = Some b → b_state b = Open → b_last b = Some t → clock 0%nat - t < c_timeout (b_config b) →
  execute op clock x id = (Returned (Fail open_error), 1%nat, [], with_breakers x (<[id := b]> (x_breakers x))).
Proof. exact guarded_open. Qed.
Print Assumptions C23_guarded_partial.
(** Whatever the breaker's state, every execution invokes the operation at least once … *)
Theorem C23_invoked_refuted : ∀ op clock x id, (1 ≤ (execute op clock x id).1.1.2)%nat.
Proof. exact execute_calls. Qed.
Print Assumptions C23_invoked_refuted.
(** … and a success closes an open breaker at once, before its timeout. *)
Theorem C23_success_refuted : ∀ op clock x id b v, op 0%nat = Done v → x_breakers x !! id = Some b → b_state b = Open →
  ∃ b', x_breakers (execute op clock x id).2 !! id = Some b' ∧ b_state b' = Closed.
Proof.
  intros op clock x id b v Ho Hb Hs. unfold execute. rewrite Ho, Hb. cbn. rewrite lookup_insert. eexists. split; [done|].
  unfold record_success. by rewrite Hs.
Qed.
Print Assumptions C23_success_refuted.
Example C23_example :
  let x := MkExecutor (policy_new (Breaker 1 1 100)) ∅ {[ "a" := MkBreaker Open 1 0 (Some 50) (MkConfig 1 1 100) ]} in
  (execute (λ _, Fail (err_internal "e")) (λ i, 60 + Z.of_nat i) x "a").1 = (Returned (Fail open_error), 1%nat, []) ∧
  (execute (λ _, Fail (err_internal "e")) (λ i, 150 + Z.of_nat i) x "a").1 = (Returned (Fail (err_internal "e")), 2%nat, []).
Proof. by vm_compute. Qed.

(** ** C24: the breaker's contract *)
(** As long as fewer than failure_threshold failures have followed the last success, everything is
    let through. *)
Theorem C24_closed_partial : ∀ c h, below (c_failures c) h → all_allowed (brun (breaker_new c) h).1.
Proof. intros c h H. by apply (below_run c h 0 (breaker_new c) (new_closed c)). Qed.
Print Assumptions C24_closed_partial.
(** The failure that reaches the threshold opens it: nothing is let through until the timeout has
    passed since the last failure. *)
Theorem C24_opens_partial : ∀ c h now h2, below (c_failures c) h → S (failures_since 0 h) = Nat.max 1 (c_failures c) →
  waiting (c_timeout c) now h2 → none_allowed (brun (brun (breaker_new c) (h ++ [Failure now])).2 h2).1.
Proof. intros c h now h2 H1 H2 H3. eapply waiting_run; [by apply opens|done]. Qed.
Print Assumptions C24_opens_partial.
(** The same from every reachable open state … *)
Theorem C24_open_partial : ∀ c h h2, b_state (brun (breaker_new c) h).2 = Open →
  (∀ t, last_failure None h = Some t → waiting (c_timeout c) t h2) →
  none_allowed (brun (brun (breaker_new c) h).2 h2).1.
Proof. exact open_blocks. Qed.
Print Assumptions C24_open_partial.
(** … and after the timeout trial calls are let through; a trial failure opens it again and
    success_threshold trial successes make it like new. *)
Theorem C24_trial_partial : ∀ c h now n h3, b_state (brun (breaker_new c) h).2 = Open →
  (∀ t, last_failure None h = Some t → c_timeout c ≤ now - t) → trial n h3 → (n < Nat.max 1 (c_successes c))%nat →
  let b := (brun (breaker_new c) h).2 in
  let b' := (brun b (Allow now :: h3)).2 in
  all_allowed (brun b (Allow now :: h3)).1 ∧
  (∀ now2 h4, waiting (c_timeout c) now2 h4 → none_allowed (brun b' (Failure now2 :: h4)).1) ∧
  (S n = Nat.max 1 (c_successes c) → like_new c (brun b' [Success]).2).
Proof. exact open_then_trial. Qed.
Print Assumptions C24_trial_partial.
(** A success reported while it is open closes it without any timeout or trial. *)
Theorem C24_late_success_refuted : ∀ c h, b_state (brun (breaker_new c) h).2 = Open →
  like_new c (brun (brun (breaker_new c) h).2 [Success]).2.
Proof.
  intros c h Ho. apply open_last in Ho as (t & _ & Hs & _ & Hc). intros h'. apply similar_run, closed_similar. cbn.
  unfold record_success. rewrite Hs. cbn. rewrite Hc. done.
Qed.
Print Assumptions C24_late_success_refuted.
(** The state is read and acted upon under different locks: a trial success that overlaps a trial
    failure closes the breaker although the trial failed. *)
Theorem C24_race_refuted : ∀ b now, b_state b = HalfOpen → (c_successes (b_config b) ≤ S (b_successes b))%nat →
  b_state (record_failure now b) = Open ∧ b_state (success_act HalfOpen (record_failure now b)) = Closed.
Proof.
  intros b now Hs Hn. unfold record_failure. rewrite Hs. cbn. split; [done|]. by rewrite bool_decide_eq_true_2.
Qed.
Print Assumptions C24_race_refuted.
Example C24_example :
  let c := MkConfig 2 2 100 in
  let h := [Failure 1; Success; Failure 2; Allow 3] in
  below 2 h ∧ S (failures_since 0 h) = Nat.max 1 (c_failures c) ∧ waiting 100 5 [Allow 50; Failure 60; Allow 150] ∧
  b_state (brun (breaker_new c) (h ++ [Failure 5])).2 = Open ∧ trial 1 [Allow 7; Success] ∧
  (brun (breaker_new c) [Failure 1; Failure 2; Allow 50; Allow 102; Success; Allow 103; Success; Failure 104; Allow 105]).1
  = [None; None; Some false; Some true; None; Some true; None; None; Some true].
Proof.
  cbn zeta. split; [|split; [done|split; [|done]]].
  - intros h1 h2 He. destruct h1 as [|? [|? [|? [|? [|]]]]]; simplify_eq/=; lia.
  - repeat constructor; lia.
Qed.

(** ** C25: retries *)
(** Fixed delay: one call and at most [a] retries, stopping at the first success, [d] between them. *)
Theorem C25_fixed : ∀ op clock x id a d,
  (∀ e, op 0%nat = Fail e → get_strategy (x_policy x) (default (-32603) (e_code e)) = RetryFixed a d) →
  ∃ r n x', execute op clock x id = (Returned r, n, replicate (n - 1) d, x') ∧ tried op (1 + a) n r.
Proof. exact execute_fixed. Qed.
Print Assumptions C25_fixed.
(** Exponential back-off with a non-negative multiplier: the k-th wait is the initial delay
    multiplied and capped k times, so every wait but the first is at most the maximum. *)
Theorem C25_exponential_partial : ∀ op clock x id a i m f, 0 ≤ i → 0 ≤ m → (∀ d, 0 ≤ d → 0 ≤ f d) →
  (∀ e, op 0%nat = Fail e → get_strategy (x_policy x) (default (-32603) (e_code e)) = RetryExponential a i m f) →
  ∃ r n x' w, execute op clock x id = (Returned r, n, w, x') ∧ tried op (1 + a) n r ∧ length w = (n - 1)%nat ∧
    (∀ k, (k < n - 1)%nat → w !! k = Some (Nat.iter k (λ d, Z.min (f d) m) i)) ∧ (∀ d, d ∈ tail w → d ≤ m).
Proof.
  intros op clock x id a i m f Hi Hm Hf Hs. destruct (execute_exponential op clock x id a i m f Hi Hm Hf Hs) as (r & n & x' & He & Ht).
  exists r, n, x', (geometric f m i (n - 1)). split; [done|]. split; [done|]. split; [|split].
  - clear. generalize (n - 1)%nat as k. intros k. revert i. induction k as [|k IH]; intros i; cbn; [done|]. by rewrite IH.
  - intros k Hk. by apply geometric_nth.
  - intros d. apply geometric_capped.
Qed.
Print Assumptions C25_exponential_partial.
(** The first wait is not capped … *)
Theorem C25_first_wait_refuted : ∀ op clock x id a i m f e, op 0%nat = Fail e →
  get_strategy (x_policy x) (default (-32603) (e_code e)) = RetryExponential (S a) i m f →
  head (execute op clock x id).1.2 = Some i.
Proof.
  intros op clock x id a i m f e Ho Hs. unfold execute, internal_error. rewrite Ho, Hs. unfold retry_exponential. cbn [retry_loop].
  destruct (op 1%nat); [done|]. destruct (exp_next m f i); [|done]. by destruct (retry_loop _ _ _ _ _ _) as [[??]?].
Qed.
Print Assumptions C25_first_wait_refuted.
(** … and a negative multiplier makes the executor panic at the first failed retry. *)
Theorem C25_negative_refuted : ∀ op clock x id a i m f e e', op 0%nat = Fail e → op 1%nat = Fail e' → f i < 0 →
  get_strategy (x_policy x) (default (-32603) (e_code e)) = RetryExponential (S a) i m f →
  (execute op clock x id).1.1.1 = Panicked.
Proof.
  intros op clock x id a i m f e e' Ho Ho1 Hf Hs. unfold execute, internal_error. rewrite Ho, Hs. unfold retry_exponential. cbn [retry_loop].
  rewrite Ho1. unfold exp_next. by rewrite bool_decide_eq_true_2 by lia.
Qed.
Print Assumptions C25_negative_refuted.
(** with_retry makes at most [a] calls. *)
Theorem C25_with_retry : ∀ op a d, (0 < a)%nat → ∃ r n, with_retry op a d = (r, n, replicate (n - 1) d) ∧ tried op a n r.
Proof. exact with_retry_spec. Qed.
Print Assumptions C25_with_retry.
Example C25_example :
  let op i := if bool_decide (i < 3)%nat then Fail (err_internal "down") else Done 7 in
  (execute op (λ _, 0) (MkExecutor policy_default ∅ ∅) "a").1 = (Returned (Done 7), 4%nat, [100 * ms; 200 * ms; 400 * ms]) ∧
  with_retry op 2 5 = (Fail (err_internal "down"), 2%nat, [5]) ∧ with_retry op 0 5 = (Fail (err_internal "No attempts made"), 0%nat, []).
Proof. by vm_compute. Qed.

(** ** C82: the configured strategy is the one applied *)
(** The strategy last added for a code applies to it, other codes keep theirs, and codes without
    one get the default. *)
Theorem C82_lookup : ∀ l d c, get_strategy (foldr (λ cs, add_strategy cs.1 cs.2) (policy_new d) l) c =
  match list_find (λ cs, cs.1 = c) l with Some (_, cs) => cs.2 | None => d end.
Proof.
  intros l d c. induction l as [|[c' s] l IH]; [done|]. cbn [foldr list_find]. unfold get_strategy. cbn [add_strategy p_strategies fst snd].
  destruct (decide (c' = c)) as [->|Hne]; [by rewrite lookup_insert|]. rewrite lookup_insert_ne by done.
  unfold get_strategy in IH. rewrite <-IH || (etrans; [exact IH|]). by destruct (list_find _ l) as [[? ?]|].
Qed.
Print Assumptions C82_lookup.
(** Without recovery the error comes back after one call; with a fallback the result is that of the
    handler registered for the operation, given the error's text. *)
Theorem C82_applied : ∀ op clock x id e, op 0%nat = Fail e →
  (get_strategy (x_policy x) (default (-32603) (e_code e)) = FailFast →
   execute op clock x id = (Returned (Fail e), 1%nat, [], x)) ∧
  (∀ h, get_strategy (x_policy x) (default (-32603) (e_code e)) = Fallback → x_handlers x !! id = Some h →
   execute op clock x id = (Returned (h (e_text e)), 1%nat, [], x)) ∧
  (get_strategy (x_policy x) (default (-32603) (e_code e)) = Fallback → x_handlers x !! id = None →
   execute op clock x id = (Returned (Fail (err_internal (e_text e))), 1%nat, [], x)).
Proof.
  intros op clock x id e Ho. unfold execute, internal_error. rewrite Ho. split; [by intros ->|]. split.
  - intros h -> Hh. unfold fallback. by rewrite Hh.
  - intros -> Hh. unfold fallback. by rewrite Hh.
Qed.
Print Assumptions C82_applied.
(** The default policy, for an operation that keeps failing in whatever ways: an invalid request is
    tried two more times at half-second intervals, an internal or uncoded error three more times with
    doubling waits, anything else not again; the last error comes back. *)
Theorem C82_default : ∀ op clock hs id (e : nat → err), (∀ i, op i = Fail (e i)) →
  let x := MkExecutor policy_default hs ∅ in
  execute op clock x id =
    match e_code (e 0%nat) with
    | Some (-32600) => (Returned (Fail (e 2%nat)), 3%nat, [500000000; 500000000], x)
    | Some (-32603) | None => (Returned (Fail (e 3%nat)), 4%nat, [100000000; 200000000; 400000000], x)
    | _ => (Returned (Fail (e 0%nat)), 1%nat, [], x)
    end.
Proof.
  intros op clock hs id e Ho x. unfold execute. rewrite (Ho 0%nat).
  destruct (e_code (e 0%nat)) as [c|]; cbn [default from_option]; unfold Datatypes.id in *.
  - destruct (decide (c = -32600)) as [->|H1]; [|destruct (decide (c = -32603)) as [->|H2]].
    + replace (get_strategy (x_policy x) (-32600)) with (RetryFixed 2 (500 * ms)) by (by vm_compute).
      unfold retry_fixed. cbn [retry_loop]. by rewrite (Ho 1%nat), (Ho 2%nat).
    + replace (get_strategy (x_policy x) (-32603)) with (RetryExponential 3 (100 * ms) (5000 * ms) (λ d, 2 * d)) by (by vm_compute).
      unfold retry_exponential. cbn [retry_loop]. by rewrite (Ho 1%nat), (Ho 2%nat), (Ho 3%nat).
    + replace (get_strategy (x_policy x) c) with FailFast.
      * repeat case_match; simplify_eq; done.
      * unfold get_strategy, x, policy_default. cbn [x_policy add_strategy p_strategies policy_new p_default].
        by rewrite !lookup_insert_ne, lookup_empty by (unfold invalid_request, internal_error; congruence).
  - replace (get_strategy (x_policy x) internal_error) with (RetryExponential 3 (100 * ms) (5000 * ms) (λ d, 2 * d)) by (by vm_compute).
    unfold retry_exponential. cbn [retry_loop]. by rewrite (Ho 1%nat), (Ho 2%nat), (Ho 3%nat).
Qed.
Print Assumptions C82_default.
Example C82_example :
  get_strategy policy_default (-32601) = FailFast ∧ get_strategy policy_default (-32600) = RetryFixed 2 (500 * ms) ∧
  (execute (λ _, Fail (MkErr (Some (-5)) "x")) (λ _, 0)
    (MkExecutor (add_strategy (-5) Fallback policy_default) {[ "a" := λ m, Fail (MkErr None (m +:+ "!")) ]} ∅) "a").1 = (Returned (Fail (MkErr None "x!")), 1%nat, []).
Proof. by vm_compute. Qed.

(** ** C189: an executor keeps one breaker for each operation, told of that operation's outcomes *)
(** Over any executions of any operations: whether the call is made again is what one new breaker,
    told of this operation's outcomes alone, answers. *)
Theorem C189_follows : ∀ c x l id, guards c x → x_breakers x !! id = None →
  let r := (executions x l).1 in
  let t := history id l (snd <$> r) in
  length r = length l ∧ (brun (breaker_new c) t.*1).1 = t.*2.
Proof.
  intros c x l id Hg Hx. cbn zeta. destruct (executions_told c id l x Hg) as (H1 & _ & H2). split; [done|]. unfold breaker_of in H1 at 1. rewrite Hx in H1. cbn [default] in H1.
  change (default (breaker_new c) None) with (breaker_new c) in H1. by rewrite H1.
Qed.
Print Assumptions C189_follows.
(** An execution returns the first success, the second call's outcome, or that the breaker is open. *)
Theorem C189_result : ∀ c x l, guards c x →
  Forall2 (λ e r, match ex_op e 0%nat with
                  | Done v => r = (Returned (Done v), 1%nat)
                  | Fail _ => r = (Returned (ex_op e 1%nat), 2%nat) ∨ r = (Returned (Fail open_error), 1%nat)
                  end) l (executions x l).1.
Proof.
  intros c x l. revert x. induction l as [|e l IH]; intros x Hg; [constructor|]. cbn [executions].
  pose proof (execute_answer c x e Hg) as Ha. destruct (execute_told c x e (ex_id e) Hg) as [Hg' _]. cbn zeta in Ha, Hg'. specialize (IH _ Hg').
  destruct (executions (execute (ex_op e) (ex_clock e) x (ex_id e)).2 l) as [rs x']. cbn [fst] in *. constructor; [|done].
  destruct (ex_op e 0%nat); [by rewrite Ha|]. rewrite Ha. case_match; [by left|by right].
Qed.
Print Assumptions C189_result.
(** So the failure threshold's worth of failing executions are all tried twice, and while the timeout
    since the last of them has not passed a further failing execution is not. *)
Theorem C189_trips : ∀ c x id l e e', guards c x → x_breakers x !! id = None →
  Forall (λ e, ex_id e = id ∧ failed (ex_op e 0%nat) ∧ failed (ex_op e 1%nat)) (l ++ [e]) → length (l ++ [e]) = Nat.max 1 (c_failures c) →
  ex_id e' = id → failed (ex_op e' 0%nat) → ex_clock e' 0%nat - ex_clock e 1%nat < c_timeout c →
  snd <$> (executions x ((l ++ [e]) ++ [e'])).1 = replicate (length (l ++ [e])) 2%nat ++ [1%nat] ∧
  last (executions x ((l ++ [e]) ++ [e'])).1 = Some (Returned (Fail open_error), 1%nat).
Proof.
  intros c x id l e e' Hg Hx Hl Hn He H0 Ht. destruct (failing_opens c id l e x Hg Hx Hl Hn) as (R & (Hs & Hlast & Hc) & Hg').
  rewrite executions_app. destruct (executions_told c id (l ++ [e]) x Hg) as (_ & _ & Hlen). cbn [fst executions].
  pose proof (execute_answer c (executions x (l ++ [e])).2 e' Hg') as Ha. cbn zeta in Ha. destruct (ex_op e' 0%nat) as [|e0] eqn:E0; [done|].
  assert ((allow_request (ex_clock e' 0%nat) (breaker_of c (executions x (l ++ [e])).2 (ex_id e'))).1 = false) as Hal.
  { rewrite He. unfold allow_request. rewrite Hs. cbn [allow_act]. rewrite Hlast, Hc. by rewrite bool_decide_eq_false_2 by lia. }
  rewrite Hal in Ha. rewrite Ha. cbn [fst snd]. split; [|by rewrite last_snoc].
  rewrite fmap_app. cbn [fmap list_fmap snd]. f_equal. rewrite <-Hlen. clear -R. induction R as [|[] rs Hr _ IH]; [done|]. cbn in *. by rewrite Hr, IH.
Qed.
Print Assumptions C189_trips.
Example C189_example :
  let x := MkExecutor (policy_new (Breaker 2 1 100)) ∅ ∅ in
  let bad id t := MkExecution id (λ _, Fail (err_internal "e")) (λ i, t + Z.of_nat i) in
  let good id := MkExecution id (λ _, Done 5) (λ i, 0) in
  guards (MkConfig 2 1 100) x ∧
  (executions x [bad "a" 1; bad "b" 2; bad "a" 3; bad "a" 50; bad "b" 60; good "b"; bad "a" 104; bad "a" 106]).1.*2 = [2; 2; 2; 1; 2; 1; 2; 1]%nat.
Proof. split; [done|by vm_compute]. Qed.
