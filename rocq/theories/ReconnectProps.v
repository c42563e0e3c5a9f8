(** C34, C35, C36, C83: reconnection and middleware chains. *)
From Coq Require Import QArith Qminmax Lqa.
From stdpp Require Import base numbers list.
From Verif Require Import ReconnectModel ReconnectSpec ReconnectProofs.

(** ** C34: delays stay within bounds *)
(** The delay is not negative, lies within the jitter share around the capped exponential delay, and
    so never exceeds max_delay plus its jitter share – up to f64 rounding, for every rounding. *)
Theorem C34_bounds_partial : ∀ rnd initial maxd pow jitter r d, rounding rnd → delay_input rnd initial maxd pow jitter r →
  calculate_delay rnd initial maxd pow jitter r = Some d →
  (0 <= d)%Q ∧ (d <= rnd (maxd + rnd (maxd * jitter)))%Q ∧
  (let c := match pow with Fin q => Qmin (rnd (initial * q)%Q) maxd | Inf | NaN => maxd end in (rnd (c + rnd (- rnd (c * jitter))) <= d)%Q ∧ (d <= rnd (c + rnd (c * jitter)))%Q).
Proof.
  intros rnd initial maxd pow jitter r d Hr Hin Hd. destruct (delay_bounds rnd Hr _ _ _ _ _ _ Hin Hd) as (H0 & H1 & H2 & H3).
  assert (∀ q, (if Qle_bool q maxd then q else maxd) = Qmin q maxd) as Hq.
  { intros q. unfold Qmin, GenericMinMax.gmin. destruct (Qle_bool q maxd) eqn:E; [apply Qle_bool_iff in E; apply Qle_alt in E|]; destruct (q ?= maxd)%Q eqn:E'; try done.
    all: exfalso; assert (q <= maxd)%Q as Hle by (apply Qle_alt; by rewrite E'); apply Qle_bool_iff in Hle; congruence. }
  assert (match pow with Fin q => Qmin (rnd (initial * q)%Q) maxd | Inf | NaN => maxd end = cap (times_pow rnd initial pow) maxd) as -> by (destruct pow; cbn; [by rewrite Hq|by destruct (Qeq_bool initial 0)|done]).
  split; [done|]. split; [|done]. destruct Hin as [_ _ _ _ Hj _]. eapply Qle_trans; [exact H2|]. apply (rnd_mono _ Hr).
  apply Qplus_le_compat; [done|]. apply (rnd_mono _ Hr). by apply Qmult_le_compat_r.
Qed.
Print Assumptions C34_bounds_partial.
(** Without jitter, and while the power does not overflow, it is min(initial * growth^n, max). *)
Theorem C34_plain_partial : ∀ rnd initial maxd q jitter r d, rounding rnd → delay_input rnd initial maxd (Fin q) jitter r → (jitter == 0)%Q →
  calculate_delay rnd initial maxd (Fin q) jitter r = Some d → (d == Qmin (rnd (initial * q)) maxd)%Q.
Proof.
  intros rnd initial maxd q jitter r d Hr Hin Hj Hd. rewrite (delay_plain rnd Hr _ _ _ _ _ _ Hin Hj Hd). cbn.
  destruct (Qle_bool (rnd (initial * q)%Q) maxd) eqn:E.
  - apply Qle_bool_iff in E. by rewrite Q.min_l.
  - assert (¬ (rnd (initial * q)%Q <= maxd)%Q) by (intros H; apply Qle_bool_iff in H; congruence). rewrite Q.min_r; [done|]. lra.
Qed.
Print Assumptions C34_plain_partial.
(** A power that overflowed is capped if the initial delay is positive … *)
Theorem C34_overflow_partial : ∀ rnd initial maxd jitter r d, rounding rnd → delay_input rnd initial maxd Inf jitter r → (jitter == 0)%Q → (0 < initial)%Q →
  calculate_delay rnd initial maxd Inf jitter r = Some d → (d == maxd)%Q.
Proof.
  intros rnd initial maxd jitter r d Hr Hin Hj Hi Hd. rewrite (delay_plain rnd Hr _ _ _ _ _ _ Hin Hj Hd). cbn. by destruct (Qeq_bool initial 0).
Qed.
Print Assumptions C34_overflow_partial.
(** … but an initial delay of 0, which should stay 0 for ever, becomes max_delay once the power
    overflows: 0 * infinity is not a number and min ignores it. *)
Theorem C34_zero_refuted : ∀ rnd maxd r d, rounding rnd → delay_input rnd 0 maxd Inf 0 r →
  calculate_delay rnd 0 maxd Inf 0 r = Some d → (d == maxd)%Q.
Proof. intros rnd maxd r d Hr Hin Hd. by rewrite (delay_plain rnd Hr _ _ _ _ _ _ Hin (Qeq_refl 0) Hd). Qed.
Print Assumptions C34_zero_refuted.
(** With the largest Duration as max_delay (2^64 as f64) a capped delay panics. *)
Theorem C34_panic_refuted : ∀ rnd initial maxd jitter r, rounding rnd → delay_input rnd initial maxd Inf jitter r → (jitter == 0)%Q → (inject_Z (2 ^ 64) <= maxd)%Q →
  calculate_delay rnd initial maxd Inf jitter r = None.
Proof.
  intros rnd initial maxd jitter r Hr Hin Hj Hm. destruct (calculate_delay rnd initial maxd Inf jitter r) as [d|] eqn:E; [exfalso|done].
  pose proof (delay_plain rnd Hr _ _ _ _ _ _ Hin Hj E) as Hd. cbn in Hd. assert (Hdm : (d == maxd)%Q) by (rewrite Hd; by destruct (Qeq_bool initial 0)).
  unfold calculate_delay in E. cbn zeta in E. destruct (Qle_bool (inject_Z (2 ^ 64)) _) eqn:Eb; [done|]. apply (inj Some) in E. rewrite E in Eb.
  assert (Qle_bool (inject_Z (2 ^ 64)) d = true) by (apply Qle_bool_iff; by rewrite Hdm). congruence.
Qed.
Print Assumptions C34_panic_refuted.
(** Exact arithmetic is one rounding; a 100 ms initial delay, growth 2, fourth retry, 10% jitter. *)
Example C34_example : rounding (λ x, x) ∧ delay_input (λ x, x) (1#10) 30 (Fin 16) (1#10) (3#4) ∧
  option_map Qred (calculate_delay (λ x, x) (1#10) 30 (Fin 16) (1#10) (3#4)) = Some (42#25).
Proof. split; [split; intros; try done|]. split; [split; cbn; lra || done|]. by vm_compute. Qed.

(** ** C35: retry limit and breaker *)
(** Disabled, connecting or connected: never. *)
Theorem C35_off : ∀ c s now, m_enabled s = false ∨ m_state s = Connected ∨ m_state s = Connecting → should_reconnect c now s = (false, s).
Proof. intros c s now H. unfold should_reconnect. destruct (m_enabled s); [|done]. destruct H as [H|[H|H]]; [done| |]; by rewrite H. Qed.
Print Assumptions C35_off.
(** Without a breaker, max_retries failures in a row end reconnection. *)
Theorem C35_limit_partial : ∀ c h1 h2 m now, rc_breaker c = None → rc_max c = Some m → no_reset h2 → (m ≤ failures h2)%nat →
  (should_reconnect c now (crun c manager_new (h1 ++ h2)).2).1 = false.
Proof. exact limit_stops. Qed.
Print Assumptions C35_limit_partial.
(** The failure that completes the threshold opens the breaker: every check is refused until its
    timeout has elapsed … *)
Theorem C35_breaker_partial : ∀ c h1 h2 k t h3, rc_breaker c = Some k → no_success h2 → (k ≤ S (failures h2))%nat → checks_before (t + rc_timeout c)%Z h3 →
  all_refused (crun c (crun c manager_new (h1 ++ h2 ++ [OnFailed t])).2 h3).1.
Proof. exact breaker_opens. Qed.
Print Assumptions C35_breaker_partial.
(** … and the first check after that is granted – whatever the retry count: the limit is not asked. *)
Theorem C35_open_ignores_limit_refuted : ∀ c s t now, m_enabled s = true → m_state s = CircuitOpen → m_opened s = Some t → (rc_timeout c ≤ now - t)%Z →
  (should_reconnect c now s).1 = true.
Proof. intros c s t now He Hs Ho Hle. unfold should_reconnect. rewrite He, Hs, Ho. by rewrite bool_decide_eq_true_2. Qed.
Print Assumptions C35_open_ignores_limit_refuted.
(** A disconnect notice while the breaker is open discards it: reconnection is granted at once. *)
Theorem C35_disconnect_bypasses_refuted : ∀ c s now now', m_enabled s = true → (∀ m, rc_max c = Some m → (m_retry s < m)%nat) → m_state s = CircuitOpen →
  (should_reconnect c now' (on_disconnected c now s)).1 = true.
Proof.
  intros c s now now' He Hm Hs. unfold should_reconnect, on_disconnected. cbn. rewrite He, Hs. destruct (rc_max c) as [m|]; [|done]. cbn.
  apply bool_decide_eq_true. by apply Hm.
Qed.
Print Assumptions C35_disconnect_bypasses_refuted.
(** After the breaker has closed again a single failure re-opens it: the count is not reset. *)
Theorem C35_reopens_at_once : ∀ c s t now k, rc_breaker c = Some k → m_state s = CircuitOpen → m_opened s = Some t → m_enabled s = true → (k ≤ m_fail s)%nat →
  (rc_timeout c ≤ now - t)%Z → ∀ t', m_state (on_failed c t' (on_connecting (should_reconnect c now s).2)) = CircuitOpen.
Proof.
  intros c s t now k Hb Hs Ho He Hk Hle t'. unfold should_reconnect. rewrite He, Hs, Ho, bool_decide_eq_true_2 by done. unfold on_failed. cbn. rewrite Hb.
  by rewrite bool_decide_eq_true_2 by lia.
Qed.
Print Assumptions C35_reopens_at_once.
Example C35_example :
  let c := MkRconfig (Some 4) true 60 (Some 2) 100 in
  (crun c manager_new [Should 0; OnConnecting; OnFailed 1; Should 2; OnConnecting; OnFailed 3; Should 4; Should 102; Should 103])%Z.1 =
  [Some true; None; None; Some true; None; None; Some false; Some false; Some true].
Proof. by vm_compute. Qed.
(** The limit is really overrun: the state of the refutation is reached. *)
Example C35_example_overrun :
  let c := MkRconfig (Some 2) true 60 (Some 2) 100 in
  let s := (crun c manager_new [OnFailed 1; OnFailed 3])%Z.2 in
  m_retry s = 2%nat ∧ m_state s = CircuitOpen ∧ (should_reconnect c 103 s).1 = true.
Proof. by vm_compute. Qed.

(** ** C83: reconnect_with *)
(** With a retry limit and the circuit not open at the start, the loop ends whatever connect does: at
    most max_retries - retry_count calls, all but the last failed, success iff the last succeeded, and
    an error returned is the last call's.  Between calls it sleeps, by the growing retry count. *)
Theorem C83_bounded : ∀ c connect t0 t1 t2 m s, rc_max c = Some m → m_state s ≠ CircuitOpen →
  ∃ r n w s', (∀ fuel, (m - m_retry s < fuel)%nat → reconnect_with c connect t0 t1 t2 fuel 0 s = Some (r, n, w, s')) ∧ (n ≤ m - m_retry s)%nat ∧
    (∀ j, (S j < n)%nat → connect j = false) ∧
    (r = ROk → (0 < n)%nat ∧ connect (n - 1)%nat = true) ∧ (r ≠ ROk → (0 < n)%nat → connect (n - 1)%nat = false) ∧
    (∀ j, r = RError j → S j = n) ∧ w = seq (S (m_retry s)) (match r with RLimit => n | _ => n - 1 end).
Proof.
  intros c connect t0 t1 t2 m s Hm Hs.
  destruct (reconnect_bound c connect t0 t1 t2 m Hm (S (m - m_retry s)) 0 s Hs ltac:(lia)) as (r & n & w & s' & Hgo & Hn & Hall & Hok & Herr & He & Hw & Hseq).
  exists r, n, w, s'. split; [|split; [lia|split; [|split; [done|split; [done|split]]]]].
  - intros fuel Hf. by rewrite (reconnect_fuel c connect t0 t1 t2 _ fuel 0 s _ Hgo) by lia.
  - intros j Hj. apply Hall; lia.
  - intros j Hj. by destruct (He j Hj).
  - rewrite Hseq, Hw. f_equal. destruct r; lia.
Qed.
Print Assumptions C83_bounded.
(** With the circuit open at the start and its timeout elapsed, one call more. *)
Theorem C83_open_start : ∀ c connect t0 t1 t2 m s fuel r n w s', rc_max c = Some m → (m - m_retry s < fuel)%nat →
  reconnect_with c connect t0 t1 t2 (S fuel) 0 s = Some (r, n, w, s') → (n ≤ S (m - m_retry s))%nat.
Proof.
  intros c connect t0 t1 t2 m s fuel r n w s' Hm Hf. cbn [reconnect_with]. destruct (should_reconnect c (t0 0) s) as [ok s0] eqn:E0.
  pose proof (should_counts c (t0 0) s) as [Hr0 _]. rewrite E0 in Hr0. cbn in Hr0. destruct ok; [|intros [= <- <- <- <-]; lia].
  destruct (connect 0%nat); [intros [= <- <- <- <-]; lia|]. pose proof (after_failure c t1 s0 (t2 0) 0) as Ha.
  destruct (should_reconnect c (t2 0) (on_failed c (t1 0) (on_connecting s0))) as [ok s1]. destruct Ha as [Hr1 Ho].
  destruct ok; [|intros [= <- <- <- <-]; lia].
  destruct (reconnect_bound c connect t0 t1 t2 m Hm fuel 1 s1 (Ho eq_refl) ltac:(lia)) as (r' & n' & w' & s2 & -> & Hn & _). intros [= <- <- <- <-]. lia.
Qed.
Print Assumptions C83_open_start.
(** Without a limit and a breaker it goes on while connect fails. *)
Theorem C83_unlimited : ∀ c t0 t1 t2 fuel, rc_max c = None → rc_breaker c = None → reconnect_with c (λ _, false) t0 t1 t2 fuel 0 manager_new = None.
Proof.
  intros c t0 t1 t2 fuel Hm Hb. assert (∀ i s, m_state s = Disconnected ∨ m_state s = WaitingRetry → m_enabled s = true → reconnect_with c (λ _, false) t0 t1 t2 fuel i s = None) as H; [|apply H; [by left|done]].
  induction fuel as [|fuel IH]; intros i s Hs He; [done|]. cbn [reconnect_with].
  assert (∀ t s, m_state s = Disconnected ∨ m_state s = WaitingRetry → m_enabled s = true → should_reconnect c t s = (true, s)) as Hsh.
  { intros t s0 [H|H] He0; unfold should_reconnect; by rewrite He0, H, Hm. }
  rewrite Hsh by done. assert (on_failed c (t1 i) (on_connecting s) = MkManager WaitingRetry (S (m_retry s)) (S (m_fail s)) (S (m_attempts s)) (m_successes s) (m_last s) (m_opened s) (m_enabled s)) as -> by (unfold on_failed; by rewrite Hb).
  rewrite Hsh by (try right; done). rewrite IH; [done|by right|done].
Qed.
Print Assumptions C83_unlimited.
Example C83_example :
  let c := MkRconfig (Some 3) true 60 None 100 in
  match reconnect_with c (λ i, bool_decide (i = 2)) (λ _, 0%Z) (λ _, 0%Z) (λ _, 0%Z) 5 0 manager_new, reconnect_with c (λ _, false) (λ _, 0%Z) (λ _, 0%Z) (λ _, 0%Z) 5 0 manager_new with
  | Some (r1, n1, w1, _), Some (r2, n2, w2, _) => (r1, n1, w1, r2, n2, w2) = (ROk, 3, [1; 2], RError 2, 3, [1; 2])%nat
  | _, _ => False end.
Proof. by vm_compute. Qed.

(** ** C36: middleware chains *)
Theorem C36_order : ∀ (Q R T E : Type) (c : list (middleware Q R T E)),
  (∀ m, let '(seen, rest, r) := process_request c m in runs_in_order (on_request <$> c) m seen rest r) ∧
  (∀ m, let '(seen, rest, r) := process_response c m in runs_in_order (on_response <$> c) m seen rest r) ∧
  (∀ m, let '(seen, rest, r) := process_send c m in runs_in_order ((λ x t, (t, on_send x t)) <$> c) m seen rest r) ∧
  (∀ m, let '(seen, rest, r) := process_receive c m in runs_in_order ((λ x t, (t, on_receive x t)) <$> c) m seen rest r).
Proof. intros Q R T E c. repeat split; intros m; apply chain_runs. Qed.
Print Assumptions C36_order.
(** The chain is what was added, in that order. *)
Theorem C36_added : ∀ (Q R T E : Type) (xs : list (middleware Q R T E)), fold_left (λ c x, chain_add x c) xs [] = xs.
Proof.
  intros Q R T E xs. assert (∀ c, fold_left (λ c x, chain_add x c) xs c = c ++ xs) as H; [|apply H].
  induction xs as [|x xs IH]; intros c; cbn; [by rewrite app_nil_r|]. rewrite IH. unfold chain_add. by rewrite <-app_assoc.
Qed.
Print Assumptions C36_added.
(** An added middleware sees the message only after every earlier one accepted it. *)
Theorem C36_last : ∀ (Q R T E : Type) (c : list (middleware Q R T E)) x m,
  process_request (chain_add x c) m =
  (let '(seen, m', r) := process_request c m in match r with Some e => (seen, m', Some e) | None => let '(m'', r') := on_request x m' in (seen ++ [m'], m'', r') end).
Proof.
  intros Q R T E c x. unfold process_request, chain_add. rewrite fmap_app. cbn. generalize (on_request <$> c) as hs. induction hs as [|f fs IH]; intros m; cbn.
  - destruct (on_request x m) as [m' [e|]]; done.
  - destruct (f m) as [m' [e|]]; [done|]. rewrite IH. destruct (chain_loop fs m') as [[seen m''] [e|]]; [done|]. by destruct (on_request x m'').
Qed.
Print Assumptions C36_last.
Example C36_example :
  let mw (f : nat → nat * option nat) := MkMiddleware f (λ r : nat, (r, None)) (λ _ : nat, None) (λ _, None) in
  let c := [mw (λ n, (n + 1, None)); mw (λ n, (n * 2, if decide (n = 4) then Some 7 else None)); mw (λ n, (n + 100, None))]%nat in
  process_request c 1%nat = ([1; 2; 4], 104, None)%nat ∧ process_request c 3%nat = ([3; 4], 8, Some 7)%nat.
Proof. by vm_compute. Qed.

(** ** C190: the statistics count what happened *)
Theorem C190_totals : ∀ c h, let s := (crun c manager_new h).2 in
  m_attempts s = count is_attempt h ∧ m_successes s = count is_success h.
Proof. intros c h. exact (stats_run c h manager_new). Qed.
Print Assumptions C190_totals.
(** The consecutive failures are those since the last success or reset … *)
Theorem C190_failures : ∀ c h1 h2, (h1 = [] ∨ ∃ h o, h1 = h ++ [o] ∧ (o = Reset ∨ ∃ now, o = OnConnected now)) → no_success h2 →
  m_fail (crun c manager_new (h1 ++ h2)).2 = failures h2.
Proof.
  intros c h1 h2 Hh Hn. rewrite crun_snd, fail_run by done. assert (m_fail (crun c manager_new h1).2 = 0%nat) as ->; [|done].
  destruct Hh as [->|(h & o & -> & Ho)]; [done|]. rewrite crun_snd. by destruct Ho as [->|[now ->]].
Qed.
Print Assumptions C190_failures.
(** … and the retry count those since the last reset, or the last success if it resets. *)
Theorem C190_retries : ∀ c h1 h2, (h1 = [] ∨ ∃ h o, h1 = h ++ [o] ∧ (o = Reset ∨ rc_reset c = true ∧ ∃ now, o = OnConnected now)) → no_reset h2 →
  m_retry (crun c manager_new (h1 ++ h2)).2 = failures h2.
Proof.
  intros c h1 h2 Hh Hn. rewrite crun_snd, retry_run by done. assert (m_retry (crun c manager_new h1).2 = 0%nat) as ->; [|done].
  destruct Hh as [->|(h & o & -> & Ho)]; [done|]. rewrite crun_snd. destruct Ho as [->|[Hr [now ->]]]; [done|]. cbn. by rewrite Hr.
Qed.
Print Assumptions C190_retries.
(** A run of reconnect_with adds one attempt for each call of connect, and one success if it succeeds. *)
Theorem C190_reconnect : ∀ c connect t0 t1 t2 fuel s r n w s', reconnect_with c connect t0 t1 t2 fuel 0 s = Some (r, n, w, s') →
  m_attempts s' = (m_attempts s + n)%nat ∧ m_successes s' = (m_successes s + match r with ROk => 1 | _ => 0 end)%nat.
Proof. intros c connect t0 t1 t2 fuel s r n w s' H. apply reconnect_stats in H as (_ & -> & ->). split; [lia|by destruct r]. Qed.
Print Assumptions C190_reconnect.
Example C190_example :
  let c := MkRconfig (Some 5%nat) true 10 (Some 3%nat) 60 in
  let s := (crun c manager_new [OnConnecting; OnFailed 1; Should 2; OnConnecting; OnConnected 3; OnDisconnected 4; OnConnecting; OnFailed 5; OnFailed 6]).2 in
  (m_attempts s, m_successes s, m_fail s, m_retry s) = (3, 1, 2, 2)%nat.
Proof. by vm_compute. Qed.
