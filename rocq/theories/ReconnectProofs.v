From Coq Require Import QArith Qminmax Lqa.
From stdpp Require Import base numbers list.
From Verif Require Import ReconnectModel ReconnectSpec.

(** *** Delays *)
Section delay.
  Context (rnd : Q → Q) (Hr : rounding rnd).
  Local Open Scope Q_scope.
  Lemma rnd_ext x y : x == y → rnd x == rnd y.
  Proof. intros H. apply Qle_antisym; apply (rnd_mono _ Hr); lra. Qed.
  Lemma rnd_nonneg x : 0 <= x → 0 <= rnd x.
  Proof. intros H. pose proof (rnd_mono _ Hr _ _ H). pose proof (rnd_zero _ Hr). lra. Qed.
  Lemma cap_spec a p m : 0 <= a → 0 <= m → match p with Fin q => 0 <= q | Inf => True | NaN => False end → 0 <= cap (times_pow rnd a p) m <= m.
  Proof.
    intros Ha Hm Hp. destruct p as [q| |]; cbn; [|destruct (Qeq_bool a 0); cbn; lra|done].
    destruct (Qle_bool (rnd (a * q)) m) eqn:E.
    - apply Qle_bool_iff in E. split; [|done]. apply rnd_nonneg. by apply Qmult_le_0_compat.
    - lra.
  Qed.
  Lemma cap_f64 a p m : is_f64 rnd m → is_f64 rnd (cap (times_pow rnd a p) m).
  Proof.
    unfold is_f64. intros Hm. destruct p as [q| |]; cbn; [|destruct (Qeq_bool a 0); done|done].
    destruct (Qle_bool (rnd (a * q)) m); [apply (rnd_idem _ Hr)|done].
  Qed.
  Lemma jitter_bounds range r : 0 <= range → is_f64 rnd range → 0 <= r → r <= 1 →
    - range <= rnd (- range) → 
    let j := rnd (rnd (r * range) * 2 - range) in rnd (- range) <= j <= range.
  Proof.
    intros H0 Hf Hr0 Hr1 Hneg. cbn.
    assert (Hlo : 0 <= rnd (r * range)) by (apply rnd_nonneg; nra).
    assert (Hhi : rnd (r * range) <= range).
    { unfold is_f64 in Hf. assert (rnd (r * range) <= rnd range) by (apply (rnd_mono _ Hr); nra). lra. }
    split; [apply (rnd_mono _ Hr); lra|].
    assert (rnd (rnd (r * range) * 2 - range) <= rnd range) by (apply (rnd_mono _ Hr); lra). unfold is_f64 in Hf. lra.
  Qed.
  Lemma delay_bounds initial maxd pow jitter r d : delay_input rnd initial maxd pow jitter r →
    calculate_delay rnd initial maxd pow jitter r = Some d →
    let c := cap (times_pow rnd initial pow) maxd in
    0 <= d ∧ rnd (c + rnd (- rnd (c * jitter))) <= d ∧ d <= rnd (c + rnd (c * jitter)) ∧ c <= maxd.
  Proof.
    intros [Hi Hm Hf Hp Hj [Hr0 Hr1]]. unfold calculate_delay. cbn zeta.
    pose proof (cap_spec initial pow maxd Hi Hm Hp) as [Hc0 Hcm]. pose proof (cap_f64 initial pow maxd Hf) as Hcf.
    set (c := cap (times_pow rnd initial pow) maxd) in *. clearbody c.
    assert (Hrange : 0 <= rnd (c * jitter)) by (apply rnd_nonneg, Qmult_le_0_compat; done).
    pose proof (rnd_idem _ Hr (c * jitter)) as Hrf. fold (is_f64 rnd (rnd (c * jitter))) in Hrf.
    set (g := rnd (c * jitter)) in *. clearbody g.
    assert (Hlo : 0 <= rnd (r * g)) by (apply rnd_nonneg; nra).
    assert (Hhi : rnd (r * g) <= g).
    { unfold is_f64 in Hrf. assert (rnd (r * g) <= rnd g) by (apply (rnd_mono _ Hr); nra). lra. }
    assert (Hj1 : rnd (- g) <= rnd (rnd (r * g) * 2 - g)) by (apply (rnd_mono _ Hr); lra).
    assert (Hj2 : rnd (rnd (r * g) * 2 - g) <= g).
    { assert (rnd (rnd (r * g) * 2 - g) <= rnd g) by (apply (rnd_mono _ Hr); lra). unfold is_f64 in Hrf. lra. }
    set (j := rnd (rnd (r * g) * 2 - g)) in *. clearbody j.
    assert (Hd1 : rnd (c + rnd (- g)) <= rnd (c + j)) by (apply (rnd_mono _ Hr); lra).
    assert (Hd2 : rnd (c + j) <= rnd (c + g)) by (apply (rnd_mono _ Hr); lra).
    assert (Hd3 : 0 <= rnd (c + g)) by (apply rnd_nonneg; lra).
    destruct (Qle_bool 0 (rnd (c + j))) eqn:E; destruct (Qle_bool (inject_Z (2 ^ 64)) _); intros [= <-].
    - apply Qle_bool_iff in E. split; [done|]. split; [done|]. split; [done|lra].
    - assert (¬ 0 <= rnd (c + j)). { intros H. apply Qle_bool_iff in H. congruence. }
      split; [lra|]. split; [|split; lra]. lra.
  Qed.
  (** Without jitter. *)
  Lemma delay_plain initial maxd pow jitter r d : delay_input rnd initial maxd pow jitter r → jitter == 0 →
    calculate_delay rnd initial maxd pow jitter r = Some d → d == cap (times_pow rnd initial pow) maxd.
  Proof.
    intros Hin Hj Hd. pose proof (delay_bounds _ _ _ _ _ _ Hin Hd) as (H0 & H1 & H2 & _). destruct Hin as [Hi Hm Hf Hp _ _].
    pose proof (cap_f64 initial pow maxd Hf) as Hcf. set (c := cap (times_pow rnd initial pow) maxd) in *. clearbody c. unfold is_f64 in Hcf.
    assert (Hg : rnd (c * jitter) == 0). { rewrite (rnd_ext _ 0); [apply (rnd_zero _ Hr)|]. rewrite Hj. lra. }
    assert (Hg2 : rnd (- rnd (c * jitter)) == 0). { rewrite (rnd_ext _ 0); [apply (rnd_zero _ Hr)|]. lra. }
    assert (rnd (c + rnd (- rnd (c * jitter))) == c) by (rewrite (rnd_ext _ c); [done|lra]).
    assert (rnd (c + rnd (c * jitter)) == c) by (rewrite (rnd_ext _ c); [done|lra]).
    lra.
  Qed.
End delay.

(** *** The manager *)
Section manager.
  Context (c : rconfig).
  Local Open Scope Z_scope.
  Lemma crun_app s h1 h2 : crun c s (h1 ++ h2) = let '(r1, s1) := crun c s h1 in let '(r2, s2) := crun c s1 h2 in (r1 ++ r2, s2).
  Proof.
    revert s. induction h1 as [|o h1 IH]; intros s; cbn; [by destruct (crun c s h2)|]. destruct (cstep c s o) as [a s']. rewrite IH.
    destruct (crun c s' h1) as [r1 s1]. by destruct (crun c s1 h2).
  Qed.
  Lemma failures_cons o h : failures (o :: h) = ((match o with OnFailed _ => 1 | _ => 0 end) + failures h)%nat.
  Proof. unfold failures. rewrite filter_cons. by destruct o. Qed.
  Lemma should_counts now s : m_retry (should_reconnect c now s).2 = m_retry s ∧ m_fail (should_reconnect c now s).2 = m_fail s.
  Proof. unfold should_reconnect. destruct (m_enabled s); [|done]. destruct (m_state s); try done. destruct (m_opened s); [|done]. by case_bool_decide. Qed.
  Lemma retry_grows s h : no_reset h → m_retry (crun c s h).2 = (m_retry s + failures h)%nat.
  Proof.
    revert s. induction h as [|o h IH]; intros s Hn; [cbn; lia|]. apply Forall_cons in Hn as [Ho Hn]. rewrite failures_cons. cbn [crun].
    destruct (cstep c s o) as [a s'] eqn:E. specialize (IH s' Hn). destruct (crun c s' h) as [r s'']. cbn in *. rewrite IH.
    destruct o as [now| |now|now|now|b|]; cbn in E; try done.
    - destruct (should_counts now s) as [H1 _]. destruct (should_reconnect c now s). simplify_eq. cbn in *. lia.
    - simplify_eq. cbn. lia.
    - simplify_eq. unfold on_failed. destruct (match rc_breaker c with Some k => _ | None => _ end); cbn; lia.
    - simplify_eq. cbn. lia.
  Qed.
  Lemma fails_grow s h : no_success h → m_fail (crun c s h).2 = (m_fail s + failures h)%nat.
  Proof.
    revert s. induction h as [|o h IH]; intros s Hn; [cbn; lia|]. apply Forall_cons in Hn as [Ho Hn]. rewrite failures_cons. cbn [crun].
    destruct (cstep c s o) as [a s'] eqn:E. specialize (IH s' Hn). destruct (crun c s' h) as [r s'']. cbn in *. rewrite IH.
    destruct o as [now| |now|now|now|b|]; cbn in E; try done.
    - destruct (should_counts now s) as [_ H1]. destruct (should_reconnect c now s). simplify_eq. cbn in *. lia.
    - simplify_eq. cbn. lia.
    - simplify_eq. unfold on_failed. destruct (match rc_breaker c with Some k => _ | None => _ end); cbn; lia.
    - simplify_eq. cbn. lia.
    - simplify_eq. cbn. lia.
  Qed.
  (** Without a breaker the circuit is never open. *)
  Lemma never_open s h : rc_breaker c = None → m_state s ≠ CircuitOpen → m_state (crun c s h).2 ≠ CircuitOpen.
  Proof.
    intros Hb. revert s. induction h as [|o h IH]; intros s Hs; [done|]. cbn. destruct (cstep c s o) as [a s'] eqn:E.
    specialize (IH s'). destruct (crun c s' h) as [r s'']. apply IH. destruct o as [now| |now|now|now|b|]; cbn in E; simplify_eq; try done.
    - unfold should_reconnect in E. destruct (m_enabled s); [|simplify_eq; done]. destruct (m_state s) eqn:Es; simplify_eq; try by rewrite Es.
    - unfold on_failed. by rewrite Hb.
  Qed.
  Lemma limit_stops h1 h2 m now : rc_breaker c = None → rc_max c = Some m → no_reset h2 → (m ≤ failures h2)%nat →
    (should_reconnect c now (crun c manager_new (h1 ++ h2)).2).1 = false.
  Proof.
    intros Hb Hm Hn Hf. assert (Hs : m_state (crun c manager_new (h1 ++ h2)).2 ≠ CircuitOpen) by (by apply never_open).
    rewrite crun_app in *. destruct (crun c manager_new h1) as [r1 s1]. pose proof (retry_grows s1 h2 Hn) as Hr.
    destruct (crun c s1 h2) as [r2 s2]. cbn in *. unfold should_reconnect. destruct (m_enabled s2); [|done]. rewrite Hm.
    destruct (m_state s2); try done; cbn; apply bool_decide_eq_false; lia.
  Qed.
  (** The breaker. *)
  Lemma checks_refused t s h : m_state s = CircuitOpen → m_opened s = Some t → checks_before (t + rc_timeout c) h → all_refused (crun c s h).1.
  Proof.
    revert s. induction h as [|o h IH]; intros s Hs Ho Hc; [cbn; unfold all_refused; apply not_elem_of_nil|]. apply Forall_cons in Hc as [Hx Hc]. cbn.
    destruct o as [now| |now|now|now|b|]; try done; cbn [cstep].
    - assert (should_reconnect c now s = (false, s)) as ->.
      { unfold should_reconnect. destruct (m_enabled s); [|done]. rewrite Hs, Ho. rewrite bool_decide_eq_false_2 by lia. done. }
      specialize (IH s Hs Ho Hc). destruct (crun c s h). unfold all_refused in *. cbn in *. apply not_elem_of_cons. done.
    - specialize (IH (set_enabled b s) Hs Ho Hc). destruct (crun c _ h). unfold all_refused in *. cbn in *. apply not_elem_of_cons. done.
    - specialize (IH (reset s) Hs Ho Hc). destruct (crun c _ h). unfold all_refused in *. cbn in *. apply not_elem_of_cons. done.
  Qed.
  Lemma breaker_opens h1 h2 k t h3 : rc_breaker c = Some k → no_success h2 → (k ≤ S (failures h2))%nat → checks_before (t + rc_timeout c) h3 →
    all_refused (crun c (crun c manager_new (h1 ++ h2 ++ [OnFailed t])).2 h3).1.
  Proof.
    intros Hb Hn Hk Hc. rewrite app_assoc, crun_app, crun_app. destruct (crun c manager_new h1) as [r1 s1].
    pose proof (fails_grow s1 h2 Hn) as Hf. destruct (crun c s1 h2) as [r2 s2]. cbn. apply (checks_refused t); [| |done].
    - unfold on_failed. rewrite Hb. cbn in Hf. rewrite bool_decide_eq_true_2 by lia. done.
    - unfold on_failed. rewrite Hb. cbn in Hf. rewrite bool_decide_eq_true_2 by lia. done.
  Qed.
  (** *** reconnect_with *)
  Section with_connect.
    Context (connect : nat → bool) (t0 t1 t2 : nat → Z).
    Notation go := (reconnect_with c connect t0 t1 t2).
    Lemma after_failure s now i : let '(ok, s') := should_reconnect c now (on_failed c (t1 i) (on_connecting s)) in
      m_retry s' = S (m_retry s) ∧ (ok = true → m_state s' ≠ CircuitOpen).
    Proof.
      destruct (should_reconnect c now _) as [ok s'] eqn:E. pose proof (should_counts now (on_failed c (t1 i) (on_connecting s))) as [H1 _].
      rewrite E in H1. cbn in H1. split.
      - rewrite H1. unfold on_failed. destruct (match rc_breaker c with Some k => _ | None => _ end); done.
      - intros ->. unfold should_reconnect in E. destruct (m_enabled _); [|done]. destruct (m_state (on_failed _ _ _)) eqn:Es; simplify_eq; try by rewrite Es.
        destruct (m_opened _); [|done]. case_bool_decide; by simplify_eq.
    Qed.
    (** From a state that is not open, at most max_retries - retry_count calls; all but the last fail. *)
    Lemma reconnect_bound m : rc_max c = Some m → ∀ fuel i s, (m_state s ≠ CircuitOpen) → (m - m_retry s < fuel)%nat →
      ∃ r n w s', go fuel i s = Some (r, n, w, s') ∧ (i ≤ n ≤ i + (m - m_retry s))%nat ∧
        (∀ j, (i ≤ j)%nat → (S j < n)%nat → connect j = false) ∧
        (r = ROk → (i < n)%nat ∧ connect (n - 1)%nat = true) ∧ (r ≠ ROk → (i < n)%nat → connect (n - 1)%nat = false) ∧
        (∀ j, r = RError j → S j = n ∧ (i ≤ j)%nat) ∧ length w = (match r with RLimit => n - i | _ => n - 1 - i end)%nat ∧
        w = seq (S (m_retry s)) (length w).
    Proof.
      intros Hm. induction fuel as [|fuel IH]; intros i s Hs Hf; [lia|]. cbn [reconnect_with].
      destruct (should_reconnect c (t0 i) s) as [ok s0] eqn:E0.
      assert (Hok : s0 = s ∧ (ok = true → (m_retry s < m)%nat)).
      { unfold should_reconnect in E0. rewrite Hm in E0. destruct (m_enabled s); [|by simplify_eq]. destruct (m_state s); simplify_eq; try done; (split; [done|]); by rewrite bool_decide_eq_true. }
      destruct Hok as [-> Hlt]. destruct ok.
      - specialize (Hlt eq_refl). destruct (connect i) eqn:Ec.
        + eexists ROk, (S i), [], _. split; [done|]. split; [lia|]. split; [intros; lia|]. split; [intros _; split; [lia|]; by rewrite Nat.sub_succ, Nat.sub_0_r|].
          split; [done|]. split; [done|]. split; [cbn; lia|done].
        + pose proof (after_failure s (t2 i) i) as Ha. destruct (should_reconnect c (t2 i) (on_failed c (t1 i) (on_connecting s))) as [ok s1]. destruct Ha as [Hr Ho]. destruct ok.
          * destruct (IH (S i) s1 (Ho eq_refl) ltac:(lia)) as (r & n & w & s' & -> & Hn & Hall & Hok & Herr & He & Hw & Hseq). exists r, n, (m_retry s1 :: w), s'.
            split; [done|]. split; [lia|]. split; [|split; [|split; [|split; [|split]]]].
            -- intros j Hj1 Hj2. destruct (decide (j = i)) as [->|]; [done|]. apply Hall; lia.
            -- intros ->. destruct (Hok eq_refl). split; [lia|done].
            -- intros Hne _. destruct (decide (n = S i)) as [->|]; [by rewrite Nat.sub_succ, Nat.sub_0_r|]. apply Herr; [done|lia].
            -- intros j Hj. destruct (He j Hj). lia.
            -- cbn. rewrite Hw. destruct r; try lia.
               ++ destruct (Hok eq_refl). lia.
               ++ destruct (He _ eq_refl). lia.
            -- cbn. rewrite Hr in *. by f_equal.
          * eexists (RError i), (S i), [], _. split; [done|]. split; [lia|]. split; [intros; lia|]. split; [done|].
            split; [intros _ _; by rewrite Nat.sub_succ, Nat.sub_0_r|]. split; [intros j [= <-]; lia|]. split; [cbn; lia|done].
      - eexists RLimit, i, [], _. split; [done|]. split; [lia|]. split; [intros; lia|]. split; [done|]. split; [intros; lia|]. split; [done|]. split; [cbn; lia|done].
    Qed.
    (** More turns allowed change nothing once the loop has ended. *)
    Lemma reconnect_fuel fuel fuel' i s x : go fuel i s = Some x → (fuel ≤ fuel')%nat → go fuel' i s = Some x.
    Proof.
      revert fuel' i s x. induction fuel as [|fuel IH]; intros fuel' i s x; [done|]. destruct fuel' as [|fuel']; [intros; lia|]. intros Hgo Hle. revert Hgo. cbn [reconnect_with].
      destruct (should_reconnect c (t0 i) s) as [[] s0]; [|done]. destruct (connect i); [done|].
      destruct (should_reconnect c (t2 i) _) as [[] s1]; [|done]. destruct (go fuel (S i) s1) as [[[[r n] w] s']|] eqn:E; [|done].
      by rewrite (IH fuel' _ _ _ E) by lia.
    Qed.
    Lemma reconnect_fuel_any f1 f2 i s x m : rc_max c = Some m → m_state s ≠ CircuitOpen → go f1 i s = Some x → (m - m_retry s < f2)%nat → go f2 i s = Some x.
    Proof.
      intros Hm Hs Hgo Hlt. destruct (reconnect_bound m Hm f2 i s Hs Hlt) as (r & n & w & s' & Hgo2 & _). 
      destruct (decide (f1 ≤ f2)%nat); [by eapply reconnect_fuel|]. rewrite (reconnect_fuel f2 f1 _ _ _ Hgo2) in Hgo by lia. by simplify_eq.
    Qed.
  End with_connect.
End manager.

(** *** Middleware *)
Lemma chain_runs {M E} (hooks : list (M → M * option E)) m : let '(seen, rest, r) := chain_loop hooks m in runs_in_order hooks m seen rest r.
Proof.
  revert m. induction hooks as [|f fs IH]; intros m; cbn.
  - split; [done|done|]. done.
  - destruct (f m) as [m' [e|]] eqn:Ef.
    + split; [by intros x [= <-]| |].
      * by intros i x y _ [=].
      * exists m, f. done.
    + specialize (IH m'). destruct (chain_loop fs m') as [[seen rest] r]. destruct IH as [H1 H2 H3]. split.
      * by intros x [= <-].
      * intros [|i] x y Hx Hy; cbn in Hx, Hy.
        -- simplify_eq. apply H1 in Hy as ->. by exists f.
        -- destruct (H2 i x y Hx Hy) as (g & Hg & Hgx). by exists g.
      * destruct r as [e|].
        -- destruct H3 as (x & g & Hl & Hg & Hgx). exists x, g. destruct seen as [|y seen]; [done|]. rewrite last_cons_cons. split; [done|].
           split; [|done]. cbn [length] in *. rewrite Nat.sub_succ, Nat.sub_0_r in *. done.
        -- destruct H3 as [Hlen Hlast]. split; [cbn; lia|]. destruct seen as [|y seen], fs as [|g fs]; try done.
           ++ cbn. cbn in Hlast. by subst.
           ++ rewrite (last_cons_cons m y), (last_cons_cons f g). destruct (last (y :: seen)) eqn:El; [done|]. by apply last_None in El.
Qed.
(** *** Statistics *)
Lemma crun_snd c s os1 os2 : (crun c s (os1 ++ os2)).2 = (crun c (crun c s os1).2 os2).2.
Proof. revert s. induction os1 as [|o os1 IH]; intros s; [done|]. cbn [app crun]. destruct (cstep c s o) as [a s1]. specialize (IH s1). destruct (crun c s1 (os1 ++ os2)), (crun c s1 os1). done. Qed.
Lemma crun_cons c s o os : (crun c s (o :: os)).2 = (crun c (cstep c s o).2 os).2.
Proof. cbn [crun]. destruct (cstep c s o) as [a s1]. cbn [snd]. by destruct (crun c s1 os). Qed.
Lemma count_cons p o h : count p (o :: h) = ((if p o then 1 else 0) + count p h)%nat.
Proof. unfold count. rewrite filter_cons. case_decide as H; [by rewrite H|]. apply not_true_is_false in H. by rewrite H. Qed.
Lemma should_keeps c now s : let s' := (should_reconnect c now s).2 in
  m_retry s' = m_retry s ∧ m_fail s' = m_fail s ∧ m_attempts s' = m_attempts s ∧ m_successes s' = m_successes s.
Proof. cbn zeta. unfold should_reconnect. repeat case_match; done. Qed.
Lemma stats_run c os : ∀ s, m_attempts (crun c s os).2 = (m_attempts s + count is_attempt os)%nat ∧ m_successes (crun c s os).2 = (m_successes s + count is_success os)%nat.
Proof.
  induction os as [|o os IH]; intros s; [cbn; by rewrite !Nat.add_0_r|]. rewrite crun_cons, !count_cons. destruct (IH (cstep c s o).2) as [-> ->].
  destruct o; cbn [cstep is_attempt is_success].
  1: { pose proof (should_keeps c now s) as (_ & _ & H1 & H2). destruct (should_reconnect c now s). cbn in *. lia. }
  all: cbn [snd]; try (unfold on_failed; case_match); cbn; lia.
Qed.
Lemma fail_run c os : no_success os → ∀ s, m_fail (crun c s os).2 = (m_fail s + failures os)%nat.
Proof.
  induction 1 as [|o os Ho Hos IH]; intros s; [cbn; by rewrite Nat.add_0_r|]. rewrite crun_cons, IH. change (failures (o :: os)) with (count is_failure (o :: os)). change (failures os) with (count is_failure os). rewrite count_cons.
  destruct o; cbn [cstep is_failure]; try done.
  1: { pose proof (should_keeps c now s) as (_ & H & _). destruct (should_reconnect c now s). cbn in *. lia. }
  all: cbn [snd]; try (unfold on_failed; case_match); cbn; lia.
Qed.
Lemma retry_run c os : no_reset os → ∀ s, m_retry (crun c s os).2 = (m_retry s + failures os)%nat.
Proof.
  induction 1 as [|o os Ho Hos IH]; intros s; [cbn; by rewrite Nat.add_0_r|]. rewrite crun_cons, IH. change (failures (o :: os)) with (count is_failure (o :: os)). change (failures os) with (count is_failure os). rewrite count_cons.
  destruct o; cbn [cstep is_failure]; try done.
  1: { pose proof (should_keeps c now s) as (H & _). destruct (should_reconnect c now s). cbn in *. lia. }
  all: cbn [snd]; try (unfold on_failed; case_match); cbn; lia.
Qed.
Lemma reconnect_stats c connect t0 t1 t2 fuel : ∀ i s r n w s', reconnect_with c connect t0 t1 t2 fuel i s = Some (r, n, w, s') →
  (i ≤ n)%nat ∧ m_attempts s' = (m_attempts s + (n - i))%nat ∧ m_successes s' = (m_successes s + match r with ROk => 1 | _ => 0 end)%nat.
Proof.
  induction fuel as [|fuel IH]; intros i s r n w s' H; [done|]. cbn [reconnect_with] in H.
  pose proof (should_keeps c (t0 i) s) as (_ & _ & A0 & S0). destruct (should_reconnect c (t0 i) s) as [ok s0]. cbn in A0, S0. destruct ok; [|simplify_eq; lia].
  destruct (connect i); [simplify_eq; cbn; lia|].
  assert (m_attempts (on_failed c (t1 i) (on_connecting s0)) = S (m_attempts s0) ∧ m_successes (on_failed c (t1 i) (on_connecting s0)) = m_successes s0) as [A1 S1] by (unfold on_failed; repeat case_match; done).
  pose proof (should_keeps c (t2 i) (on_failed c (t1 i) (on_connecting s0))) as (_ & _ & A2 & S2). destruct (should_reconnect c (t2 i) (on_failed c (t1 i) (on_connecting s0))) as [ok2 s2]. cbn in A2, S2.
  destruct ok2; [|simplify_eq; lia]. destruct (reconnect_with c connect t0 t1 t2 fuel (S i) s2) as [[[[r0 n0] w0] s0']|] eqn:E; [|done]. simplify_eq. apply IH in E as (? & ? & ?). lia.
Qed.
