From stdpp Require Import gmap strings list.
From Verif Require Import RecoveryModel RecoverySpec.
Local Open Scope Z_scope.

(** *** Retries *)
Section retries.
  Context (op : nat → outcome).
  Lemma retry_loop_spec next mul maxd : (∀ d, 0 ≤ d → ∃ d', next d = Some d' ∧ 0 ≤ d' ∧ d' = Z.min (mul d) maxd) →
    ∀ a d i e, 0 ≤ d → op i = Fail e → (∀ j, (j < S i)%nat → failed (op j)) →
    ∃ r n, retry_loop op next a d (S i) e = (Returned r, n, geometric mul maxd d (n - S i)) ∧
      (S i ≤ n ≤ S i + a)%nat ∧ (∀ j, (S j < n)%nat → failed (op j)) ∧ r = op (n - 1)%nat ∧ (failed r → n = S i + a)%nat.
  Proof.
    intros Hnext. induction a as [|a IH]; intros d i e Hd He Hp.
    - exists (Fail e), (S i). cbn [retry_loop]. rewrite Nat.sub_diag. split; [done|]. split; [lia|]. split.
      { intros j Hj. apply Hp. lia. }
      split; [|lia]. replace (S i - 1)%nat with i by lia. done.
    - cbn [retry_loop]. destruct (op (S i)) as [v|e'] eqn:E.
      + exists (Done v), (S (S i)). split.
        { replace (S (S i) - S i)%nat with 1%nat by lia. done. }
        split; [lia|]. split; [intros j Hj; apply Hp; lia|].
        split; [|done]. replace (S (S i) - 1)%nat with (S i) by lia. done.
      + destruct (Hnext d Hd) as (d' & -> & Hd' & Heq).
        destruct (IH d' (S i) e' Hd' E) as (r & n & Hr & Hn & Hf & Hl & Hx).
        { intros j Hj. destruct (decide (j = S i)) as [->|]; [by rewrite E|]. apply Hp. lia. }
        rewrite Hr. exists r, n. split.
        { replace (n - S i)%nat with (S (n - S (S i)))%nat by lia. cbn [geometric]. by rewrite Heq. }
        split; [lia|]. split; [done|]. split; [done|]. intros Hrf. rewrite Hx by done. lia.
  Qed.
  Lemma geometric_const d n : geometric (λ x, x) d d n = replicate n d.
  Proof. induction n as [|n IH]; [done|]. cbn. rewrite Z.min_id. by rewrite IH. Qed.
  Lemma retry_fixed_loop a d : ∀ i e, op i = Fail e → (∀ j, (j < S i)%nat → failed (op j)) →
    ∃ r n, retry_loop op Some a d (S i) e = (Returned r, n, replicate (n - S i) d) ∧
      (S i ≤ n ≤ S i + a)%nat ∧ (∀ j, (S j < n)%nat → failed (op j)) ∧ r = op (n - 1)%nat ∧ (failed r → n = S i + a)%nat.
  Proof.
    induction a as [|a IH]; intros i e He Hp.
    - exists (Fail e), (S i). cbn [retry_loop]. rewrite Nat.sub_diag. split; [done|]. split; [lia|]. split.
      { intros j Hj. apply Hp. lia. }
      split; [|lia]. replace (S i - 1)%nat with i by lia. done.
    - cbn [retry_loop]. destruct (op (S i)) as [v|e'] eqn:E.
      + exists (Done v), (S (S i)). split.
        { replace (S (S i) - S i)%nat with 1%nat by lia. done. }
        split; [lia|]. split; [intros j Hj; apply Hp; lia|].
        split; [|done]. replace (S (S i) - 1)%nat with (S i) by lia. done.
      + destruct (IH (S i) e' E) as (r & n & Hr & Hn & Hf & Hl & Hx).
        { intros j Hj. destruct (decide (j = S i)) as [->|]; [by rewrite E|]. apply Hp. lia. }
        rewrite Hr. exists r, n. split.
        { replace (n - S i)%nat with (S (n - S (S i)))%nat by lia. done. }
        split; [lia|]. split; [done|]. split; [done|]. intros Hrf. rewrite Hx by done. lia.
  Qed.
  Lemma execute_fixed clock x id a d :
    (∀ e, op 0%nat = Fail e → get_strategy (x_policy x) (default internal_error (e_code e)) = RetryFixed a d) →
    ∃ r n x', execute op clock x id = (Returned r, n, replicate (n - 1) d, x') ∧ tried op (1 + a) n r.
  Proof.
    intros Hs. unfold execute. destruct (op 0%nat) as [v|e] eqn:E.
    - eexists (Done v), 1%nat, _. split; [done|]. split; [lia|]. split; [lia|]. split; [by rewrite <-E|done].
    - rewrite (Hs e) by done. destruct (retry_fixed_loop a d 0%nat e E) as (r & n & Hr & Hn & Hf & Hl & Hx).
      { intros j Hj. assert (j = 0%nat) as -> by lia. by rewrite E. }
      exists r, n, x. unfold retry_fixed. rewrite Hr. split; [done|]. split; [lia|]. split; [done|]. split; [done|]. intros ?. by rewrite Hx.
  Qed.
  Lemma execute_exponential clock x id a i m f : 0 ≤ i → 0 ≤ m → (∀ d, 0 ≤ d → 0 ≤ f d) →
    (∀ e, op 0%nat = Fail e → get_strategy (x_policy x) (default internal_error (e_code e)) = RetryExponential a i m f) →
    ∃ r n x', execute op clock x id = (Returned r, n, geometric f m i (n - 1), x') ∧ tried op (1 + a) n r.
  Proof.
    intros Hi Hm Hf Hs. unfold execute. destruct (op 0%nat) as [v|e] eqn:E.
    - eexists (Done v), 1%nat, _. split; [done|]. split; [lia|]. split; [lia|]. split; [by rewrite <-E|done].
    - rewrite (Hs e) by done. destruct (retry_loop_spec (exp_next m f) f m) with (a := a) (d := i) (i := 0%nat) (e := e) as (r & n & Hr & Hn & Hff & Hl & Hx); [|done|done| |].
      { intros d Hd. unfold exp_next. pose proof (Hf d Hd). rewrite bool_decide_eq_false_2 by lia. eexists. split; [done|]. split; [lia|done]. }
      { intros j Hj. assert (j = 0%nat) as -> by lia. by rewrite E. }
      exists r, n, x. unfold retry_exponential. rewrite Hr. split; [done|]. split; [lia|]. split; [done|]. split; [done|]. intros ?. by rewrite Hx.
  Qed.
  Lemma geometric_capped f m d n x : x ∈ tail (geometric f m d n) → x ≤ m.
  Proof.
    destruct n as [|n]; cbn; [by inversion 1|].
    assert (∀ n d, d ≤ m → ∀ x, x ∈ geometric f m d n → x ≤ m) as H; [|apply H; lia].
    clear. induction n as [|n IH]; intros d Hd x; cbn; [by inversion 1|].
    rewrite elem_of_cons. intros [->|H]; [done|]. eapply IH; [|done]. lia.
  Qed.
  Lemma geometric_nth f m d n i : (i < n)%nat → geometric f m d n !! i = Some (Nat.iter i (λ x, Z.min (f x) m) d).
  Proof.
    revert d i. induction n as [|n IH]; intros d i Hi; [lia|]. destruct i as [|i]; [done|].
    cbn [geometric lookup list_lookup]. rewrite IH by lia. by rewrite Nat.iter_succ_r.
  Qed.
  Lemma with_retry_spec a d : (0 < a)%nat →
    ∃ r n, with_retry op a d = (r, n, replicate (n - 1) d) ∧ tried op a n r.
  Proof.
    intros Ha. unfold with_retry. destruct a as [|a]; [lia|]. cbn [with_retry_loop]. rewrite bool_decide_eq_true_2 by done.
    destruct (op 0%nat) as [v|e] eqn:E.
    - exists (Done v), 1%nat. split; [done|]. split; [lia|]. split; [lia|]. split; [by rewrite <-E|done].
    - assert (∀ a i e, op i = Fail e → (∀ j, (j < S i)%nat → failed (op j)) →
        ∃ r n, with_retry_loop op a d (S i) (Some e) = (r, n, replicate (n - S i) d) ∧
          (S i ≤ n ≤ S i + a)%nat ∧ (∀ j, (S j < n)%nat → failed (op j)) ∧ r = op (n - 1)%nat ∧ (failed r → n = S i + a)%nat) as H.
      { clear. induction a as [|a IH]; intros i e He Hp.
        - exists (Fail e), (S i). cbn [with_retry_loop]. rewrite Nat.sub_diag. split; [done|]. split; [lia|]. split.
          { intros j Hj. apply Hp. lia. }
          split; [|lia]. replace (S i - 1)%nat with i by lia. done.
        - cbn [with_retry_loop]. rewrite bool_decide_eq_false_2 by done. destruct (op (S i)) as [v|e'] eqn:E.
          + exists (Done v), (S (S i)). split.
            { replace (S (S i) - S i)%nat with 1%nat by lia. done. }
            split; [lia|]. split; [intros j Hj; apply Hp; lia|].
            split; [|done]. replace (S (S i) - 1)%nat with (S i) by lia. done.
          + destruct (IH (S i) e' E) as (r & n & Hr & Hn & Hf & Hl & Hx).
            { intros j Hj. destruct (decide (j = S i)) as [->|]; [by rewrite E|]. apply Hp. lia. }
            rewrite Hr. exists r, n. split.
            { replace (n - S i)%nat with (S (n - S (S i)))%nat by lia. done. }
            split; [lia|]. split; [done|]. split; [done|]. intros Hrf. rewrite Hx by done. lia. }
      destruct (H a 0%nat e E) as (r & n & Hr & Hn & Hf & Hl & Hx).
      { intros j Hj. assert (j = 0%nat) as -> by lia. by rewrite E. }
      rewrite Hr. exists r, n. split; [done|]. split; [lia|]. split; [done|]. split; [done|]. intros ?. by rewrite Hx.
  Qed.
  Lemma execute_calls clock x id : (1 ≤ (execute op clock x id).1.1.2)%nat.
  Proof.
    assert (∀ next a d i e, (i ≤ (retry_loop op next a d i e).1.2)%nat) as H.
    { intros next a. induction a as [|a IH]; intros d i e; cbn [retry_loop]; [done|].
      destruct (op i); [cbn; lia|]. destruct (next d); [|cbn; lia].
      specialize (IH z (S i) e0). destruct (retry_loop _ _ _ _ _ _) as [[??]?]. cbn in *. lia. }
    unfold execute. destruct (op 0%nat); [done|]. destruct (get_strategy _ _).
    - apply H.
    - apply H.
    - done.
    - unfold guarded. destruct (allow_request _ _) as [[] ?]; [|done]. destruct (op 1%nat); cbn; lia.
    - done.
  Qed.
End retries.

(** *** Circuit breakers *)
Lemma brun_app b h1 h2 : brun b (h1 ++ h2) = let '(r1, b1) := brun b h1 in let '(r2, b2) := brun b1 h2 in (r1 ++ r2, b2).
Proof.
  revert b. induction h1 as [|o h1 IH]; intros b; cbn [brun app].
  - by destruct (brun b h2).
  - destruct (bstep b o) as [a b1]. rewrite IH. destruct (brun b1 h1) as [r1 b2]. by destruct (brun b2 h2).
Qed.
Lemma brun_cons b o h : brun b (o :: h) = ((bstep b o).1 :: (brun (bstep b o).2 h).1, (brun (bstep b o).2 h).2).
Proof. cbn [brun]. destruct (bstep b o) as [a b1]. cbn. by destruct (brun b1 h). Qed.

Definition closed_with (c : config) (n : nat) (b : breaker) : Prop := b_state b = Closed ∧ b_failures b = n ∧ b_config b = c.
Lemma below_cons_inv th n o h : (∀ h1 h2, o :: h = h1 ++ h2 → (failures_since n h1 < Nat.max 1 th)%nat) →
  (failures_since n [o] < Nat.max 1 th)%nat ∧ (∀ h1 h2, h = h1 ++ h2 → (failures_since (failures_since n [o]) h1 < Nat.max 1 th)%nat).
Proof.
  intros H. split; [by apply (H [o] h)|]. intros h1 h2 ->. specialize (H (o :: h1) h2 eq_refl). by destruct o.
Qed.
Lemma below_run c h : ∀ n b, closed_with c n b → (∀ h1 h2, h = h1 ++ h2 → (failures_since n h1 < Nat.max 1 (c_failures c))%nat) →
  all_allowed (brun b h).1 ∧ closed_with c (failures_since n h) (brun b h).2.
Proof.
  induction h as [|o h IH]; intros n b Hb Hbelow; [split; [by constructor|done]|].
  apply below_cons_inv in Hbelow as [Hn Hrest]. destruct Hb as (Hs & Hf & Hc). rewrite brun_cons. cbn [fst snd].
  assert (closed_with c (failures_since n [o]) (bstep b o).2 ∧ ((bstep b o).1 = None ∨ (bstep b o).1 = Some true)) as [Hb' Ha].
  { destruct o as [now| |now]; cbn [bstep failures_since].
    - unfold allow_request. rewrite Hs. cbn. split; [done|by right].
    - unfold record_success. rewrite Hs. cbn. split; [by repeat split|by left].
    - unfold record_failure. rewrite Hs. cbn [failures_since] in Hn. cbn [failure_act fst snd].
      rewrite Hf, Hc. rewrite bool_decide_eq_false_2 by lia. split; [|by left]. repeat split; done. }
  destruct (IH _ _ Hb' Hrest) as [H1 H2]. split; [by constructor|]. destruct o; exact H2.
Qed.
Lemma new_closed c : closed_with c 0 (breaker_new c).
Proof. done. Qed.
Definition open_since (c : config) (t : Z) (b : breaker) : Prop := b_state b = Open ∧ b_last b = Some t ∧ b_config b = c.
Lemma waiting_run c h : ∀ t b, open_since c t b → waiting (c_timeout c) t h →
  none_allowed (brun b h).1 ∧ ∃ t', open_since c t' (brun b h).2 ∧ (∀ now, waiting (c_timeout c) t (h ++ [Allow now]) ↔ now - t' < c_timeout c).
Proof.
  induction h as [|o h IH]; intros t b (Hs & Hl & Hc) Hw.
  - split; [by constructor|]. exists t. split; [done|]. intros now. split; [by inversion 1|]. intros. by repeat constructor.
  - rewrite brun_cons. cbn [fst snd]. inversion Hw as [|? now ? Hlt Hw'|? now ? Hw']; subst; cbn [bstep].
    + unfold allow_request. rewrite Hs. cbn [allow_act]. rewrite Hl. rewrite bool_decide_eq_false_2 by lia. cbn [fst snd].
      destruct (IH t b) as [H1 (t' & Ht' & H2)]; [done|done|]. split; [constructor; [by right|done]|].
      exists t'. split; [done|]. intros now2. rewrite <-H2. cbn. split; [by inversion 1|by constructor].
    + unfold record_failure. rewrite Hs. cbn [failure_act fst snd].
      destruct (IH now (MkBreaker (b_state b) (b_failures b) (b_successes b) (Some now) (b_config b))) as [H1 (t' & Ht' & H2)]; [by rewrite Hs|done|].
      rewrite Hs in *. split; [constructor; [by left|done]|]. exists t'. split; [done|]. intros now2. rewrite <-H2. cbn. split; [by inversion 1|by constructor].
Qed.
Lemma opens c h now : below (c_failures c) h → S (failures_since 0 h) = Nat.max 1 (c_failures c) →
  open_since c now (brun (breaker_new c) (h ++ [Failure now])).2.
Proof.
  intros Hb Hn. destruct (below_run c h 0 (breaker_new c) (new_closed c) Hb) as [_ (Hs & Hf & Hc)].
  rewrite brun_app. destruct (brun (breaker_new c) h) as [r b]. cbn [snd] in *. cbn [brun bstep]. cbn [snd].
  unfold record_failure. rewrite Hs. cbn [failure_act]. rewrite Hf, Hc. rewrite bool_decide_eq_true_2 by lia. done.
Qed.
Definition trying (c : config) (n : nat) (b : breaker) : Prop := b_state b = HalfOpen ∧ b_successes b = n ∧ b_config b = c.
Lemma trial_run c h : ∀ k n b, trying c k b → trial n h → (k + n < Nat.max 1 (c_successes c))%nat →
  all_allowed (brun b h).1 ∧ trying c (k + n) (brun b h).2.
Proof.
  induction h as [|o h IH]; intros k n b (Hs & Hk & Hc) Ht Hn.
  - cbn in Ht. subst n. rewrite Nat.add_0_r. split; [by constructor|done].
  - rewrite brun_cons. cbn [fst snd]. destruct o as [now| |now]; cbn [trial] in Ht; [| |done]; cbn [bstep].
    + unfold allow_request. rewrite Hs. cbn. destruct (IH k n b) as [? ?]; [done..|]. split; [constructor; [by right|done]|done].
    + destruct n as [|n]; [done|]. unfold record_success. rewrite Hs. cbn [success_act]. rewrite Hk, Hc.
      rewrite bool_decide_eq_false_2 by lia. cbn [fst snd].
      destruct (IH (S k) n (MkBreaker (b_state b) (b_failures b) (S k) (b_last b) c)) as [? ?]; [by rewrite Hs|done|lia|].
      rewrite Hs in *. split; [constructor; [by left|done]|]. by replace (k + S n)%nat with (S k + n)%nat by lia.
Qed.
Lemma half_opens c t now b : open_since c t b → c_timeout c ≤ now - t →
  (bstep b (Allow now)).1 = Some true ∧ trying c 0 (bstep b (Allow now)).2.
Proof.
  intros (Hs & Hl & Hc) Ht. cbn [bstep]. unfold allow_request. rewrite Hs. cbn [allow_act]. rewrite Hl, Hc.
  rewrite bool_decide_eq_true_2 by done. done.
Qed.
Lemma trial_fails c n now b : trying c n b → open_since c now (bstep b (Failure now)).2.
Proof. intros (Hs & Hk & Hc). cbn [bstep]. unfold record_failure. rewrite Hs. done. Qed.
Lemma trial_closes c n b : trying c n b → (Nat.max 1 (c_successes c) ≤ S n)%nat → closed_with c 0 (bstep b Success).2.
Proof.
  intros (Hs & Hk & Hc) Hn. cbn [bstep]. unfold record_success. rewrite Hs. cbn [success_act]. rewrite Hk, Hc.
  rewrite bool_decide_eq_true_2 by lia. done.
Qed.
(** Breakers that differ only in what the state makes irrelevant behave alike. *)
Definition similar (b1 b2 : breaker) : Prop :=
  b_config b1 = b_config b2 ∧ b_state b1 = b_state b2 ∧ (b_state b1 = Closed → b_failures b1 = b_failures b2) ∧
  (b_state b1 = Open → b_last b1 = b_last b2) ∧ (b_state b1 = HalfOpen → b_successes b1 = b_successes b2).
Lemma similar_step b1 b2 o : similar b1 b2 → (bstep b1 o).1 = (bstep b2 o).1 ∧ similar (bstep b1 o).2 (bstep b2 o).2.
Proof.
  intros (Hc & Hs & H1 & H2 & H3). destruct b1 as [s1 f1 n1 l1 c1], b2 as [s2 f2 n2 l2 c2].
  cbn in Hc, Hs, H1, H2, H3. subst s2 c2.
  destruct o as [now| |now]; cbn [bstep]; unfold allow_request, record_success, record_failure; cbn [b_state].
  - destruct s1; cbn [allow_act b_last b_config b_state b_failures b_successes]; [by repeat split; try naive_solver| |by repeat split; try naive_solver].
    rewrite <-H2 by done. destruct l1 as [t|]; [|by repeat split; try naive_solver].
    destruct (bool_decide _); by repeat split; try naive_solver.
  - destruct s1; cbn [success_act b_last b_config b_state b_failures b_successes]; try (by repeat split; try naive_solver).
    rewrite H3 by done. destruct (bool_decide _); by repeat split; try naive_solver.
  - destruct s1; cbn [failure_act b_last b_config b_state b_failures b_successes]; try (by repeat split; try naive_solver).
    rewrite H1 by done. destruct (bool_decide _); by repeat split; try naive_solver.
Qed.
Lemma similar_run h : ∀ b1 b2, similar b1 b2 → (brun b1 h).1 = (brun b2 h).1.
Proof.
  induction h as [|o h IH]; intros b1 b2 Hs; [done|]. rewrite !brun_cons. cbn [fst].
  destruct (similar_step b1 b2 o Hs) as [-> H]. f_equal. by apply IH.
Qed.
Lemma closed_similar c b : closed_with c 0 b → similar b (breaker_new c).
Proof. intros (Hs & Hf & Hc). repeat split; cbn; try done; by rewrite Hs. Qed.
(** An open breaker waits since the last failure of its history. *)
Lemma open_last_gen c h : ∀ b t0, b_config b = c → (b_state b = Open → b_last b = t0 ∧ is_Some t0) →
  b_config (brun b h).2 = c ∧ (b_state (brun b h).2 = Open → b_last (brun b h).2 = last_failure t0 h ∧ is_Some (last_failure t0 h)).
Proof.
  induction h as [|o h IH]; intros b t0 Hc Hb; [done|]. rewrite brun_cons. cbn [snd].
  assert (last_failure t0 (o :: h) = last_failure (last_failure t0 [o]) h) as -> by (by destruct o).
  apply IH.
  - destruct o; cbn [bstep]; unfold allow_request, record_success, record_failure; destruct (b_state b); cbn;
      repeat case_match; simplify_eq; done.
  - destruct b as [s f n l c']. cbn in *. destruct o; cbn [bstep]; unfold allow_request, record_success, record_failure; cbn [b_state];
      destruct s; cbn; repeat case_match; simplify_eq; cbn; try done; try (by eauto); try naive_solver.
Qed.
Lemma open_last c h : b_state (brun (breaker_new c) h).2 = Open →
  ∃ t, last_failure None h = Some t ∧ open_since c t (brun (breaker_new c) h).2.
Proof.
  intros Ho. destruct (open_last_gen c h (breaker_new c) None) as [Hc Hl]; [done|done|].
  destruct (Hl Ho) as [Hb [t Ht]]. exists t. split; [done|]. split; [done|]. split; [by rewrite Hb|done].
Qed.
Lemma open_then_trial c h now n h3 : b_state (brun (breaker_new c) h).2 = Open →
  (∀ t, last_failure None h = Some t → c_timeout c ≤ now - t) → trial n h3 → (n < Nat.max 1 (c_successes c))%nat →
  let b := (brun (breaker_new c) h).2 in
  let b' := (brun b (Allow now :: h3)).2 in
  all_allowed (brun b (Allow now :: h3)).1 ∧
  (∀ now2 h4, waiting (c_timeout c) now2 h4 → none_allowed (brun b' (Failure now2 :: h4)).1) ∧
  (S n = Nat.max 1 (c_successes c) → like_new c (brun b' [Success]).2).
Proof.
  intros Ho Ht Hn Hlt. apply open_last in Ho as (t & Hlast & Hb). specialize (Ht t Hlast). cbn zeta.
  set (b := (brun (breaker_new c) h).2) in *. destruct (half_opens c t now b Hb Ht) as [Ha Htr].
  rewrite brun_cons. cbn [fst snd]. destruct (trial_run c h3 0 n _ Htr Hn) as [Hall Htr2]; [lia|].
  set (b' := (brun (bstep b (Allow now)).2 h3).2) in *. split; [constructor; [by right|done]|]. split.
  - intros now2 h4 Hw. rewrite brun_cons. cbn [fst]. constructor; [by left|].
    apply (waiting_run c h4 now2); [|done]. eapply trial_fails, Htr2.
  - intros Hs h'. apply similar_run, closed_similar. cbn [brun].
    change (closed_with c 0 (bstep b' Success).2). eapply trial_closes; [exact Htr2|]. lia.
Qed.
Lemma open_blocks c h h2 : b_state (brun (breaker_new c) h).2 = Open →
  (∀ t, last_failure None h = Some t → waiting (c_timeout c) t h2) →
  none_allowed (brun (brun (breaker_new c) h).2 h2).1.
Proof.
  intros Ho Hw. apply open_last in Ho as (t & Hlast & Hb). eapply waiting_run; [exact Hb|]. by apply Hw.
Qed.
Lemma guarded_open op clock x id b t e f s to :
  op 0%nat = Fail e → get_strategy (x_policy x) (default internal_error (e_code e)) = Breaker f s to →
  x_breakers x !! id = Some b → b_state b = Open → b_last b = Some t → clock 0%nat - t < c_timeout (b_config b) →
  execute op clock x id = (Returned (Fail open_error), 1%nat, [], with_breakers x (<[id := b]> (x_breakers x))).
Proof.
  intros Ho Hs Hb Hst Hl Hlt. unfold execute. rewrite Ho, Hs. unfold guarded. rewrite Hb. change (default (breaker_new (MkConfig f s to)) (Some b)) with b.
  unfold allow_request. rewrite Hst. cbn [allow_act]. rewrite Hl. rewrite bool_decide_eq_false_2 by lia. done.
Qed.

(** *** The breakers of an executor *)
Definition breaker_of (c : config) (x : executor) (id : string) : breaker := default (breaker_new c) (x_breakers x !! id).
Lemma execute_told c x e id : guards c x →
  let r := execute (ex_op e) (ex_clock e) x (ex_id e) in
  let t := told id e r.1.1.2 in
  guards c r.2 ∧ brun (breaker_of c x id) t.*1 = (t.*2, breaker_of c r.2 id).
Proof.
  intros Hg. destruct e as [i op clock]. cbn zeta. cbn [ex_id ex_op ex_clock]. unfold execute.
  destruct (op 0%nat) as [v|err] eqn:H0.
  - destruct (x_breakers x !! i) as [b|] eqn:Hb; cbn [fst snd].
    + split; [done|]. unfold told. cbn [ex_id ex_op ex_clock]. rewrite H0. case_bool_decide as Hi.
      * subst id. unfold breaker_of. cbn. by rewrite Hb, lookup_insert.
      * unfold breaker_of. cbn. by rewrite lookup_insert_ne.
    + split; [done|]. unfold told. cbn [ex_id ex_op ex_clock]. rewrite H0. case_bool_decide as Hi; [|done].
      subst id. unfold breaker_of. cbn. by rewrite Hb.
  - rewrite (Hg (default internal_error (e_code err))). unfold guarded.
    assert (MkConfig (c_failures c) (c_successes c) (c_timeout c) = c) as -> by (by destruct c).
    fold (breaker_of c x i). destruct (allow_request (clock 0%nat) (breaker_of c x i)) as [[] b'] eqn:Ha.
    + destruct (op 1%nat) as [v|err'] eqn:H1; cbn [fst snd]; (split; [done|]); unfold told; cbn [ex_id ex_op ex_clock]; rewrite H0, bool_decide_eq_true_2 with (P := (2 = 2)%nat) by done;
        case_bool_decide as Hi; [subst id| |subst id|]; unfold breaker_of in *; cbn [x_breakers with_breakers]; try (rewrite lookup_insert_ne by done; done); rewrite lookup_insert, H1; cbn; by rewrite Ha.
    + cbn [fst snd]. split; [done|]. unfold told. cbn [ex_id ex_op ex_clock]. rewrite H0, bool_decide_eq_false_2 with (P := (1 = 2)%nat) by done.
      case_bool_decide as Hi; [subst id|]; unfold breaker_of in *; cbn [x_breakers with_breakers]; [|by rewrite lookup_insert_ne]. rewrite lookup_insert. cbn. by rewrite Ha.
Qed.
Lemma executions_told c id l : ∀ x, guards c x →
  let r := executions x l in
  let t := history id l (snd <$> r.1) in
  brun (breaker_of c x id) t.*1 = (t.*2, breaker_of c r.2 id) ∧ guards c r.2 ∧ length r.1 = length l.
Proof.
  induction l as [|e l IH]; intros x Hg; cbn zeta; [done|]. cbn [executions].
  destruct (execute_told c x e id Hg) as [Hg' Hb]. specialize (IH _ Hg'). cbn zeta in IH, Hb.
  destruct (executions (execute (ex_op e) (ex_clock e) x (ex_id e)).2 l) as [rs x']. cbn [fst snd] in *. destruct IH as (IH1 & IH2 & IH3).
  split_and!; [|done|cbn; by rewrite IH3].
  unfold history in *. cbn [fmap list_fmap zip_with concat]. rewrite !fmap_app, brun_app, Hb, IH1. done.
Qed.
Lemma execute_answer c x e : guards c x →
  let r := execute (ex_op e) (ex_clock e) x (ex_id e) in
  match ex_op e 0%nat with
  | Done v => r.1 = (Returned (Done v), 1%nat, [])
  | Fail _ => r.1 = if (allow_request (ex_clock e 0%nat) (breaker_of c x (ex_id e))).1 then (Returned (ex_op e 1%nat), 2%nat, []) else (Returned (Fail open_error), 1%nat, [])
  end.
Proof.
  intros Hg. cbn zeta. unfold execute. destruct (ex_op e 0%nat) as [v|err] eqn:H0; [done|].
  rewrite (Hg (default internal_error (e_code err))). unfold guarded. assert (MkConfig (c_failures c) (c_successes c) (c_timeout c) = c) as -> by (by destruct c).
  fold (breaker_of c x (ex_id e)). cbn [bstep]. destruct (allow_request _ _) as [[] b'] eqn:Ha; cbn [fst snd]; [|done]. by destruct (ex_op e 1%nat).
Qed.
Lemma executions_app x l1 l2 : executions x (l1 ++ l2) = ((executions x l1).1 ++ (executions (executions x l1).2 l2).1, (executions (executions x l1).2 l2).2).
Proof.
  revert x. induction l1 as [|e l1 IH]; intros x; cbn [executions app]; [cbn; by destruct (executions x l2)|].
  rewrite IH. destruct (executions (execute (ex_op e) (ex_clock e) x (ex_id e)).2 l1) as [rs x']. done.
Qed.
(** Executions that fail both times leave the breaker of a fresh executor closed until the threshold … *)
Definition fails_twice (id : string) (e : execution) : Prop := ex_id e = id ∧ failed (ex_op e 0%nat) ∧ failed (ex_op e 1%nat).
Lemma failing_run c id l : ∀ x n, guards c x → closed_with c n (breaker_of c x id) → Forall (fails_twice id) l → (n + length l < Nat.max 1 (c_failures c))%nat →
  Forall (λ r, r.2 = 2%nat) (executions x l).1 ∧ closed_with c (n + length l) (breaker_of c (executions x l).2 id).
Proof.
  induction l as [|e l IH]; intros x n Hg Hc Hl Hn; [cbn; by rewrite Nat.add_0_r|]. apply Forall_cons in Hl as [(He & H0 & H1) Hl].
  pose proof (execute_answer c x e Hg) as Ha. destruct (execute_told c x e id Hg) as [Hg' Hb]. cbn zeta in Ha, Hb.
  destruct (ex_op e 0%nat) as [|e0] eqn:E0; [done|]. destruct (ex_op e 1%nat) as [|e1] eqn:E1; [done|].
  rewrite He in Ha. assert ((allow_request (ex_clock e 0%nat) (breaker_of c x id)).1 = true) as Hal. { destruct Hc as (Hc & _). unfold allow_request. by rewrite Hc. }
  rewrite Hal in Ha. rewrite He in Hb, Hg'. rewrite Ha in Hb. unfold told in Hb. cbn [fst snd] in Hb. rewrite bool_decide_eq_true_2 in Hb by done. rewrite E0, E1 in Hb. rewrite bool_decide_eq_true_2 in Hb by done.
  cbn [fmap list_fmap fst snd reported] in Hb.
  assert (closed_with c (S n) (breaker_of c (execute (ex_op e) (ex_clock e) x id).2 id)) as Hc'.
  { apply (f_equal snd) in Hb. cbn [snd] in Hb. rewrite <-Hb. destruct Hc as (Hs & Hf & Hcf). cbn. unfold allow_request. rewrite Hs. cbn. unfold record_failure. rewrite Hs. cbn [failure_act].
    cbn in Hn. rewrite Hf, Hcf. rewrite bool_decide_eq_false_2 by lia. cbn. by split_and!. }
  destruct (IH (execute (ex_op e) (ex_clock e) x id).2 (S n) Hg' Hc' Hl) as [IH1 IH2]; [cbn in Hn; lia|].
  cbn [executions]. rewrite He. destruct (executions (execute (ex_op e) (ex_clock e) x id).2 l) as [rs x']. cbn [fst snd] in *. split; [constructor; [by rewrite Ha|done]|].
  cbn [length]. by rewrite Nat.add_succ_r.
Qed.
(** … and the one that reaches it opens it. *)
Lemma failing_opens c id l e x : guards c x → x_breakers x !! id = None → Forall (fails_twice id) (l ++ [e]) → length (l ++ [e]) = Nat.max 1 (c_failures c) →
  Forall (λ r, r.2 = 2%nat) (executions x (l ++ [e])).1 ∧ open_since c (ex_clock e 1%nat) (breaker_of c (executions x (l ++ [e])).2 id) ∧ guards c (executions x (l ++ [e])).2.
Proof.
  intros Hg Hx Hl Hn. apply Forall_app in Hl as [Hl He]. apply Forall_cons in He as [(He & H0 & H1) _]. rewrite app_length in Hn. cbn in Hn.
  assert (closed_with c 0 (breaker_of c x id)) as Hc by (unfold breaker_of; by rewrite Hx).
  destruct (failing_run c id l x 0 Hg Hc Hl) as [R1 (Hs & Hf & Hcf)]; [lia|]. destruct (executions_told c id l x Hg) as (_ & Hg1 & _).
  rewrite executions_app. set (x1 := (executions x l).2) in *. cbn [fst snd executions].
  pose proof (execute_answer c x1 e Hg1) as Ha. destruct (execute_told c x1 e id Hg1) as [Hg' Hb]. cbn zeta in Ha, Hb.
  destruct (ex_op e 0%nat) as [|e0] eqn:E0; [done|]. destruct (ex_op e 1%nat) as [|e1] eqn:E1; [done|].
  rewrite He in Ha. assert ((allow_request (ex_clock e 0%nat) (breaker_of c x1 id)).1 = true) as Hal. { unfold allow_request. by rewrite Hs. }
  rewrite Hal in Ha. rewrite He in Hb, Hg'. rewrite Ha in Hb. unfold told in Hb. cbn [fst snd] in Hb. rewrite bool_decide_eq_true_2 in Hb by done. rewrite E0, E1 in Hb. rewrite bool_decide_eq_true_2 in Hb by done.
  cbn [fmap list_fmap fst snd reported] in Hb. rewrite He. split_and!; [|..|done].
  - apply Forall_app. split; [done|]. constructor; [by rewrite Ha|constructor].
  - apply (f_equal snd) in Hb. cbn [snd] in Hb. rewrite <-Hb. cbn. unfold allow_request. rewrite Hs. cbn. unfold record_failure. rewrite Hs. cbn [failure_act]. rewrite Hf, Hcf. rewrite bool_decide_eq_true_2 by lia. done.
Qed.
