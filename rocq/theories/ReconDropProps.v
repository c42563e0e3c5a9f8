(** Theorems about reconnecting with calls that overlap or are given up. *)
From stdpp Require Import base numbers list gmap.
From Verif Require Import ReconnectModel ReconDropModel ReconDropSpec.

Section proofs.
Context (c : rconfig).
Lemma t_run_app s os1 os2 : t_run c s (os1 ++ os2) = let '(r1, s1) := t_run c s os1 in let '(r2, s2) := t_run c s1 os2 in (r1 ++ r2, s2).
Proof. revert s. induction os1 as [|o os1 IH]; intros s; cbn [t_run app]; [by destruct (t_run c s os2)|]. destruct (t_step c s o) as [r s1]. rewrite IH. destruct (t_run c s1 os1) as [r1 s2]. destruct (t_run c s2 os2). by rewrite app_assoc. Qed.
Lemma after_snoc os o : after c (os ++ [o]) = (t_step c (after c os) o).2.
Proof. unfold after. rewrite t_run_app. destruct (t_run c _ os) as [r1 s1]. cbn [t_run fst snd]. by destruct (t_step c s1 o) as [[]]. Qed.
Lemma answers_snoc os o : answers c (os ++ [o]) = answers c os ++ option_list (t_step c (after c os) o).1.
Proof. unfold after, answers. rewrite t_run_app. destruct (t_run c _ os) as [r1 s1]. cbn [t_run fst snd]. destruct (t_step c s1 o) as [[] ?]; cbn; by rewrite ?app_nil_r. Qed.
Lemma should_yes now s m : should_reconnect c now s = (true, m) → m_state s ≠ Connecting ∧ m_state m ≠ Connecting.
Proof. unfold should_reconnect. destruct (m_enabled s); [|done]. destruct (m_state s) eqn:E; try done; [intros H; apply pair_equal_spec in H as [_ <-]; by rewrite E|intros H; apply pair_equal_spec in H as [_ <-]; by rewrite E|]. destruct (m_opened s); [|done]. destruct (bool_decide _); [|done]. intros H. apply pair_equal_spec in H as [_ <-]. done. Qed.
Lemma should_no now s m : should_reconnect c now s = (false, m) → m = s.
Proof. unfold should_reconnect. destruct (m_enabled s); [|by intros [= <-]]. destruct (m_state s); try (by intros [= <-]); try (intros H; by apply pair_equal_spec in H as [_ <-]). destruct (m_opened s); [|by intros [= <-]]. destruct (bool_decide _); [done|by intros [= <-]]. Qed.
Lemma failed_state now s : m_state (on_failed c now s) ≠ Connecting.
Proof. unfold on_failed. cbv zeta. by destruct (match rc_breaker c with Some _ => _ | None => _ end). Qed.
(** At most one task tries, and the manager knows of it. *)
Definition one (os : list top) : Prop :=
  (∀ k, h_calls (after c os) !! k = Some Trying → m_state (h_man (after c os)) = Connecting ∧ ∀ k', h_calls (after c os) !! k' = Some Trying → k' = k) ∧
  ∀ k, h_calls (after c os) !! k = Some Checked → (∃ os' now, os = os' ++ [TTurn k now]) ∧ ∀ k', h_calls (after c os) !! k' ≠ Some Trying.
Lemma one_inv os : prompt os → one os.
Proof.
  induction os as [|o os IH] using rev_ind; intros Hp; [split; intros k Hk; cbn in Hk; by rewrite lookup_empty in Hk|].
  assert (prompt os) as Hp'. { destruct Hp as [H1 H2]. split; [intros o1 o2 k now o' ->; apply (H1 o1 (o2 ++ [o]) k now o'); by rewrite <-app_assoc|]. intros now Hn. apply (H2 now), elem_of_app. by left. }
  destruct (IH Hp') as [I1 I2]. clear IH. unfold one. rewrite after_snoc. destruct (after c os) as [m cs] eqn:Es. cbn [h_man h_calls] in *.
  assert (∀ k, cs !! k = Some Checked → o = TConnect k) as Hc. { intros k Hk. destruct (I2 k Hk) as [(os' & now & ->) _]. destruct Hp as [Hp _]. apply (Hp os' [] k now o). by rewrite <-app_assoc. }
  assert (∀ now m', should_reconnect c now m = (true, m') → ∀ k, cs !! k ≠ Some Trying) as Hy. { intros now m' H k Hk. apply should_yes in H as [H _]. by destruct (I1 k Hk). }
  destruct o as [k now|k|k ok now|k now|k|now|b|]; cbn [t_step h_man h_calls].
  - assert (∀ k', cs !! k' ≠ Some Checked) as Hno by (intros k' Hk'; by specialize (Hc k' Hk')). clear Hc. destruct (cs !! k) as [[]|] eqn:Ek; cbn [snd h_man h_calls]; try (split; [exact I1|intros k' Hk'; by destruct (Hno k')]);
    (destruct (should_reconnect c now m) as [[] m'] eqn:E; cbn [snd h_man h_calls]; [pose proof (Hy _ _ E) as Hn; split; [intros k1 Hk1; destruct (decide (k1 = k)) as [->|Hne]; [by rewrite lookup_insert in Hk1|rewrite lookup_insert_ne in Hk1 by done; by destruct (Hn k1)]|]; intros k1 Hk1; destruct (decide (k1 = k)) as [->|Hne]; [|rewrite lookup_insert_ne in Hk1 by done; by destruct (Hno k1)]; split; [by exists os, now|]; intros k2 Hk2; destruct (decide (k2 = k)) as [->|Hne2]; [by rewrite lookup_insert in Hk2|rewrite lookup_insert_ne in Hk2 by done; by destruct (Hn k2)]
      |apply should_no in E as ->; split; [|intros k1 Hk1; apply lookup_delete_Some in Hk1 as [_ Hk1]; by destruct (Hno k1)]; intros k1 Hk1; apply lookup_delete_Some in Hk1 as [_ Hk1]; destruct (I1 k1 Hk1) as [H1 H2]; split; [done|]; intros k2 Hk2; apply lookup_delete_Some in Hk2 as [_ Hk2]; by apply H2]).
  - destruct (cs !! k) as [[]|] eqn:Ek; cbn [snd h_man h_calls]; try (split; [exact I1|intros k1 Hk1; pose proof (Hc k1 Hk1) as Heq; injection Heq as ->; by rewrite Ek in Hk1]).
    destruct (I2 k Ek) as [_ Hn]. split.
    + intros k1 Hk1. split; [done|]. intros k2 Hk2. destruct (decide (k1 = k)) as [->|H1]; [|rewrite lookup_insert_ne in Hk1 by done; by destruct (Hn k1)]. destruct (decide (k2 = k)) as [->|H2]; [done|rewrite lookup_insert_ne in Hk2 by done; by destruct (Hn k2)].
    + intros k1 Hk1. destruct (decide (k1 = k)) as [->|H1]; [by rewrite lookup_insert in Hk1|]. rewrite lookup_insert_ne in Hk1 by done. pose proof (Hc k1 Hk1) as Heq. by injection Heq as ->.
  - assert (∀ k', cs !! k' ≠ Some Checked) as Hno by (intros k' Hk'; by specialize (Hc k' Hk')). destruct (cs !! k) as [[]|] eqn:Ek; cbn [snd h_man h_calls]; try (split; [exact I1|intros k' Hk'; by destruct (Hno k')]). destruct (I1 k Ek) as [_ Hu].
    destruct ok; cbn [snd h_man h_calls]; (split; [intros k1 Hk1|intros k1 Hk1; exfalso]).
    + apply lookup_delete_Some in Hk1 as [Hne Hk1]. by rewrite (Hu k1 Hk1) in Hne.
    + apply lookup_delete_Some in Hk1 as [Hne Hk1]. by destruct (Hno k1).
    + destruct (decide (k1 = k)) as [->|Hne]; [by rewrite lookup_insert in Hk1|]. rewrite lookup_insert_ne in Hk1 by done. by specialize (Hu k1 Hk1).
    + destruct (decide (k1 = k)) as [->|Hne]; [by rewrite lookup_insert in Hk1|]. rewrite lookup_insert_ne in Hk1 by done. by destruct (Hno k1).
  - assert (∀ k', cs !! k' ≠ Some Checked) as Hno by (intros k' Hk'; by specialize (Hc k' Hk')). destruct (cs !! k) as [[]|] eqn:Ek; cbn [snd h_man h_calls]; try (split; [exact I1|intros k' Hk'; by destruct (Hno k')]).
    destruct (should_reconnect c now m) as [[] m'] eqn:E; cbn [snd h_man h_calls].
    + pose proof (Hy _ _ E) as Hn. split; intros k1 Hk1; (destruct (decide (k1 = k)) as [->|Hne]; [by rewrite lookup_insert in Hk1|rewrite lookup_insert_ne in Hk1 by done; first [by destruct (Hn k1)|by destruct (Hno k1)]]).
    + apply should_no in E as ->. split; intros k1 Hk1; apply lookup_delete_Some in Hk1 as [_ Hk1]; [|by destruct (Hno k1)]. destruct (I1 k1 Hk1) as [H1 H2]. split; [done|]. intros k2 Hk2. apply lookup_delete_Some in Hk2 as [_ Hk2]. by apply H2.
  - assert (∀ k', cs !! k' ≠ Some Checked) as Hno by (intros k' Hk'; by specialize (Hc k' Hk')). cbn [snd h_man h_calls]. split; intros k1 Hk1; apply lookup_delete_Some in Hk1 as [_ Hk1]; [|by destruct (Hno k1)]. destruct (I1 k1 Hk1) as [H1 H2]. split; [done|]. intros k2 Hk2. apply lookup_delete_Some in Hk2 as [_ Hk2]. by apply H2.
  - destruct Hp as [_ Hp]. destruct (Hp now). apply elem_of_app. right. left.
  - assert (∀ k', cs !! k' ≠ Some Checked) as Hno by (intros k' Hk'; by specialize (Hc k' Hk')). cbn [snd h_man h_calls]. split; [exact I1|intros k1 Hk1; by destruct (Hno k1)].
  - assert (∀ k', cs !! k' ≠ Some Checked) as Hno by (intros k' Hk'; by specialize (Hc k' Hk')). cbn [snd h_man h_calls]. split; [exact I1|intros k1 Hk1; by destruct (Hno k1)].
Qed.
End proofs.

(** *** C243: one attempt at a time *)
Theorem C243_one_partial : ∀ c os k1 k2, prompt os → trying c os k1 → trying c os k2 → k1 = k2.
Proof. intros c os k1 k2 Hp H1 H2. destruct (one_inv c os Hp) as [H _]. destruct (H k2 H2) as [_ H3]. by apply H3. Qed.
Print Assumptions C243_one_partial.
Lemma should_waiting c now s : m_enabled s = true → m_state s = Disconnected ∨ m_state s = WaitingRetry → (∀ m, rc_max c = Some m → (m_retry s < m)%nat) → should_reconnect c now s = (true, s).
Proof. intros He Hs Hm. unfold should_reconnect. rewrite He. destruct (rc_max c) as [m|] eqn:E; [rewrite bool_decide_eq_true_2 by (by apply Hm)|]; by destruct Hs as [-> | ->]. Qed.
(** Two calls that check before either goes on both connect. *)
Theorem C243_two_refuted : ∀ c os k1 k2 now1 now2, k1 ≠ k2 → h_calls (after c os) !! k1 = None → h_calls (after c os) !! k2 = None → m_enabled (h_man (after c os)) = true →
  m_state (h_man (after c os)) = Disconnected ∨ m_state (h_man (after c os)) = WaitingRetry → below_limit c os →
  let os' := os ++ [TTurn k1 now1; TTurn k2 now2; TConnect k1; TConnect k2] in trying c os' k1 ∧ trying c os' k2.
Proof.
  intros c os k1 k2 now1 now2 Hne H1 H2 He Hs Hm. cbv zeta. unfold trying. assert (os ++ [TTurn k1 now1; TTurn k2 now2; TConnect k1; TConnect k2] = (((os ++ [TTurn k1 now1]) ++ [TTurn k2 now2]) ++ [TConnect k1]) ++ [TConnect k2]) as -> by (by rewrite <-!app_assoc).
  rewrite !after_snoc. unfold below_limit in Hm. destruct (after c os) as [m cs]. cbn [h_man h_calls] in *. cbn [t_step h_man h_calls]. rewrite H1, should_waiting by done. cbn [fst snd h_man h_calls]. rewrite lookup_insert_ne, H2 by done. rewrite should_waiting by done. cbn [fst snd h_man h_calls]. rewrite lookup_insert_ne, lookup_insert by done. cbn [fst snd h_man h_calls]. rewrite lookup_insert_ne, lookup_insert by done. cbn [fst snd h_man h_calls]. rewrite lookup_insert, lookup_insert_ne, lookup_insert by done. done.
Qed.
Print Assumptions C243_two_refuted.

(** *** C243: giving up while connect runs *)
(** The manager believes that a connect is running, but none is. *)
Definition stuck (s : shared) : Prop := m_state (h_man s) = Connecting ∧ ∀ k p, h_calls s !! k = Some p → p = Sleeping ∨ p = Failed.
Lemma stuck_step c s o : stuck s → (∀ now, o ≠ TLost now) → stuck (t_step c s o).2 ∧ m_attempts (h_man (t_step c s o).2) = m_attempts (h_man s) ∧ ∀ k r, (t_step c s o).1 = Some (k, r) → r = TRefused ∨ r = TFailed.
Proof.
  intros [H1 H2] Hl. destruct s as [m cs]. cbn [h_man h_calls] in *. assert (∀ now, should_reconnect c now m = (false, m)) as Hs. { intros now. unfold should_reconnect. rewrite H1. by destruct (m_enabled m). }
  assert (∀ k, stuck (MkShared m (delete k cs))) as Hd. { intros k. split; [done|]. intros k' p Hp. cbn in Hp. apply lookup_delete_Some in Hp as [_ Hp]. by apply (H2 k'). }
  destruct o as [k now|k|k ok now|k now|k|now|b|]; cbn [t_step h_man h_calls].
  - rewrite Hs. destruct (cs !! k) as [[]|] eqn:Ek; cbn [fst snd]; try (split_and!; [done|done|done]); (split_and!; [apply Hd|done|intros k' r [= _ <-]; by left]).
  - destruct (cs !! k) as [[]|] eqn:Ek; try (by split_and!). by destruct (H2 k _ Ek).
  - destruct (cs !! k) as [[]|] eqn:Ek; try (by split_and!). by destruct (H2 k _ Ek).
  - rewrite Hs. destruct (cs !! k) as [[]|] eqn:Ek; cbn [fst snd]; try (by split_and!). split_and!; [apply Hd|done|intros k' r [= _ <-]; by right].
  - cbn [fst snd]. split_and!; [apply Hd|done|done].
  - by destruct (Hl now).
  - by split_and!.
  - by split_and!.
Qed.
Lemma dropped_stuck c os k : prompt os → trying c os k → stuck (after c (os ++ [TDrop k])).
Proof.
  intros Hp Ht. destruct (one_inv c os Hp) as [I1 I2]. destruct (I1 k Ht) as [H1 H2]. rewrite after_snoc. cbn [t_step snd]. split; [done|]. intros k' p Hk. cbn in Hk. apply lookup_delete_Some in Hk as [Hne Hk]. destruct p; [|by destruct Hne; rewrite (H2 k' Hk)|by right|by left]. destruct (I2 k' Hk) as [_ Hn]. by destruct (Hn k).
Qed.
(** Once a call was given up while its connect was running, no call ever connects again: whatever calls are made, given up or
    not, and whether the manager is enabled or reset, there is no further attempt and every call fails. *)
Theorem C243_stuck_refuted : ∀ c os1 os2 k, prompt os1 → trying c os1 k → (∀ now, TLost now ∉ os2) →
  attempts c (os1 ++ TDrop k :: os2) = attempts c os1 ∧ ∃ rs, answers c (os1 ++ TDrop k :: os2) = answers c os1 ++ rs ∧ Forall (λ r, r.2 = TRefused ∨ r.2 = TFailed) rs.
Proof.
  intros c os1 os2 k Hp Ht Hl. cut (stuck (after c (os1 ++ TDrop k :: os2)) ∧ attempts c (os1 ++ TDrop k :: os2) = attempts c os1 ∧ ∃ rs, answers c (os1 ++ TDrop k :: os2) = answers c os1 ++ rs ∧ Forall (λ r, r.2 = TRefused ∨ r.2 = TFailed) rs); [by intros [_ H]|].
  induction os2 as [|o os2 IH] using rev_ind.
  - split; [by apply dropped_stuck|]. unfold attempts. rewrite after_snoc, answers_snoc. split; [done|]. exists []. by split.
  - destruct IH as (IH1 & IH2 & rs & IH3 & IH4); [intros now Hn; apply (Hl now), elem_of_app; by left|]. assert (os1 ++ TDrop k :: os2 ++ [o] = (os1 ++ TDrop k :: os2) ++ [o]) as -> by (by rewrite <-app_assoc).
    unfold attempts in *. rewrite after_snoc, answers_snoc. destruct (stuck_step c _ o IH1) as (S1 & S2 & S3); [intros now ->; apply (Hl now), elem_of_app; right; left|]. split; [done|]. split; [by rewrite S2|]. exists (rs ++ option_list (t_step c (after c (os1 ++ TDrop k :: os2)) o).1). split; [by rewrite IH3, app_assoc|]. apply Forall_app. split; [done|].
    destruct ((t_step c (after c (os1 ++ TDrop k :: os2)) o).1) as [[k' r]|]; cbn; [|constructor]. constructor; [by apply (S3 k')|constructor].
Qed.
Print Assumptions C243_stuck_refuted.
(** Reporting a loss of the connection gets it going again. *)
Theorem C243_recovers : ∀ c os k now now', h_calls (after c os) !! k = None → m_enabled (h_man (after c os)) = true → below_limit c os → trying c (os ++ [TLost now; TTurn k now'; TConnect k]) k.
Proof.
  intros c os k now now' Hk He Hm. unfold trying, below_limit in *. assert (os ++ [TLost now; TTurn k now'; TConnect k] = ((os ++ [TLost now]) ++ [TTurn k now']) ++ [TConnect k]) as -> by (by rewrite <-!app_assoc). rewrite !after_snoc. destruct (after c os) as [m cs]. cbn [h_man h_calls] in *. cbn [t_step fst snd h_man h_calls]. rewrite Hk, should_waiting; [| exact He | by left |].
  - cbn [fst snd h_man h_calls]. rewrite lookup_insert. cbn [snd h_calls]. by rewrite lookup_insert.
  - intros x Hx. specialize (Hm x Hx). unfold on_disconnected. cbv zeta. cbn [m_retry]. destruct (match m_state m with Connected => _ | _ => _ end); lia.
Qed.
Print Assumptions C243_recovers.

(** *** C243: giving up at other times *)
(** A call that is given up while it sleeps before the next attempt leaves the way free for another. *)
Theorem C243_asleep_partial : ∀ c os k k' now now', h_calls (after c (os ++ [TAgain k now])) !! k = Some Sleeping → h_calls (after c os) !! k = Some Failed → k' ≠ k → h_calls (after c os) !! k' = None → below_limit c os →
  trying c (os ++ [TAgain k now; TDrop k; TTurn k' now'; TConnect k']) k'.
Proof.
  intros c os k k' now now' Hs Hf Hne Hk' Hm. unfold trying, below_limit in *. assert (os ++ [TAgain k now; TDrop k; TTurn k' now'; TConnect k'] = (((os ++ [TAgain k now]) ++ [TDrop k]) ++ [TTurn k' now']) ++ [TConnect k']) as -> by (by rewrite <-!app_assoc). rewrite !after_snoc in *. destruct (after c os) as [m cs]. cbn [h_man h_calls] in *. cbn [t_step fst snd h_man h_calls] in *. rewrite Hf in *.
  destruct (should_reconnect c now m) as [[] m'] eqn:E; cbn [fst snd h_man h_calls] in *; [|by rewrite lookup_delete in Hs]. rewrite lookup_delete_ne, lookup_insert_ne, Hk' by done.
  assert (m_enabled m' = true ∧ (m_state m' = Disconnected ∨ m_state m' = WaitingRetry) ∧ m_retry m' = m_retry m) as (H1 & H2 & H3).
  { revert E. unfold should_reconnect. destruct (m_enabled m) eqn:Ee; [|done]. destruct (m_state m) eqn:Es; try done; [intros H; apply pair_equal_spec in H as [_ <-]; rewrite Es; by split_and!; [|left|]|intros H; apply pair_equal_spec in H as [_ <-]; rewrite Es; by split_and!; [|right|]|]. destruct (m_opened m); [|done]. destruct (bool_decide _); [|done]. intros H. apply pair_equal_spec in H as [_ <-]. by split_and!; [|left|]. }
  rewrite should_waiting; [|done|done|intros x Hx; rewrite H3; by apply Hm]. cbn [fst snd h_man h_calls]. rewrite lookup_insert. cbn [snd h_calls]. by rewrite lookup_insert.
Qed.
Print Assumptions C243_asleep_partial.

(** *** C243: a call on its own is the one of C83 *)
Definition a_turn (connect : nat → bool) (t0 t1 t2 : nat → Z) (i : nat) : list top := [TTurn 0 (t0 i); TConnect 0; TEnd 0 (connect i) (t1 i); TAgain 0 (t2 i)].
Lemma alone c connect t0 t1 t2 fuel : ∀ i s r n w s' cs, reconnect_with c connect t0 t1 t2 fuel i s = Some (r, n, w, s') → cs !! 0 = None ∨ cs !! 0 = Some Sleeping → delete 0 cs = ∅ →
  i ≤ n ∧ t_run c (MkShared s cs) (concat (a_turn connect t0 t1 t2 <$> seq i (n - i)) ++ match r with RLimit => [TTurn 0 (t0 n)] | _ => [] end) =
  ([(0, match r with ROk => TOk | RLimit => TRefused | RError _ => TFailed end)], MkShared s' ∅).
Proof.
  induction fuel as [|fuel IH]; intros i s r n w s' cs Hr Hc Hd; [done|]. cbn [reconnect_with] in Hr. destruct (should_reconnect c (t0 i) s) as [ok m] eqn:E1. destruct ok.
  - assert (∀ os, t_run c (MkShared s cs) (TTurn 0 (t0 i) :: TConnect 0 :: os) = t_run c (MkShared (on_connecting m) (<[0 := Trying]> (<[0 := Checked]> cs))) os) as Hb.
    { intros os. cbn [t_run t_step h_man h_calls]. rewrite E1. destruct Hc as [-> | ->]; cbn [h_man h_calls]; rewrite lookup_insert; cbn; by destruct (t_run _ _ os). }
    cbv zeta in Hr. destruct (connect i) eqn:Ec.
    + injection Hr as <- <- _ <-. split; [lia|]. assert (S i - i = 1) as -> by lia. cbn [seq fmap list_fmap concat]. unfold a_turn. cbn [app]. rewrite Hb, Ec. cbn [t_run t_step h_man h_calls]. rewrite lookup_insert. cbn [h_man h_calls]. rewrite lookup_delete. cbn. by rewrite !delete_insert_delete, Hd.
    + destruct (should_reconnect c (t2 i) _) as [ok2 m2] eqn:E2. destruct ok2.
      * destruct (reconnect_with _ _ _ _ _ fuel (S i) m2) as [[[[r1 n1] w1] s1]|] eqn:Er; [|done]. injection Hr as <- <- _ <-. destruct (IH _ _ _ _ _ _ (<[0 := Sleeping]> (<[0 := Failed]> (<[0 := Trying]> (<[0 := Checked]> cs)))) Er) as [Hle H]; [right; by rewrite lookup_insert|by rewrite !delete_insert_delete|].
        split; [lia|]. assert (n1 - i = S (n1 - S i)) as -> by lia. cbn [seq fmap list_fmap]. change (list_fmap _ _ (a_turn connect t0 t1 t2) (seq (S i) (n1 - S i))) with (a_turn connect t0 t1 t2 <$> seq (S i) (n1 - S i)). cbn [concat]. unfold a_turn at 1. cbn [app]. rewrite Hb, Ec. cbn [t_run t_step h_man h_calls]. rewrite lookup_insert. cbn [h_man h_calls]. rewrite lookup_insert, E2. rewrite H. done.
      * injection Hr as <- <- _ <-. split; [lia|]. assert (S i - i = 1) as -> by lia. cbn [seq fmap list_fmap concat]. unfold a_turn. cbn [app]. rewrite Hb, Ec. cbn [t_run t_step h_man h_calls]. rewrite lookup_insert. cbn [h_man h_calls]. rewrite lookup_insert, E2. cbn. by rewrite !delete_insert_delete, Hd.
  - injection Hr as <- <- _ <-. split; [lia|]. rewrite Nat.sub_diag. cbn [seq fmap list_fmap concat app t_run t_step h_man h_calls]. rewrite E1. destruct Hc as [-> | ->]; cbn; by rewrite Hd.
Qed.
Theorem C243_same : ∀ c connect t0 t1 t2 fuel s r n w s', reconnect_with c connect t0 t1 t2 fuel 0 s = Some (r, n, w, s') →
  t_run c (MkShared s ∅) (concat ((λ i, [TTurn 0 (t0 i); TConnect 0; TEnd 0 (connect i) (t1 i); TAgain 0 (t2 i)]) <$> seq 0 n) ++ match r with RLimit => [TTurn 0 (t0 n)] | _ => [] end) =
  ([(0, match r with ROk => TOk | RLimit => TRefused | RError _ => TFailed end)], MkShared s' ∅).
Proof.
  intros c connect t0 t1 t2 fuel s r n w s' Hr. destruct (alone c connect t0 t1 t2 fuel 0 s r n w s' ∅ Hr) as [_ H]; [left; apply lookup_empty|apply delete_empty|]. by rewrite Nat.sub_0_r in H.
Qed.
Print Assumptions C243_same.

(** A manager with three retries and no breaker: one call fails and sleeps; given up then, a second call connects; given up
    while its connect runs, it leaves a manager that refuses the third and fourth. *)
Definition rd_config : rconfig := MkRconfig (Some 3) true 60 None 30.
Definition rd_before : list top := [TTurn 0 1; TConnect 0; TEnd 0 false 2].
Definition rd_trying : list top := rd_before ++ [TAgain 0 3; TDrop 0; TTurn 1 4; TConnect 1].
Definition rd_later : list top := [TTurn 2 100; TReset; TEnable true; TTurn 3 1000].
Example C243_example :
  prompt rd_trying ∧ trying rd_config rd_trying 1 ∧ h_calls (after rd_config rd_before) !! 0 = Some Failed ∧ h_calls (after rd_config (rd_before ++ [TAgain 0 3])) !! 0 = Some Sleeping ∧ below_limit rd_config rd_before ∧
  (∀ now, TLost now ∉ rd_later) ∧ answers rd_config (rd_trying ++ TDrop 1 :: rd_later) = [(2, TRefused); (3, TRefused)] ∧ attempts rd_config (rd_trying ++ TDrop 1 :: rd_later) = 2 ∧
  answers rd_config (rd_trying ++ TDrop 1 :: rd_later ++ [TLost 2000; TTurn 4 2001; TConnect 4; TEnd 4 true 2002]) = [(2, TRefused); (3, TRefused); (4, TOk)] ∧
  m_state (h_man (after rd_config [])) = Disconnected ∧ (fst <$> reconnect_with rd_config (λ i, bool_decide (i = 2)) Z.of_nat Z.of_nat Z.of_nat 5 0 manager_new) = Some (ROk, 3, [1; 2]).
Proof.
  split_and!; try (by vm_compute).
  - split.
    + intros o1 o2 k now o E. unfold rd_trying, rd_before in E. cbn [app] in E. destruct o1 as [|? o1]; cbn [app] in E; [by injection E as <- _ <- _|]. injection E as _ E. do 4 (destruct o1 as [|? o1]; cbn [app] in E; [discriminate E|injection E as _ E]). destruct o1 as [|? o1]; cbn [app] in E; [by injection E as <- _ <- _|]. injection E as _ E. destruct o1 as [|? o1]; cbn [app] in E; [discriminate E|injection E as _ E]. destruct o1; discriminate E.
    + intros now. unfold rd_trying, rd_before. cbn [app]. rewrite !not_elem_of_cons. split_and!; try discriminate. apply not_elem_of_nil.
  - intros m [= <-]. vm_compute. lia.
  - intros now. unfold rd_later. rewrite !not_elem_of_cons. split_and!; try discriminate. apply not_elem_of_nil.
Qed.
