(** The exact set of inputs validate_utf8_simd accepts. *)
From stdpp Require Import sets list strings list_numbers.
From Verif Require Import TextLib Utf8Lib SimdModel SimdSpec SimdProofs.
Local Open Scope N_scope.

Lemma covered_0 l : covered 0 l.
Proof. exists [], l. split; [done|]. split; [constructor|cbn; lia]. Qed.

Lemma covered_nil n : covered (S n) [] → False.
Proof. intros (a & b & E & _ & H). destruct a; [cbn in H; lia|done]. Qed.

Definition lead (n : nat) (b : N) (r : list N) : Prop :=
  (b < 128 ∧ covered (n - 1) r) ∨
  (192 <= b ∧ b < 224 ∧ ∃ c r', r = c :: r' ∧ continuation c ∧ covered (n - 2) r') ∨
  (224 <= b ∧ b < 240 ∧ ∃ c d r', r = c :: d :: r' ∧ continuation c ∧ continuation d ∧ covered (n - 3) r') ∨
  (240 <= b ∧ b < 248 ∧ ∃ c d e r', r = c :: d :: e :: r' ∧ continuation c ∧ continuation d ∧ continuation e ∧ covered (n - 4) r').

Lemma covered_step n b r : (0 < n)%nat → covered n (b :: r) ↔ lead n b r.
Proof.
  intros Hn. split.
  - intros (a & s & E & Ha & Hl). destruct Ha as [|x t Hx Ht|x c t Hx1 Hx2 Hc Ht|x c d t Hx1 Hx2 Hc Hd Ht|x c d e t Hx1 Hx2 Hc Hd He Ht];
      cbn [length app] in *; [lia|..]; injection E as -> ->.
    + left. split; [done|]. exists t, s. split; [done|]. split; [done|lia].
    + right; left. split; [done|]. split; [done|]. exists c, (t ++ s). split; [done|]. split; [done|]. exists t, s. split; [done|]. split; [done|lia].
    + right; right; left. split; [done|]. split; [done|]. exists c, d, (t ++ s). split; [done|]. split; [done|]. split; [done|]. exists t, s. split; [done|]. split; [done|lia].
    + right; right; right. split; [done|]. split; [done|]. exists c, d, e, (t ++ s). split; [done|]. split; [done|]. split; [done|]. split; [done|]. exists t, s. split; [done|]. split; [done|lia].
  - intros [[H1 (t & s & -> & Ht & Hl)]|[(H1 & H2 & c & r' & -> & Hc & t & s & -> & Ht & Hl)|[(H1 & H2 & c & d & r' & -> & Hc & Hd & t & s & -> & Ht & Hl)|(H1 & H2 & c & d & e & r' & -> & Hc & Hd & He & t & s & -> & Ht & Hl)]]].
    + exists (b :: t), s. split; [done|]. split; [by constructor|cbn; lia].
    + exists (b :: c :: t), s. split; [done|]. split; [by constructor|cbn; lia].
    + exists (b :: c :: d :: t), s. split; [done|]. split; [by constructor|cbn; lia].
    + exists (b :: c :: d :: e :: t), s. split; [done|]. split; [by constructor|cbn; lia].
Qed.

Lemma vf_covered fuel : ∀ pre r stop, Forall byte (pre ++ r) → (stop <= length (pre ++ r))%nat → (stop - length pre <= fuel)%nat →
  validate_from (pre ++ r) fuel (length pre) stop = true ↔ covered (stop - length pre) r.
Proof.
  induction fuel as [|f IH]; intros pre r stop Hb Hs Hf.
  { replace (stop - length pre)%nat with 0%nat by lia. split; [intros _; apply covered_0|done]. }
  cbn [validate_from]. destruct (length pre <? stop)%nat eqn:El.
  2:{ apply Nat.ltb_ge in El. replace (stop - length pre)%nat with 0%nat by lia. split; [intros _; apply covered_0|done]. }
  apply Nat.ltb_lt in El. destruct r as [|b r]; [rewrite app_nil_r in Hs; lia|].
  rewrite list_lookup_middle by done. cbn [default id].
  rewrite covered_step by lia.
  assert (Hrec : ∀ c r', b :: r = c ++ r' → c ≠ [] → validate_from (pre ++ b :: r) f (length pre + length c) stop = true ↔ covered (stop - length pre - length c) r').
  { intros c r' E Hc. rewrite E. rewrite app_assoc, <- app_length. assert (length c ≠ 0)%nat by (by destruct c).
    rewrite IH; [|by rewrite <- app_assoc, <- E|by rewrite <- app_assoc, <- E|rewrite app_length; lia].
    rewrite app_length. by replace (stop - (length pre + length c))%nat with (stop - length pre - length c)%nat by lia. }
  apply Forall_app in Hb as [_ Hb].
  assert (Hc : ∀ k c, (b :: r) !! k = Some c → cont_at (pre ++ b :: r) (length pre + k) = true ↔ continuation c).
  { intros k c Hk. unfold cont_at. rewrite (at_middle_plus _ _ _ _ c Hk). rewrite is_continuation_spec by (by eapply Forall_lookup_1). apply is_cont_spec. }
  assert (Hl : (length (pre ++ b :: r) = length pre + S (length r))%nat) by (rewrite app_length; done).
  destruct (b <? 128) eqn:E.
  - apply N.ltb_lt in E. rewrite <- Nat.add_1_r. rewrite (Hrec [b] r) by done. cbn [length]. unfold lead. split; [intros H; left; done|].
    intros [[_ H]|[(? & _)|[(? & _)|(? & _)]]]; [done|lia..].
  - apply N.ltb_ge in E. rewrite andb_true_iff. unfold validate_multibyte, sequence_length, lead. rewrite Hl.
    destruct (b <? 192) eqn:E1.
    { apply N.ltb_lt in E1. split; [by intros [? _]|]. intros [[? _]|[(? & _)|[(? & _)|(? & _)]]]; lia. }
    apply N.ltb_ge in E1. destruct (b <? 224) eqn:E2; [|destruct (b <? 240) eqn:E3; [|destruct (b <? 248) eqn:E4]].
    + apply N.ltb_lt in E2. rewrite andb_true_iff, Nat.ltb_lt. destruct r as [|c r].
      { split; [cbn; lia|]. intros [[? _]|[(_ & _ & ? & ? & ? & _)|[(? & _)|(? & _)]]]; [lia|done|lia|lia]. }
      rewrite (Hc 1%nat c eq_refl), (Hrec [b; c] r) by done. cbn [length]. split.
      * intros [[_ H1] H2]. right; left. split; [done|]. split; [done|]. by exists c, r.
      * intros [[? _]|[(_ & _ & c' & r' & [= <- <-] & H1 & H2)|[(? & _)|(? & _)]]]; [lia| |lia|lia]. split; [split; [lia|done]|done].
    + apply N.ltb_ge in E2. apply N.ltb_lt in E3. rewrite !andb_true_iff, Nat.ltb_lt. destruct r as [|c [|d r]].
      { split; [cbn; lia|]. intros [[? _]|[(_ & ? & _)|[(_ & _ & ? & ? & ? & ? & _)|(? & _)]]]; [lia|lia|done|lia]. }
      { split; [cbn; lia|]. intros [[? _]|[(_ & ? & _)|[(_ & _ & ? & ? & ? & ? & _)|(? & _)]]]; [lia|lia|done|lia]. }
      rewrite (Hc 1%nat c eq_refl), (Hc 2%nat d eq_refl), (Hrec [b; c; d] r) by done. cbn [length]. split.
      * intros [[[_ H1] H2] H3]. right; right; left. split; [done|]. split; [done|]. by exists c, d, r.
      * intros [[? _]|[(_ & ? & _)|[(_ & _ & c' & d' & r' & [= <- <- <-] & H1 & H2 & H3)|(? & _)]]]; [lia|lia| |lia]. split; [split; [split; [lia|done]|done]|done].
    + apply N.ltb_ge in E2, E3. apply N.ltb_lt in E4. rewrite !andb_true_iff, Nat.ltb_lt. destruct r as [|c [|d [|e r]]].
      1-3: split; [cbn; lia|]; intros [[? _]|[(_ & ? & _)|[(_ & ? & _)|(_ & _ & ? & ? & ? & ? & ? & _)]]]; [lia|lia|lia|done].
      rewrite (Hc 1%nat c eq_refl), (Hc 2%nat d eq_refl), (Hc 3%nat e eq_refl), (Hrec [b; c; d; e] r) by done. cbn [length]. split.
      * intros [[[[_ H1] H2] H3] H4]. right; right; right. split; [done|]. split; [done|]. by exists c, d, e, r.
      * intros [[? _]|[(_ & ? & _)|[(_ & ? & _)|(_ & _ & c' & d' & e' & r' & [= <- <- <- <-] & H1 & H2 & H3 & H4)]]]; [lia|lia|lia|]. split; [split; [split; [split; [lia|done]|done]|done]|done].
    + apply N.ltb_ge in E2, E3, E4. split; [by intros [? _]|]. intros [[? _]|[(_ & ? & _)|[(_ & ? & _)|(_ & ? & _)]]]; lia.
Qed.

(** [input] from its [i]th block on. *)
Lemma process_exact input i : Forall byte input → (i * 32 + 32 <= length input)%nat →
  process_chunk input i = true ↔ Forall (λ b, 128 <= b) (take 32 (drop (i * 32) input)) ∨ covered 32 (drop (i * 32) input).
Proof.
  intros Hb Hi. unfold process_chunk, chunk. rewrite Nat.min_l by lia.
  assert (Hv : validate_from input 32 (i * 32) (i * 32 + 32) = true ↔ covered 32 (drop (i * 32) input)).
  { assert (Ht : length (take (i * 32) input) = (i * 32)%nat) by (rewrite take_length; lia).
    pose proof (vf_covered 32 (take (i * 32) input) (drop (i * 32) input) (i * 32 + 32)) as H.
    rewrite take_drop, Ht in H. replace (i * 32 + 32 - i * 32)%nat with 32%nat in H by lia. apply H; [done|lia|lia]. }
  destruct (forallb _ _) eqn:E.
  - split; [|done]. intros _. left. apply Forall_forall. intros b Hin. apply N.leb_le.
    rewrite forallb_forall in E. apply E. by apply elem_of_list_In.
  - rewrite Hv. split; [by right|]. intros [H|H]; [|done]. exfalso.
    assert (forallb (λ b, 128 <=? b) (take 32 (drop (i * 32) input)) = true); [|congruence].
    apply forallb_forall. intros b Hin%elem_of_list_In. apply N.leb_le. rewrite Forall_forall in H. by apply H.
Qed.

Lemma validate_exact input : Forall byte input →
  validate_utf8_simd input = true ↔
  (∀ i, (i * 32 + 32 <= length input)%nat →
     Forall (λ b, 128 <= b) (take 32 (drop (i * 32) input)) ∨ covered 32 (drop (i * 32) input)) ∧
  shaped (drop (length input / 32 * 32) input).
Proof.
  intros Hb. unfold validate_utf8_simd. rewrite andb_true_iff.
  set (n := (length input / 32)%nat).
  assert (Hn : (n * 32 <= length input)%nat) by (apply chunks_le; lia).
  assert (Hn2 : (length input < n * 32 + 32)%nat).
  { pose proof (Nat.div_mod_eq (length input) 32) as H. pose proof (Nat.mod_upper_bound (length input) 32 ltac:(lia)). subst n. lia. }
  assert (Hv : validate_from input (length input) (n * 32) (length input) = true ↔ shaped (drop (n * 32) input)).
  { assert (Ht : length (take (n * 32) input) = (n * 32)%nat) by (rewrite take_length; lia).
    pose proof (vf_shaped (take (n * 32) input) (drop (n * 32) input)) as H.
    rewrite take_drop, Ht in H. apply H; [done|]. rewrite drop_length. lia. }
  clearbody n. split.
  - intros [H1 H2]. split.
    + intros i Hi. apply process_exact; [done|done|]. rewrite forallb_forall in H1. apply H1.
      apply elem_of_list_In, elem_of_seq. lia.
    + by apply Hv.
  - intros [H1 H2]. split.
    + apply forallb_forall. intros i Hi. apply elem_of_list_In, elem_of_seq in Hi.
      assert (i * 32 + 32 <= length input)%nat as Hi2 by lia. by apply process_exact, H1.
    + by apply Hv.
Qed.

(** find_pattern_simd returns exactly if the pattern occurs or no block that is searched ends in its first byte. *)
Lemma pattern_stops_iff hay needle : needle ≠ [] →
  (∃ fuel r, find_pattern_simd fuel hay needle = Some r) ↔
  (∃ j, occurs hay needle j) ∨ ∀ i, (i < (length hay - length needle + 1) / 32)%nat → head needle ≠ hay !! (i * 32 + 31)%nat.
Proof.
  intros Hn. split; [|apply pattern_stops]. intros (fuel & r & Hr). destruct needle as [|first rest]; [done|].
  assert (Hs := pattern_sound _ _ _ _ Hn Hr). destruct r as [j|]; [left; by exists j; destruct Hs|]. right. intros i Hi Hh.
  assert (find_pattern_simd fuel hay (first :: rest) = None); [|congruence].
  apply (pattern_hangs fuel hay first rest i); [|done| |exact Hs].
  - destruct (decide (length (first :: rest) <= length hay)%nat) as [|Hlt]; [done|]. exfalso.
    replace (length hay - length (first :: rest) + 1)%nat with 1%nat in Hi by lia. cbn in Hi. lia.
  - unfold at_pos. rewrite <- Hh. cbn. apply N.eqb_refl.
Qed.
