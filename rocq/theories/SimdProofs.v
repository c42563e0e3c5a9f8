(** Lemmas about the vectorised routines. *)
From stdpp Require Import list list_numbers strings.
From Coq Require Import ZifyBool.
From Verif Require Import TextLib Utf8Lib SimdModel SimdSpec.
Local Open Scope N_scope.

(** *** Masks *)
Lemma unsigned_bound fl : (0 <= unsigned fl < 2 ^ Z.of_nat (length fl))%Z.
Proof. induction fl as [|b fl IH]; [done|]. cbn [unsigned length]. rewrite Nat2Z.inj_succ, Z.pow_succ_r by lia. destruct b; cbn [Z.b2z]; lia. Qed.
Lemma unsigned_shift b fl : Z.shiftr (unsigned (b :: fl)) 1 = unsigned fl.
Proof. rewrite Z.shiftr_div_pow2 by done. cbn [unsigned]. change (2 ^ 1)%Z with 2%Z. symmetry. apply (Z.div_unique_pos _ _ _ (Z.b2z b)); destruct b; cbn [Z.b2z]; lia. Qed.
Lemma unsigned_odd b fl : Z.odd (unsigned (b :: fl)) = b.
Proof. cbn [unsigned]. rewrite Z.odd_add_mul_2. by destruct b. Qed.
Lemma unsigned_testbit fl j : Z.testbit (unsigned fl) (Z.of_nat j) = default false (fl !! j).
Proof.
  revert j. induction fl as [|b fl IH]; intros j; [by rewrite Z.bits_0|]. destruct j as [|j].
  - rewrite Z.bit0_odd. apply unsigned_odd.
  - rewrite Nat2Z.inj_succ. rewrite <- (Z.div2_bits (unsigned (b :: fl))) by lia. change 2%Z with (2 ^ 1)%Z at 1. rewrite <- Z.shiftr_div_pow2, unsigned_shift by done. apply IH.
Qed.
Lemma unsigned_last fl : length fl = 32%nat → (unsigned fl < 2 ^ 31)%Z ↔ fl !! 31%nat = Some false.
Proof.
  intros Hl. pose proof (unsigned_bound fl) as [H0 H1]. rewrite Hl in H1. change (Z.of_nat 32) with 32%Z in H1. pose proof (unsigned_testbit fl 31) as Ht. change (Z.of_nat 31) with 31%Z in Ht.
  rewrite Z.testbit_odd, Z.shiftr_div_pow2 in Ht by done. destruct (lookup_lt_is_Some_2 fl 31) as [b Hb]; [lia|]. rewrite Hb in Ht |- *. cbn [default] in Ht. unfold id in Ht. split.
  - intros H. rewrite Z.div_small in Ht by lia. cbn in Ht. by subst.
  - intros [= ->]. destruct (decide (unsigned fl < 2 ^ 31)%Z) as [|Hge]; [done|]. exfalso. assert (unsigned fl / 2 ^ 31 = 1)%Z as E; [|rewrite E in Ht; done]. symmetry. apply (Z.div_unique_pos _ _ _ (unsigned fl - 2 ^ 31)); lia.
Qed.
Lemma movemask_testbit fl j : length fl = 32%nat → Z.testbit (movemask fl) (Z.of_nat j) = default false (fl !! Nat.min j 31).
Proof.
  intros Hl. pose proof (unsigned_bound fl) as [H0 H1]. rewrite Hl in H1. change (Z.of_nat 32) with 32%Z in H1. unfold movemask, as_i32. destruct (unsigned fl <? 2 ^ 31)%Z eqn:E.
  - apply Z.ltb_lt in E. rewrite unsigned_testbit. destruct (decide (j <= 31)%nat) as [Hj|Hj]; [by rewrite Nat.min_l|]. rewrite Nat.min_r by lia. apply (unsigned_last fl Hl) in E. rewrite E. by rewrite lookup_ge_None_2 by lia.
  - apply Z.ltb_ge in E. assert (fl !! 31%nat = Some true) as E31.
    { destruct (lookup_lt_is_Some_2 fl 31) as [b Hb]; [lia|]. rewrite Hb. destruct b; [done|]. apply (unsigned_last fl Hl) in Hb. lia. }
    destruct (decide (j <= 31)%nat) as [Hj|Hj].
    + rewrite Nat.min_l by done. rewrite <- unsigned_testbit. rewrite <- (Z.mod_pow2_bits_low _ 32) by lia. f_equal. symmetry. apply (Z.mod_unique_pos _ _ (-1)); lia.
    + rewrite Nat.min_r by lia. rewrite E31. cbn. assert (Z.of_nat j = (Z.of_nat j - 31) + 31)%Z as -> by lia. rewrite <- Z.shiftr_spec by lia. rewrite Z.shiftr_div_pow2 by done.
      assert ((unsigned fl - 2 ^ 32) / 2 ^ 31 = -1)%Z as ->; [|apply Z.bits_m1; lia]. symmetry. apply (Z.div_unique_pos _ _ _ (unsigned fl - 2 ^ 31)); lia.
Qed.
Fixpoint true_at (pos : nat) (fl : list bool) : list nat := match fl with [] => [] | b :: r => if b then pos :: true_at (S pos) r else true_at (S pos) r end.
Lemma unsigned_zero fl pos : unsigned fl = 0%Z → true_at pos fl = [].
Proof. revert pos. induction fl as [|b fl IH]; intros pos H; [done|]. cbn [unsigned] in H. pose proof (unsigned_bound fl). destruct b; cbn [Z.b2z] in H; [lia|]. cbn. apply IH. lia. Qed.
Lemma bits_unsigned fuel fl pos : (length fl <= fuel)%nat → bits fuel (unsigned fl) pos = Some (true_at pos fl).
Proof.
  revert fuel pos. induction fl as [|b fl IH]; intros fuel pos Hf; [by destruct fuel|]. destruct fuel as [|f]; [cbn in Hf; lia|]. cbn [bits]. destruct (unsigned (b :: fl) =? 0)%Z eqn:E.
  - apply Z.eqb_eq in E. by rewrite unsigned_zero.
  - rewrite unsigned_shift, unsigned_odd, IH by (cbn in Hf; lia). by destruct b.
Qed.
Lemma bits_negative fuel m pos : (m < 0)%Z → bits fuel m pos = None.
Proof. revert m pos. induction fuel as [|f IH]; intros m pos Hm; cbn [bits]; (destruct (m =? 0)%Z eqn:E; [lia|]); [done|]. rewrite IH; [done|]. by apply Z.shiftr_neg. Qed.
Lemma true_at_positions p pos l : true_at pos (p <$> l) = positions_from pos p l.
Proof. revert pos. induction l as [|b l IH]; intros pos; [done|]. cbn. by rewrite !IH. Qed.

(** *** Chunks *)
Lemma positions_app pos p a b : positions_from pos p (a ++ b) = positions_from pos p a ++ positions_from (pos + length a) p b.
Proof. revert pos. induction a as [|x a IH]; intros pos; cbn; [by rewrite Nat.add_0_r|]. rewrite !IH, Nat.add_succ_r. by destruct (p x). Qed.
Lemma chunk_length input i : (i * 32 + 32 <= length input)%nat → length (chunk input i) = 32%nat.
Proof. intros H. unfold chunk. rewrite take_length, drop_length. lia. Qed.
Lemma take_chunk input n : take (S n * 32) input = take (n * 32) input ++ chunk input n.
Proof. unfold chunk. rewrite <- (take_drop (n * 32) (take (S n * 32) input)). rewrite take_take, skipn_firstn_comm. f_equal; f_equal; lia. Qed.
Lemma chunks_concat input n : concat (chunk input <$> seq 0 n) = take (n * 32) input.
Proof. induction n as [|n IH]; [done|]. rewrite seq_S, fmap_app, concat_app, IH. cbn [fmap list_fmap concat]. rewrite app_nil_r. by rewrite <- take_chunk. Qed.
Lemma chunks_le (len : nat) k : k ≠ 0%nat → (len / k * k <= len)%nat.
Proof. intros H. pose proof (Nat.mul_div_le len k H). lia. Qed.
Lemma positions_chunks p input n : (n * 32 <= length input)%nat → positions_from 0 p (take (n * 32) input) = concat ((λ i, positions_from (i * 32) p (chunk input i)) <$> seq 0 n).
Proof.
  induction n as [|n IH]; intros Hn; [done|]. rewrite seq_S, fmap_app, concat_app, <- IH by lia. rewrite take_chunk, positions_app. f_equal. cbn [fmap list_fmap concat]. rewrite app_nil_r. f_equal. rewrite take_length. lia.
Qed.
Lemma positions_tail p pre l : filter (λ i, at_pos p (pre ++ l) i = true) (seq (length pre) (length l)) = positions_from (length pre) p l.
Proof.
  revert pre. induction l as [|b l IH]; intros pre; [done|]. cbn [length seq positions_from]. rewrite filter_cons. specialize (IH (pre ++ [b])). rewrite <- app_assoc, app_length in IH. cbn [app length] in IH. rewrite Nat.add_1_r in IH. rewrite IH.
  assert (at_pos p (pre ++ b :: l) (length pre) = p b) as -> by (unfold at_pos; by rewrite list_lookup_middle). by destruct (p b).
Qed.
Lemma mapM_ext {A B} (f g : A → option B) l : (∀ x, x ∈ l → f x = g x) → mapM f l = mapM g l.
Proof. induction l as [|x l IH]; intros H; [done|]. cbn. rewrite H by (by left). destruct (g x); [|done]. cbn. rewrite IH; [done|]. intros y Hy. apply H. by right. Qed.
Lemma mapM_some {A B} (f : A → B) l : mapM (λ x, Some (f x)) l = Some (f <$> l).
Proof. induction l as [|x l IH]; [done|]. cbn. by rewrite IH. Qed.
Lemma mapM_none {A B} (f : A → option B) l x : x ∈ l → f x = None → mapM f l = None.
Proof. induction l as [|y l IH]; [by intros ?%elem_of_nil|]. intros [->|H]%elem_of_cons Hf; cbn; [by rewrite Hf|]. rewrite IH by done. by destruct (f y). Qed.
Lemma seq_chunks_le len i : i ∈ seq 0 (len / 32) → (i * 32 + 32 <= len)%nat.
Proof. rewrite elem_of_seq. intros H. pose proof (chunks_le len 32). nia. Qed.
Lemma find_simd_ok p fuel input : (32 <= fuel)%nat → (∀ i, (i * 32 + 32 <= length input)%nat → at_pos p input (i * 32 + 31) = false) → find_simd p fuel input = Some (positions p input).
Proof.
  intros Hf Hp. unfold find_simd. rewrite (mapM_ext _ (λ i, Some (positions_from (i * 32) p (chunk input i)))).
  - rewrite mapM_some. f_equal. unfold positions. set (n := (length input / 32)%nat). assert (n * 32 <= length input)%nat as Hn by (apply chunks_le; lia).
    rewrite <- positions_chunks by done. transitivity (positions_from 0 p (take (n * 32) input ++ drop (n * 32) input)); [|by rewrite take_drop]. rewrite positions_app. f_equal. rewrite take_length, Nat.min_l by done.
    pose proof (positions_tail p (take (n * 32) input) (drop (n * 32) input)) as H. rewrite take_drop, drop_length, take_length, Nat.min_l in H by done. exact H.
  - intros i Hi%seq_chunks_le. specialize (Hp i Hi). pose proof (chunk_length input i Hi) as Hc. unfold movemask, as_i32.
    assert (unsigned (p <$> chunk input i) < 2 ^ 31)%Z as Hu.
    { apply unsigned_last; [by rewrite fmap_length|]. rewrite list_lookup_fmap. unfold chunk. rewrite lookup_take, lookup_drop by lia. unfold at_pos in Hp. destruct (lookup_lt_is_Some_2 input (i * 32 + 31)) as [b Hb]; [lia|]. rewrite Hb in Hp |- *. cbn. by rewrite Hp. }
    rewrite (proj2 (Z.ltb_lt _ _) Hu). rewrite bits_unsigned by (rewrite fmap_length; lia). by rewrite true_at_positions.
Qed.
Lemma movemask_neg p input i : (i * 32 + 32 <= length input)%nat → at_pos p input (i * 32 + 31) = true → (movemask (p <$> chunk input i) < 0)%Z.
Proof.
  intros Hi Hp. pose proof (chunk_length input i Hi) as Hc. pose proof (unsigned_bound (p <$> chunk input i)) as [H0 H1]. rewrite fmap_length, Hc in H1. change (Z.of_nat 32) with 32%Z in H1. unfold movemask, as_i32.
  destruct (unsigned (p <$> chunk input i) <? 2 ^ 31)%Z eqn:E; [|lia]. exfalso. apply Z.ltb_lt, unsigned_last in E; [|by rewrite fmap_length]. rewrite list_lookup_fmap in E. unfold chunk in E. rewrite lookup_take, lookup_drop in E by lia.
  unfold at_pos in Hp. destruct (input !! (i * 32 + 31)%nat) as [b|]; [|done]. cbn in E. congruence.
Qed.
Lemma find_simd_hangs p fuel input i : (i * 32 + 32 <= length input)%nat → at_pos p input (i * 32 + 31) = true → find_simd p fuel input = None.
Proof.
  intros Hi Hp. unfold find_simd. rewrite (mapM_none _ _ i); [done| |by apply bits_negative, movemask_neg]. apply elem_of_seq. split; [lia|]. rewrite Nat.add_0_l. apply Nat.div_le_lower_bound; lia.
Qed.

(** *** Patterns *)
Lemma matches_occurs hay needle i : matches_at hay needle i = true ↔ occurs hay needle i.
Proof.
  unfold matches_at, occurs. rewrite andb_true_iff, bool_decide_eq_true, Nat.leb_le. split.
  - intros [Hl E]. exists (take i hay), (drop (length needle) (drop i hay)). split; [|rewrite take_length; lia]. rewrite <- E at 1. by rewrite take_drop, take_drop.
  - intros (b & a & -> & <-). rewrite !app_length. split; [lia|]. by rewrite drop_app, take_app.
Qed.
Lemma shift_testbit m j pos : (pos < j)%nat → Z.testbit (Z.shiftr m 1) (Z.of_nat (j - S pos)) = Z.testbit m (Z.of_nat (j - pos)).
Proof. intros H. rewrite Z.shiftr_spec by lia. f_equal. lia. Qed.
Section pattern.
  Context (hay needle : list N).
  Local Notation pb := (pattern_bits hay needle).
  Lemma pb_found fuel m pos q : pb fuel m pos = Some (Some q) → (pos <= q)%nat ∧ matches_at hay needle q = true ∧ Z.testbit m (Z.of_nat (q - pos)) = true ∧ ∀ j, (pos <= j < q)%nat → Z.testbit m (Z.of_nat (j - pos)) = true → matches_at hay needle j = false.
  Proof.
    revert m pos. induction fuel as [|f IH]; intros m pos; cbn [pattern_bits]; (destruct (m =? 0)%Z; [done|]); [done|]. destruct (Z.odd m) eqn:Eo; cbn [andb]; [destruct (matches_at hay needle pos) eqn:Em|].
    - intros [= <-]. split; [lia|]. split; [done|]. rewrite Nat.sub_diag, Z.bit0_odd. split; [done|lia].
    - intros (H1 & H2 & H3 & H4)%IH. split; [lia|]. split; [done|]. rewrite shift_testbit in H3 by lia. split; [done|]. intros j Hj. destruct (decide (j = pos)) as [->|Hne]; [done|]. rewrite <- shift_testbit by lia. apply H4. lia.
    - intros (H1 & H2 & H3 & H4)%IH. split; [lia|]. split; [done|]. rewrite shift_testbit in H3 by lia. split; [done|]. intros j Hj. destruct (decide (j = pos)) as [->|Hne]; [rewrite Nat.sub_diag, Z.bit0_odd; congruence|]. rewrite <- shift_testbit by lia. apply H4. lia.
  Qed.
  Lemma pb_none fuel m pos : pb fuel m pos = Some None → ∀ j, (pos <= j)%nat → Z.testbit m (Z.of_nat (j - pos)) = true → matches_at hay needle j = false.
  Proof.
    revert m pos. induction fuel as [|f IH]; intros m pos; cbn [pattern_bits]; (destruct (m =? 0)%Z eqn:E; [apply Z.eqb_eq in E; subst m; intros _ j _; by rewrite Z.bits_0|]); [done|].
    destruct (Z.odd m) eqn:Eo; cbn [andb]; [destruct (matches_at hay needle pos) eqn:Em; [done|]|]; intros H j Hj.
    - destruct (decide (j = pos)) as [->|Hne]; [done|]. rewrite <- shift_testbit by lia. apply (IH _ _ H). lia.
    - destruct (decide (j = pos)) as [->|Hne]; [rewrite Nat.sub_diag, Z.bit0_odd; congruence|]. rewrite <- shift_testbit by lia. apply (IH _ _ H). lia.
  Qed.
  Lemma pb_nonneg fuel fl pos : (length fl <= fuel)%nat → ∃ r, pb fuel (unsigned fl) pos = Some r.
  Proof.
    revert fuel pos. induction fl as [|b fl IH]; intros fuel pos Hf; [destruct fuel; by eexists|]. destruct fuel as [|f]; [cbn in Hf; lia|]. cbn [pattern_bits]. destruct (unsigned (b :: fl) =? 0)%Z; [by eexists|]. rewrite unsigned_shift. destruct (_ && _); [by eexists|]. apply IH. cbn in Hf. lia.
  Qed.
  Lemma pb_hangs fuel m pos : (m < 0)%Z → (∀ j, matches_at hay needle j = false) → pb fuel m pos = None.
  Proof. intros Hm Hn. revert m pos Hm. induction fuel as [|f IH]; intros m pos Hm; cbn [pattern_bits]; (destruct (m =? 0)%Z eqn:E; [lia|]); [done|]. rewrite Hn, andb_false_r. apply IH. by apply Z.shiftr_neg. Qed.
  Lemma pb_stops fuel m pos q : (m < 0)%Z → Z.testbit m (Z.of_nat (q - pos)) = true → matches_at hay needle q = true → (pos <= q)%nat → (q - pos < fuel)%nat → ∃ r, pb fuel m pos = Some r.
  Proof.
    intros Hm Ht Hq. revert m pos Hm Ht. induction fuel as [|f IH]; intros m pos Hm Ht Hpos Hf; [lia|]. cbn [pattern_bits]. destruct (m =? 0)%Z; [by eexists|]. destruct (Z.odd m && matches_at hay needle pos) eqn:E; [by eexists|].
    destruct (decide (q = pos)) as [->|Hne]; [rewrite Nat.sub_diag, Z.bit0_odd in Ht; by rewrite Ht, Hq in E|]. apply IH; [by apply Z.shiftr_neg|by rewrite shift_testbit by lia|lia|lia].
  Qed.
  Lemma pb_fuel f f' m pos r : (f <= f')%nat → pb f m pos = Some r → pb f' m pos = Some r.
  Proof.
    revert f' m pos. induction f as [|f IH]; intros f' m pos Hf; cbn [pattern_bits].
    - destruct (m =? 0)%Z eqn:E; [|done]. destruct f'; cbn; by rewrite E.
    - destruct f' as [|f']; [lia|]. cbn [pattern_bits]. destruct (m =? 0)%Z; [done|]. destruct (_ && _); [done|]. apply IH. lia.
  Qed.
  Context (first : N) (rest : list N) (Hneedle : needle = first :: rest).
  Lemma match_first j : matches_at hay needle j = true → at_pos (λ b, b =? first) hay j = true.
  Proof. intros (b & a & -> & <-)%matches_occurs. rewrite Hneedle. unfold at_pos. cbn [app]. rewrite list_lookup_middle by done. apply N.eqb_refl. Qed.
  Lemma chunk_mask i j : (i * 32 + 32 <= length hay)%nat → (j < 32)%nat → Z.testbit (movemask ((λ b, b =? first) <$> chunk hay i)) (Z.of_nat j) = at_pos (λ b, b =? first) hay (i * 32 + j).
  Proof.
    intros Hi Hj. pose proof (chunk_length hay i Hi) as Hc. rewrite movemask_testbit by (by rewrite fmap_length). rewrite Nat.min_l by lia. rewrite list_lookup_fmap. unfold chunk. rewrite lookup_take, lookup_drop by lia. unfold at_pos. by destruct (hay !! _).
  Qed.
  Lemma chunk_far i j : (i * 32 + 32 <= length hay)%nat → (31 <= j)%nat → Z.testbit (movemask ((λ b, b =? first) <$> chunk hay i)) (Z.of_nat j) = at_pos (λ b, b =? first) hay (i * 32 + 31).
  Proof.
    intros Hi Hj. pose proof (chunk_length hay i Hi) as Hc. rewrite movemask_testbit by (by rewrite fmap_length). rewrite Nat.min_r by lia. rewrite list_lookup_fmap. unfold chunk. rewrite lookup_take, lookup_drop by lia. unfold at_pos. by destruct (hay !! _).
  Qed.
  Definition none_before (n : nat) : Prop := ∀ j, (j < n)%nat → matches_at hay needle j = false.
  Lemma chunk_sound fuel i r : (i * 32 + 32 <= length hay)%nat → none_before (i * 32) → pb fuel (movemask ((λ b, b =? first) <$> chunk hay i)) (i * 32) = Some r →
    match r with Some q => matches_at hay needle q = true ∧ none_before q | None => none_before (S i * 32) end.
  Proof.
    intros Hi Hb E. assert (∀ j, (i * 32 <= j < i * 32 + 32)%nat → matches_at hay needle j = true → Z.testbit (movemask ((λ b, b =? first) <$> chunk hay i)) (Z.of_nat (j - i * 32)) = true) as Hin.
    { intros j Hj Hm. rewrite chunk_mask by lia. assert (i * 32 + (j - i * 32) = j)%nat as -> by lia. by apply match_first. }
    destruct r as [q|].
    - apply pb_found in E as (H1 & H2 & H3 & H4). split; [done|]. intros j Hj. destruct (decide (j < i * 32)%nat) as [Hlt|Hge]; [by apply Hb|]. destruct (matches_at hay needle j) eqn:Em; [|done]. rewrite <- Em. apply H4; [lia|].
      destruct (decide (j < i * 32 + 32)%nat) as [Hl|Hl]; [apply Hin; [lia|done]|]. rewrite chunk_far in H3 |- * by lia. done.
    - intros j Hj. destruct (decide (j < i * 32)%nat) as [Hlt|Hge]; [by apply Hb|]. destruct (matches_at hay needle j) eqn:Em; [|done]. rewrite <- Em. eapply (pb_none _ _ _ E); [lia|]. apply Hin; [lia|done].
  Qed.
  Lemma chunks_sound fuel n k r : ((k + n) * 32 <= length hay)%nat → none_before (k * 32) → pattern_chunks hay needle first fuel (seq k n) = Some r →
    match r with Some q => matches_at hay needle q = true ∧ none_before q | None => none_before ((k + n) * 32) end.
  Proof.
    revert k. induction n as [|n IH]; intros k Hn Hb; cbn [seq pattern_chunks]; [intros [= <-]; by rewrite Nat.add_0_r|]. destruct (pb fuel _ (k * 32)) as [[q|]|] eqn:E; [| |done].
    - intros [= <-]. apply (chunk_sound fuel k (Some q)); [lia|done|done].
    - intros H. assert (none_before (S k * 32)) as Hb' by (apply (chunk_sound fuel k None); [lia|done|done]). assert (k + S n = S k + n)%nat as -> by lia. apply (IH (S k)); [lia|done|done].
  Qed.
End pattern.
Lemma head_filter (P : nat → bool) k n : match head (filter (λ i, P i = true) (seq k n)) with Some q => (k <= q < k + n)%nat ∧ P q = true ∧ ∀ j, (k <= j < q)%nat → P j = false | None => ∀ j, (k <= j < k + n)%nat → P j = false end.
Proof.
  revert k. induction n as [|n IH]; intros k; cbn [seq]; [cbn; lia|]. rewrite filter_cons. destruct (decide (P k = true)) as [E|E].
  - cbn [head]. split; [lia|]. split; [done|lia].
  - apply not_true_is_false in E. specialize (IH (S k)). destruct (head _) as [q|].
    + destruct IH as (H1 & H2 & H3). split; [lia|]. split; [done|]. intros j Hj. destruct (decide (j = k)) as [->|]; [done|]. apply H3. lia.
    + intros j Hj. destruct (decide (j = k)) as [->|]; [done|]. apply IH. lia.
Qed.
Lemma matches_bound hay needle j : matches_at hay needle j = true → (j + length needle <= length hay)%nat.
Proof. unfold matches_at. rewrite andb_true_iff, Nat.leb_le. tauto. Qed.
Lemma pattern_sound fuel hay needle r : needle ≠ [] → find_pattern_simd fuel hay needle = Some r → first_occurrence hay needle r.
Proof.
  intros Hn H. assert (match r with Some q => matches_at hay needle q = true ∧ none_before hay needle q | None => ∀ j, matches_at hay needle j = false end) as W.
  - destruct needle as [|first rest]; [done|]. unfold find_pattern_simd in H. set (needle := first :: rest) in *. destruct (length hay <? length needle)%nat eqn:El.
    + injection H as <-. intros j. destruct (matches_at hay needle j) eqn:E; [|done]. apply matches_bound in E. apply Nat.ltb_lt in El. lia.
    + apply Nat.ltb_ge in El. set (places := (length hay - length needle + 1)%nat) in *. set (chunks := (places / 32)%nat) in *. assert (1 <= length needle)%nat as H1 by (cbn; lia).
      pose proof (chunks_le places 32 ltac:(lia)) as Hc. fold chunks in Hc. destruct (pattern_chunks hay needle first fuel (seq 0 chunks)) as [[q|]|] eqn:Ep; [| |done].
      * injection H as <-. apply (chunks_sound hay needle first rest eq_refl fuel chunks 0 (Some q)); [lia|intros j Hj; lia|done].
      * apply (chunks_sound hay needle first rest eq_refl fuel chunks 0 None) in Ep; [|lia|intros j Hj; lia]. cbn in Ep. injection H as <-. pose proof (head_filter (matches_at hay needle) (chunks * 32) (places - chunks * 32)) as Hh.
        destruct (head _) as [q|].
        -- destruct Hh as (_ & Hq & Hb). split; [done|]. intros j Hj. destruct (decide (j < chunks * 32)%nat) as [?|?]; [by apply Ep|]. apply Hb. lia.
        -- intros j. destruct (matches_at hay needle j) eqn:E; [|done]. rewrite <- E. pose proof (matches_bound _ _ _ E). destruct (decide (j < chunks * 32)%nat) as [?|?]; [by apply Ep|]. apply Hh. lia.
  - destruct r as [q|]; cbn.
    + destruct W as [W1 W2]. split; [by apply matches_occurs|]. intros j Hj Ho%matches_occurs. rewrite W2 in Ho by done. done.
    + intros j Ho%matches_occurs. by rewrite W in Ho.
Qed.
Lemma pattern_hangs fuel hay first rest i : let needle := first :: rest in let places := (length hay - length needle + 1)%nat in (length needle <= length hay)%nat → (i < places / 32)%nat → at_pos (λ b, b =? first) hay (i * 32 + 31) = true →
  (∀ j, ¬ occurs hay needle j) → find_pattern_simd fuel hay needle = None.
Proof.
  intros needle places Hl Hi Hp Hn. assert (∀ j, matches_at hay needle j = false) as Hm by (intros j; destruct (matches_at hay needle j) eqn:E; [|done]; by apply matches_occurs, Hn in E).
  unfold find_pattern_simd. unfold needle at 1. fold needle. rewrite (proj2 (Nat.ltb_ge _ _) Hl). fold places. pose proof (chunks_le places 32 ltac:(lia)) as Hc. set (n := (places / 32)%nat) in *.
  assert (1 <= length needle)%nat by (cbn; lia). assert (∀ k, (k <= i < k + n)%nat → ((k + n) * 32 <= length hay)%nat → pattern_chunks hay needle first fuel (seq k n) = None) as W; [|rewrite W; [done|lia|lia]].
  clearbody n. clear Hc Hi. induction n as [|n IH]; intros k Hk Hb; [lia|]. cbn [seq pattern_chunks]. destruct (decide (k = i)) as [->|Hne].
  - rewrite pb_hangs; [done|apply movemask_neg; [lia|done]|done].
  - destruct (pattern_bits hay needle fuel _ (k * 32)) as [[q|]|] eqn:E; [|apply IH; lia|done]. apply pb_found in E as (_ & E & _). by rewrite Hm in E.
Qed.
Lemma pattern_stops hay needle : ((∃ j, occurs hay needle j) ∨ ∀ i, (i < (length hay - length needle + 1) / 32)%nat → head needle ≠ hay !! (i * 32 + 31)%nat) → ∃ fuel r, find_pattern_simd fuel hay needle = Some r.
Proof.
  intros Hor. exists (32 + length hay)%nat. destruct needle as [|first rest]; [by eexists|]. unfold find_pattern_simd. set (needle := first :: rest) in *. destruct (length hay <? length needle)%nat eqn:El; [by eexists|]. apply Nat.ltb_ge in El.
  set (places := (length hay - length needle + 1)%nat) in *. pose proof (chunks_le places 32 ltac:(lia)) as Hc. set (n := (places / 32)%nat) in *. assert (1 <= length needle)%nat as H1 by (cbn; lia).
  assert (∀ m k, (k + m <= n)%nat → none_before hay needle (k * 32) → ∃ r, pattern_chunks hay needle first (32 + length hay) (seq k m) = Some r) as W.
  - induction m as [|m IH]; intros k Hk Hb; cbn [seq pattern_chunks]; [by eexists|].
    assert (∃ r, pattern_bits hay needle (32 + length hay) (movemask ((λ b, b =? first) <$> chunk hay k)) (k * 32) = Some r) as [r Hr].
    { pose proof (chunk_length hay k ltac:(lia)) as Hcl. destruct (at_pos (λ b, b =? first) hay (k * 32 + 31)) eqn:E31.
      - destruct Hor as [[q Hq]|Hno].
        + apply matches_occurs in Hq. pose proof (matches_bound _ _ _ Hq). assert (k * 32 <= q)%nat as Hkq by (destruct (decide (k * 32 <= q)%nat); [done|]; rewrite Hb in Hq by lia; done).
          eapply (pb_stops _ _ _ _ _ q); [apply movemask_neg; [lia|done]| |done|done|lia]. destruct (decide (q < k * 32 + 32)%nat).
          * rewrite chunk_mask by lia. assert (k * 32 + (q - k * 32) = q)%nat as -> by lia. by eapply match_first.
          * rewrite chunk_far by lia. done.
        + exfalso. apply (Hno k ltac:(lia)). unfold at_pos in E31. destruct (hay !! (k * 32 + 31)%nat) as [b|]; [|done]. apply N.eqb_eq in E31. by subst.
      - assert (unsigned ((λ b, (b =? first)%N) <$> chunk hay k) < 2 ^ 31)%Z as Hu.
        { apply unsigned_last; [by rewrite fmap_length|]. rewrite list_lookup_fmap. unfold chunk. rewrite lookup_take, lookup_drop by lia. unfold at_pos in E31. destruct (lookup_lt_is_Some_2 hay (k * 32 + 31)) as [b Hbb]; [lia|]. rewrite Hbb in E31 |- *. cbn. by rewrite E31. }
        unfold movemask, as_i32. rewrite (proj2 (Z.ltb_lt _ _) Hu). apply pb_nonneg. rewrite fmap_length. lia. }
    rewrite Hr. destruct r as [q|]; [by eexists|]. apply (IH (S k)); [lia|]. by apply (chunk_sound hay needle first rest eq_refl (32 + length hay) k None); [lia| |].
  - destruct (W n 0%nat) as [r Hr]; [lia|intros j Hj; lia|]. rewrite Hr. destruct r; by eexists.
Qed.

(** *** UTF-8 *)
Lemma finite_check (n : nat) (P : N → bool) : forallb P (N.of_nat <$> seq 0 n) = true → ∀ b, b < N.of_nat n → P b = true.
Proof. intros H b Hb. rewrite forallb_forall in H. apply H. apply elem_of_list_In, elem_of_list_fmap. exists (N.to_nat b). split; [by rewrite N2Nat.id|]. apply elem_of_seq. lia. Qed.
Lemma is_continuation_spec b : byte b → is_continuation b = is_cont b.
Proof. intros Hb. apply eqb_prop. apply (finite_check 256 (λ b, Bool.eqb (is_continuation b) (is_cont b))); [by vm_compute|]. exact Hb. Qed.
Lemma is_cont_spec b : is_cont b = true ↔ continuation b.
Proof. unfold is_cont, continuation. rewrite andb_true_iff, N.leb_le, N.ltb_lt. done. Qed.
Lemma at_middle p pre x r : at_pos p (pre ++ x :: r) (length pre) = p x.
Proof. unfold at_pos. by rewrite list_lookup_middle. Qed.
Lemma at_middle_plus p pre r k x : r !! k = Some x → at_pos p (pre ++ r) (length pre + k) = p x.
Proof. intros H. unfold at_pos. rewrite lookup_app_r by lia. by rewrite Nat.add_comm, Nat.add_sub, H. Qed.
Lemma vm_char pre c rest : scalar c → 128 <= c → validate_multibyte (pre ++ utf8_char c ++ rest) (length pre) (default 0 (utf8_char c !! 0%nat)) = true ∧ sequence_length (default 0 (utf8_char c !! 0%nat)) = length (utf8_char c) ∧ 128 <= default 0 (utf8_char c !! 0%nat).
Proof.
  intros Hs Hc. assert (c < 1114112) as Hmax by (unfold scalar in Hs; lia).
  assert (∀ x, x < 64 → is_continuation (128 + x) = true) as Hcont. { intros x Hx. rewrite is_continuation_spec by (unfold byte; lia). apply is_cont_spec. unfold continuation. lia. }
  assert (∀ x, x mod 64 < 64) as Hm by (intros x; by apply N.mod_lt). unfold utf8_char. rewrite (proj2 (N.ltb_ge c 128)) by done. destruct (c <? 2048) eqn:E1; [|destruct (c <? 65536) eqn:E2].
  - apply N.ltb_lt in E1. assert (c / 64 < 32) by (apply N.div_lt_upper_bound; lia). assert (2 <= c / 64) by (apply N.div_le_lower_bound; lia). set (q := c / 64) in *. clearbody q. cbn [lookup list_lookup default id app length]. unfold validate_multibyte, sequence_length. rewrite (proj2 (N.ltb_ge (192 + q) 192)), (proj2 (N.ltb_lt (192 + q) 224)) by lia.
    split; [|split; [done|lia]]. rewrite app_length. cbn [length]. apply andb_true_iff. split; [apply Nat.ltb_lt; lia|]. unfold cont_at. erewrite at_middle_plus by reflexivity. apply Hcont, Hm.
  - apply N.ltb_ge in E1. apply N.ltb_lt in E2. assert (c / 4096 < 16) by (apply N.div_lt_upper_bound; lia). set (q := c / 4096) in *. clearbody q. cbn [lookup list_lookup default id app length]. unfold validate_multibyte, sequence_length. rewrite (proj2 (N.ltb_ge (224 + q) 192)), (proj2 (N.ltb_ge (224 + q) 224)), (proj2 (N.ltb_lt (224 + q) 240)) by lia.
    split; [|split; [done|lia]]. rewrite app_length. cbn [length]. rewrite !andb_true_iff. split; [split; [apply Nat.ltb_lt; lia|]|]; unfold cont_at; (erewrite at_middle_plus by reflexivity); apply Hcont, Hm.
  - apply N.ltb_ge in E1, E2. assert (c / 262144 < 5) by (apply N.div_lt_upper_bound; lia). set (q := c / 262144) in *. clearbody q. cbn [lookup list_lookup default id app length]. unfold validate_multibyte, sequence_length. rewrite (proj2 (N.ltb_ge (240 + q) 192)), (proj2 (N.ltb_ge (240 + q) 224)), (proj2 (N.ltb_ge (240 + q) 240)), (proj2 (N.ltb_lt (240 + q) 248)) by lia.
    split; [|split; [done|lia]]. rewrite app_length. cbn [length]. rewrite !andb_true_iff. split; [split; [split; [apply Nat.ltb_lt; lia|]|]|]; unfold cont_at; (erewrite at_middle_plus by reflexivity); apply Hcont, Hm.
Qed.
Lemma vf_text tm : Forall scalar tm → ∀ fuel pre post, validate_from (pre ++ utf8 tm ++ post) fuel (length pre) (length (pre ++ utf8 tm)) = true.
Proof.
  induction tm as [|c tm IH]; intros Hs fuel pre post.
  - destruct fuel; [done|]. cbn [validate_from]. rewrite (proj2 (Nat.ltb_ge _ _)); [done|]. unfold utf8. cbn. rewrite app_nil_r. lia.
  - apply Forall_cons in Hs as [Hc Hs]. destruct fuel as [|f]; [done|]. cbn [validate_from]. change (utf8 (c :: tm)) with (utf8_char c ++ utf8 tm). pose proof (utf8_char_nonempty c) as Hne.
    rewrite (proj2 (Nat.ltb_lt _ _)) by (rewrite !app_length; destruct (utf8_char c); [done|]; cbn; lia).
    specialize (IH Hs f (pre ++ utf8_char c) post). rewrite <- !app_assoc in IH. rewrite app_length in IH. rewrite <- !app_assoc.
    assert ((pre ++ utf8_char c ++ utf8 tm ++ post) !! length pre = utf8_char c !! 0%nat) as ->. { rewrite lookup_app_r by lia. rewrite Nat.sub_diag. destruct (utf8_char c); done. }
    destruct (decide (c < 128)) as [Hlt|Hge].
    + rewrite utf8_char_ascii in * by done. cbn [lookup list_lookup default id]. rewrite (proj2 (N.ltb_lt c 128)) by done. cbn [length] in IH. rewrite Nat.add_1_r in IH. exact IH.
    + destruct (vm_char pre c (utf8 tm ++ post) Hc ltac:(lia)) as (H1 & H2 & H3). rewrite (proj2 (N.ltb_ge _ 128)) by done. rewrite H1, H2. exact IH.
Qed.
Lemma text_prefix a b c d : a ++ b = c ++ d → (length (utf8 a) <= length (utf8 c))%nat → a = c ∨ ∃ m, c = a ++ m.
Proof.
  intros E Hl. right. destruct (decide (length a <= length c)%nat) as [H|H].
  - exists (drop (length a) c). apply (f_equal (take (length a))) in E. rewrite take_app, take_app_le in E by done. rewrite E at 1. by rewrite take_drop.
  - assert (∃ m, a = c ++ m) as [m ->]. { exists (drop (length c) a). apply (f_equal (take (length c))) in E. rewrite take_app, take_app_le in E by lia. rewrite <- E at 1. by rewrite take_drop. }
    rewrite utf8_app, app_length in Hl. destruct m as [|x m]; [rewrite app_nil_r in H; lia|]. change (utf8 (x :: m)) with (utf8_char x ++ utf8 m) in Hl. rewrite app_length in Hl. pose proof (utf8_char_nonempty x). destruct (utf8_char x); [done|]. cbn in Hl. lia.
Qed.
Lemma utf8_boundaries t : Forall scalar t → (∀ i, (i * 32 <= length (utf8 t))%nat → ∃ t1 t2, t = t1 ++ t2 ∧ length (utf8 t1) = (i * 32)%nat) → validate_utf8_simd (utf8 t) = true.
Proof.
  intros Hs Hb. unfold validate_utf8_simd. set (n := (length (utf8 t) / 32)%nat). assert (n * 32 <= length (utf8 t))%nat as Hn by (apply chunks_le; lia). apply andb_true_iff. split.
  - apply forallb_forall. intros i [_ Hi]%elem_of_list_In%elem_of_seq. rewrite Nat.add_0_l in Hi. unfold process_chunk. destruct (forallb _ _); [done|].
    destruct (Hb i ltac:(nia)) as (a & b & E1 & L1). destruct (Hb (S i) ltac:(nia)) as (c & d & E2 & L2). destruct (text_prefix a b c d) as [->|[m ->]]; [congruence|lia|lia|].
    rewrite Nat.min_l by nia. rewrite E2 in *. apply Forall_app in Hs as [Hs _]. apply Forall_app in Hs as [_ Hs]. pose proof (vf_text m Hs 32 (utf8 a) (utf8 d)) as H. rewrite L1 in H. rewrite <- (utf8_app a m), L2 in H. rewrite <- (utf8_app m d), <- (utf8_app a (m ++ d)) in H.
    assert (i * 32 + 32 = S i * 32)%nat as -> by lia. rewrite <- app_assoc. exact H.
  - destruct (Hb n Hn) as (a & b & -> & L1). apply Forall_app in Hs as [_ Hs]. pose proof (vf_text b Hs (length (utf8 (a ++ b))) (utf8 a) []) as H. rewrite app_nil_r, L1, <- utf8_app in H. exact H.
Qed.
Lemma vf_shaped pre r : Forall byte (pre ++ r) → ∀ fuel, (length r <= fuel)%nat → validate_from (pre ++ r) fuel (length pre) (length (pre ++ r)) = true ↔ shaped r.
Proof.
  revert pre. induction r as [r IHr] using (induction_ltof1 _ length). unfold ltof in IHr. intros pre Hb fuel Hf. destruct fuel as [|f]; [destruct r; [|cbn in Hf; lia]; split; [constructor|done]|]. cbn [validate_from].
  destruct r as [|b r]; [rewrite (proj2 (Nat.ltb_ge _ _)) by (rewrite app_nil_r; lia); split; [constructor|done]|]. rewrite (proj2 (Nat.ltb_lt _ _)) by (rewrite app_length; cbn; lia). rewrite list_lookup_middle by done. cbn [default id].
  assert (∀ c r', b :: r = c ++ r' → c ≠ [] → validate_from (pre ++ b :: r) f (length pre + length c) (length (pre ++ b :: r)) = true ↔ shaped r') as Hrec.
  { intros c r' E Hc. rewrite E. rewrite app_assoc, <- app_length. assert (length c ≠ 0)%nat by (by destruct c). assert (length (b :: r) = length c + length r')%nat as El by (by rewrite E, app_length). apply IHr; [lia| |lia]. rewrite <- app_assoc, <- E. done. }
  apply Forall_app in Hb as [_ Hb]. assert (∀ k c, (b :: r) !! k = Some c → cont_at (pre ++ b :: r) (length pre + k) = true ↔ continuation c) as Hc.
  { intros k c Hk. unfold cont_at. rewrite (at_middle_plus _ _ _ _ c Hk). rewrite is_continuation_spec by (by eapply Forall_lookup_1). apply is_cont_spec. }
  assert (length (pre ++ b :: r) = length pre + S (length r))%nat as Hl by (rewrite app_length; done).
  destruct (b <? 128) eqn:E.
  - apply N.ltb_lt in E. rewrite <- Nat.add_1_r. rewrite (Hrec [b] r) by done. split; [by constructor|]. inversion 1; subst; [done|lia|lia|lia].
  - apply N.ltb_ge in E. rewrite andb_true_iff. unfold validate_multibyte, sequence_length. rewrite Hl. destruct (b <? 192) eqn:E1; [split; [by intros [? _]|]; apply N.ltb_lt in E1; inversion 1; subst; lia|]. apply N.ltb_ge in E1.
    destruct (b <? 224) eqn:E2; [|destruct (b <? 240) eqn:E3; [|destruct (b <? 248) eqn:E4]].
    + apply N.ltb_lt in E2. rewrite andb_true_iff, Nat.ltb_lt. destruct r as [|c r]; [split; [cbn; lia|inversion 1; subst; lia]|]. rewrite (Hc 1%nat c eq_refl). rewrite <- Hl. rewrite (Hrec [b; c] r) by done. rewrite Hl. split.
      * intros [[_ H1] H2]. by apply Sh2.
      * inversion 1; subst; try lia. cbn. split; [split; [lia|done]|done].
    + apply N.ltb_ge in E2. apply N.ltb_lt in E3. rewrite !andb_true_iff, Nat.ltb_lt. destruct r as [|c [|d r]]; [split; [cbn; lia|inversion 1; subst; lia]|split; [cbn; lia|inversion 1; subst; lia]|]. rewrite (Hc 1%nat c eq_refl), (Hc 2%nat d eq_refl). rewrite <- Hl. rewrite (Hrec [b; c; d] r) by done. rewrite Hl. split.
      * intros [[[_ H1] H2] H3]. by apply Sh3.
      * inversion 1; subst; try lia. cbn. split; [split; [split; [lia|done]|done]|done].
    + apply N.ltb_ge in E2, E3. apply N.ltb_lt in E4. rewrite !andb_true_iff, Nat.ltb_lt. destruct r as [|c [|d [|e r]]]; [split; [cbn; lia|inversion 1; subst; lia]|split; [cbn; lia|inversion 1; subst; lia]|split; [cbn; lia|inversion 1; subst; lia]|].
      rewrite (Hc 1%nat c eq_refl), (Hc 2%nat d eq_refl), (Hc 3%nat e eq_refl). rewrite <- Hl. rewrite (Hrec [b; c; d; e] r) by done. rewrite Hl. split.
      * intros [[[[_ H1] H2] H3] H4]. by apply Sh4.
      * inversion 1; subst; try lia. cbn. split; [split; [split; [split; [lia|done]|done]|done]|done].
    + apply N.ltb_ge in E2, E3, E4. split; [by intros [? _]|]. inversion 1; subst; lia.
Qed.
Lemma short_shaped input : Forall byte input → (length input < 32)%nat → validate_utf8_simd input = true ↔ shaped input.
Proof. intros Hb Hl. unfold validate_utf8_simd. rewrite (Nat.div_small (length input) 32) by done. cbn [seq forallb andb Nat.mul]. by apply (vf_shaped [] input). Qed.
Lemma high_accepted input n : length input = (n * 32)%nat → Forall (λ b, 128 <= b) input → validate_utf8_simd input = true.
Proof.
  intros Hl Hb. unfold validate_utf8_simd. rewrite Hl, Nat.div_mul by lia. apply andb_true_iff. split.
  - apply forallb_forall. intros i _. unfold process_chunk. assert (forallb (λ b, 128 <=? b) (chunk input i) = true) as ->; [|done]. apply forallb_forall. intros b Hin%elem_of_list_In. apply N.leb_le. rewrite Forall_forall in Hb. apply Hb. eapply elem_of_list_lookup in Hin as [k Hk]. unfold chunk in Hk. apply lookup_take_Some in Hk as [Hk _]. rewrite lookup_drop in Hk. by eapply elem_of_list_lookup_2.
  - destruct (n * 32)%nat as [|m]; [done|]. cbn [validate_from]. by rewrite Nat.ltb_irrefl.
Qed.
Lemma vf_continuation input fuel i stop y : (i < stop)%nat → (1 <= fuel)%nat → input !! i = Some y → 128 <= y → y < 192 → validate_from input fuel i stop = false.
Proof.
  intros Hi Hf Hy H1 H2. destruct fuel as [|f]; [lia|]. cbn [validate_from]. rewrite (proj2 (Nat.ltb_lt _ _) Hi), Hy. cbn [default id]. unfold validate_multibyte. by rewrite (proj2 (N.ltb_ge y 128)), (proj2 (N.ltb_lt y 192)) by done.
Qed.
Lemma crossing_rejected a c b : Forall (λ x, x < 128) a → length a = 31%nat → 128 <= c → c < 2048 → (length b < 31)%nat → Forall (λ x, x < 128) b → validate_utf8_simd (utf8 (a ++ [c] ++ b)) = false.
Proof.
  intros Ha La Hc1 Hc2 Lb Hb. rewrite !utf8_app, (utf8_ascii a), (utf8_ascii b) by done.
  assert (∃ x y, utf8 [c] = [x; y] ∧ 128 <= y ∧ y < 192) as (x & y & -> & Hy1 & Hy2).
  { exists (192 + c / 64), (128 + c mod 64). assert (c mod 64 < 64) as Hm by (by apply N.mod_lt). split; [|set (q := c mod 64) in *; clearbody q; lia]. unfold utf8. cbn [fmap list_fmap concat]. rewrite app_nil_r. unfold utf8_char. by rewrite (proj2 (N.ltb_ge c 128)), (proj2 (N.ltb_lt c 2048)) by done. }
  set (input := a ++ [x; y] ++ b). assert (length input = 2 + length b + 31)%nat as Hl by (unfold input; rewrite !app_length, La; cbn [length]; lia). assert (input !! 32%nat = Some y) as Hi by (unfold input; rewrite lookup_app_r by lia; by rewrite La). clearbody input. unfold validate_utf8_simd.
  assert (length input / 32 = 1)%nat as -> by (symmetry; apply (Nat.div_unique _ _ _ (length input - 32)); lia). apply andb_false_iff. right. rewrite Nat.mul_1_l. apply (vf_continuation _ _ _ _ y); [lia|lia|done|done|done].
Qed.
Lemma decode_bad_start b r : 128 <= b → b < 194 → utf8_decode (b :: r) = None.
Proof. intros H1 H2. unfold utf8_decode. cbn [length utf8_decode_fuel utf8_next]. by rewrite (proj2 (N.ltb_ge b 128)), (proj2 (N.ltb_lt b 194)) by done. Qed.

(** *** Base64 *)
Lemma b64_ok v : v < 64 → b64_value (b64 v) = Some v.
Proof.
  intros H. pose proof (finite_check 64 (λ v, match b64_value (b64 v) with Some w => w =? v | None => false end) ltac:(by vm_compute) v H) as E. cbn beta in E. destruct (b64_value (b64 v)); [|done]. apply N.eqb_eq in E. by subst.
Qed.
Lemma lor_4 x y : x < 4 → y < 16 → N.lor (N.shiftl x 4) y = x * 16 + y.
Proof.
  intros Hx Hy. assert (N.lor (N.shiftl x 4) y =? x * 16 + y = true) as E; [|by apply N.eqb_eq].
  assert (forallb (λ y, N.lor (N.shiftl x 4) y =? x * 16 + y) (N.of_nat <$> seq 0 16) = true) as H; [|by apply (finite_check 16 (λ y, N.lor (N.shiftl x 4) y =? x * 16 + y) H y)]. apply (finite_check 4 (λ x, forallb (λ y, N.lor (N.shiftl x 4) y =? x * 16 + y) (N.of_nat <$> seq 0 16))); [by vm_compute|done].
Qed.
Lemma lor_2 x y : x < 16 → y < 4 → N.lor (N.shiftl x 2) y = x * 4 + y.
Proof.
  intros Hx Hy. assert (N.lor (N.shiftl x 2) y =? x * 4 + y = true) as E; [|by apply N.eqb_eq].
  assert (forallb (λ y, N.lor (N.shiftl x 2) y =? x * 4 + y) (N.of_nat <$> seq 0 4) = true) as H; [|by apply (finite_check 4 (λ y, N.lor (N.shiftl x 2) y =? x * 4 + y) H y)]. apply (finite_check 16 (λ x, forallb (λ y, N.lor (N.shiftl x 2) y =? x * 4 + y) (N.of_nat <$> seq 0 4))); [by vm_compute|done].
Qed.
Lemma group_values b1 b2 b3 : byte b1 → byte b2 → byte b3 →
  N.shiftr b1 2 = b1 / 4 ∧ N.lor (N.shiftl (N.land b1 3) 4) (N.shiftr b2 4) = (b1 mod 4) * 16 + b2 / 16 ∧ N.lor (N.shiftl (N.land b2 15) 2) (N.shiftr b3 6) = (b2 mod 16) * 4 + b3 / 64 ∧ N.land b3 63 = b3 mod 64 ∧
  N.shiftl (N.land b1 3) 4 = (b1 mod 4) * 16 ∧ N.shiftl (N.land b2 15) 2 = (b2 mod 16) * 4.
Proof.
  unfold byte. intros H1 H2 H3. rewrite !N.shiftr_div_pow2. change 3 with (N.ones 2). change 15 with (N.ones 4). change 63 with (N.ones 6). rewrite !N.land_ones. change (2 ^ 2) with 4. change (2 ^ 4) with 16. change (2 ^ 6) with 64.
  assert (b1 mod 4 < 4) by (by apply N.mod_lt). assert (b2 mod 16 < 16) by (by apply N.mod_lt). assert (b2 / 16 < 16) by (apply N.div_lt_upper_bound; lia). assert (b3 / 64 < 4) by (apply N.div_lt_upper_bound; lia). rewrite lor_4, lor_2 by done. rewrite !N.shiftl_mul_pow2. done.
Qed.
Lemma base64_ok l : Forall byte l → base64_decode (base64_encode l) = Some l.
Proof.
  induction l as [l IH] using (induction_ltof1 _ length). unfold ltof in IH. intros Hb. destruct l as [|b1 [|b2 [|b3 r]]]; [done| | |].
  - rewrite Forall_singleton in Hb. cbn [base64_encode base64_decode]. destruct (group_values b1 0 0 Hb ltac:(done) ltac:(done)) as (-> & _ & _ & _ & -> & _). unfold byte in Hb. assert (b1 / 4 < 64) by (apply N.div_lt_upper_bound; lia). assert (b1 mod 4 < 4) by (by apply N.mod_lt).
    rewrite !b64_ok by lia. assert (b64_value 61 = None) as -> by done. rewrite bool_decide_eq_true_2 by done. cbn [andb]. rewrite N.mod_mul, N.div_mul by done. cbn [N.eqb]. f_equal. f_equal. rewrite N.mul_comm. symmetry. by apply N.div_mod.
  - rewrite !Forall_cons in Hb. destruct Hb as (H1 & H2 & _). cbn [base64_encode base64_decode]. destruct (group_values b1 b2 0 H1 H2 ltac:(done)) as (-> & -> & _ & _ & _ & ->). unfold byte in H1, H2. assert (b1 / 4 < 64) by (apply N.div_lt_upper_bound; lia). assert (b1 mod 4 < 4) by (by apply N.mod_lt). assert (b2 / 16 < 16) by (apply N.div_lt_upper_bound; lia). assert (b2 mod 16 < 16) by (by apply N.mod_lt).
    rewrite !b64_ok by lia. assert (b64_value 61 = None) as -> by done. rewrite bool_decide_eq_true_2 by done. cbn [andb]. rewrite N.mod_mul, N.div_mul by done. cbn [N.eqb]. rewrite (N.add_comm _ (b2 / 16)), N.mod_add, N.div_add by done. rewrite (N.div_small (b2 / 16)), (N.mod_small (b2 / 16)) by done.
    pose proof (N.div_mod b1 4 ltac:(done)). pose proof (N.div_mod b2 16 ltac:(done)). do 3 f_equal; lia.
  - rewrite !Forall_cons in Hb. destruct Hb as (H1 & H2 & H3 & Hr). cbn [base64_encode base64_decode]. destruct (group_values b1 b2 b3 H1 H2 H3) as (-> & -> & -> & -> & _ & _). unfold byte in H1, H2, H3. assert (b1 / 4 < 64) by (apply N.div_lt_upper_bound; lia). assert (b1 mod 4 < 4) by (by apply N.mod_lt). assert (b2 / 16 < 16) by (apply N.div_lt_upper_bound; lia). assert (b2 mod 16 < 16) by (by apply N.mod_lt). assert (b3 / 64 < 4) by (apply N.div_lt_upper_bound; lia). assert (b3 mod 64 < 64) by (by apply N.mod_lt).
    rewrite !b64_ok by lia. rewrite IH by (cbn; first [lia|done]). cbn [fmap option_fmap option_map].
    rewrite (N.add_comm _ (b2 / 16)), N.mod_add, N.div_add by done. rewrite (N.add_comm _ (b3 / 64)), N.mod_add, N.div_add by done. rewrite (N.div_small (b2 / 16)), (N.mod_small (b2 / 16)), (N.div_small (b3 / 64)), (N.mod_small (b3 / 64)) by done.
    pose proof (N.div_mod b1 4 ltac:(done)). pose proof (N.div_mod b2 16 ltac:(done)). pose proof (N.div_mod b3 64 ltac:(done)). f_equal. f_equal; [lia|]. f_equal; [lia|]. f_equal; lia.
Qed.

(** *** Masking, copying, checksums *)
Lemma xor_imap data mask : xor_mask_simd data mask = imap (λ i b, N.lxor b (mask_at mask i)) data.
Proof.
  set (f := λ i b, N.lxor b (mask_at mask i)). unfold xor_mask_simd. assert (∀ j, (j < 32)%nat → (mask_at mask <$> seq 0 32) !! j = Some (mask_at mask j)) as Hpat by (intros j Hj; by rewrite list_lookup_fmap, lookup_seq_lt by done). set (pat := mask_at mask <$> seq 0 32) in *. clearbody pat. set (n := (length data / 32)%nat). assert (n * 32 <= length data)%nat as Hn by (apply chunks_le; lia).
  assert (∀ k, (k * 32 <= length data)%nat → concat ((λ i, zip_with N.lxor (chunk data i) pat) <$> seq 0 k) = imap f (take (k * 32) data)) as Hk.
  { induction k as [|k IH]; intros Hk; [done|]. rewrite seq_S, fmap_app, concat_app, IH by lia. rewrite take_chunk, imap_app. f_equal. rewrite take_length, Nat.min_l by lia. cbn [fmap list_fmap concat]. rewrite app_nil_r. cbn [Nat.add]. pose proof (chunk_length data k ltac:(lia)) as Hc. apply list_eq. intros j. rewrite list_lookup_imap, lookup_zip_with.
    destruct (decide (j < 32)%nat) as [Hj|Hj].
    - rewrite Hpat by done. destruct (chunk data k !! j) as [b|]; [|done]. cbn. unfold f, mask_at. do 3 f_equal. assert (k * 32 = k * 8 * 4)%nat as -> by lia. rewrite (Nat.add_comm _ j). by rewrite Nat.mod_add by lia.
    - rewrite (lookup_ge_None_2 (chunk data k)) by lia. done. }
  rewrite Hk by done. transitivity (imap f (take (n * 32) data ++ drop (n * 32) data)); [|by rewrite take_drop]. rewrite imap_app. f_equal. rewrite take_length, Nat.min_l by done. apply list_eq. intros j. rewrite list_lookup_imap, lookup_zip_with. destruct (drop (n * 32) data !! j) as [b|] eqn:E; [|done]. apply lookup_lt_Some in E. rewrite drop_length in E. cbn. by rewrite lookup_seq_lt by done.
Qed.
Lemma copy_ok src dst : (length src <= length dst)%nat → copy_simd src dst = Some (src ++ drop (length src) dst).
Proof. intros H. unfold copy_simd. rewrite (proj2 (Nat.leb_le _ _) H). f_equal. rewrite chunks_concat, app_assoc. by rewrite take_drop. Qed.
Lemma sum_total l : sum l = total l.
Proof. done. Qed.
Lemma total_app a b : total (a ++ b) = total a + total b.
Proof. unfold total. induction a as [|x a IH]; [done|]. cbn. rewrite IH. lia. Qed.
Lemma fold_wrapping l s : fold_left wrapping_add l (s mod 2 ^ 32) = (s + total l) mod 2 ^ 32.
Proof.
  revert s. induction l as [|x l IH]; intros s; [cbn; by rewrite N.add_0_r|]. cbn [fold_left]. unfold wrapping_add at 2. rewrite N.add_mod_idemp_l by done. rewrite IH. f_equal. unfold total. cbn [foldr]. lia.
Qed.
Lemma fold_sad l s : fold_left (λ s x, wrapping_add s (x mod 2 ^ 32)) l (s mod 2 ^ 32) = (s + total l) mod 2 ^ 32.
Proof.
  revert s. induction l as [|x l IH]; intros s; [cbn; by rewrite N.add_0_r|]. cbn [fold_left]. unfold wrapping_add at 2. rewrite <- N.add_mod by done. rewrite IH. f_equal. unfold total. cbn [foldr]. lia.
Qed.
Lemma sad_total c : length c = 32%nat → total (sad c) = total c.
Proof.
  intros H. unfold sad. change sum with total. assert (total c = total (take 8 c) + total (drop 8 c)) as -> by (by rewrite <- total_app, take_drop). assert (total (drop 8 c) = total (take 8 (drop 8 c)) + total (drop 16 c)) as -> by (change 16%nat with (8 + 8)%nat; by rewrite <- total_app, <- (drop_drop c 8 8), take_drop). assert (total (drop 16 c) = total (take 8 (drop 16 c)) + total (drop 24 c)) as -> by (change 24%nat with (16 + 8)%nat; by rewrite <- total_app, <- (drop_drop c 8 16), take_drop).
  rewrite (take_ge (drop 24 c)) by (rewrite drop_length; lia). unfold total at 1. cbn [foldr]. lia.
Qed.
Lemma checksum_ok buf : checksum buf = total buf mod 2 ^ 32.
Proof.
  unfold checksum. set (n := (length buf / 32)%nat). assert (n * 32 <= length buf)%nat as Hn by (apply chunks_le; lia).
  assert (∀ k, (k * 32 <= length buf)%nat → fold_left (λ s i, fold_left (λ s x, wrapping_add s (x mod 2 ^ 32)) (sad (chunk buf i)) s) (seq 0 k) 0 = total (take (k * 32) buf) mod 2 ^ 32) as Hk.
  { induction k as [|k IH]; intros Hk; [done|]. rewrite seq_S, fold_left_app, IH by lia. cbn [fold_left Nat.add]. rewrite fold_sad, sad_total by (apply chunk_length; lia). by rewrite take_chunk, total_app. }
  rewrite Hk by done. rewrite fold_wrapping, <- total_app. by rewrite take_drop.
Qed.

(** *** Run lengths *)
Lemma ones_le fl : (ones fl <= length fl)%nat.
Proof. induction fl as [|[] fl IH]; cbn; lia. Qed.
Lemma ones_take cur l : take (ones ((λ b, b =? cur) <$> l)) l = replicate (ones ((λ b, b =? cur) <$> l)) cur.
Proof. induction l as [|b l IH]; [done|]. cbn [fmap list_fmap]. destruct (b =? cur) eqn:E; cbn; [|done]. apply N.eqb_eq in E. by rewrite IH, E. Qed.
Definition run_ok (cur : N) (rest : list N) (c : nat) : Prop := (1 <= c <= 255)%nat ∧ (c <= length rest)%nat ∧ take c rest = replicate c cur.
Lemma count_ok cur rest fuel c : run_ok cur rest c → (255 - c <= fuel)%nat → run_ok cur rest (count_on cur rest fuel c) ∧ ((count_on cur rest fuel c < 255)%nat → rest !! count_on cur rest fuel c ≠ Some cur).
Proof.
  revert c. induction fuel as [|f IH]; intros c Hr Hf.
  - cbn [count_on]. split; [done|]. destruct Hr as [? _]. lia.
  - cbn [count_on]. destruct (c <? length rest)%nat eqn:E1; cbn [andb]; [destruct (c <? 255)%nat eqn:E2; cbn [andb]; [destruct (at_pos (λ b, b =? cur) rest c) eqn:E3|]|].
    + apply Nat.ltb_lt in E1, E2. unfold at_pos in E3. destruct (rest !! c) as [b|] eqn:Eb; [|done]. apply N.eqb_eq in E3. subst b. destruct Hr as (H1 & H2 & H3). apply IH; [|lia]. split; [lia|]. split; [lia|]. rewrite (take_S_r _ _ _ Eb), H3. by rewrite <- replicate_S_end.
    + split; [done|]. intros _ H. unfold at_pos in E3. rewrite H in E3. by rewrite N.eqb_refl in E3.
    + split; [done|]. apply Nat.ltb_ge in E2. lia.
    + split; [done|]. intros _ H. apply Nat.ltb_ge in E1. apply lookup_lt_Some in H. lia.
Qed.
Lemma run_length_ok cur tl : run_ok cur (cur :: tl) (run_length cur (cur :: tl)) ∧ ((run_length cur (cur :: tl) < 255)%nat → (cur :: tl) !! run_length cur (cur :: tl) ≠ Some cur).
Proof.
  unfold run_length. apply count_ok; [|lia]. destruct (32 <=? length (cur :: tl))%nat eqn:E.
  - apply Nat.leb_le in E. set (l := take 32 (cur :: tl)). pose proof (ones_take cur l) as Ho. pose proof (ones_le ((λ b, b =? cur) <$> l)) as Hle. rewrite fmap_length in Hle. assert (length l = 32)%nat as Hl by (unfold l; rewrite take_length; lia). assert (1 <= ones ((λ b, (b =? cur)%N) <$> l))%nat as H1 by (unfold l; cbn; rewrite N.eqb_refl; lia).
    set (o := ones _) in *. clearbody o. rewrite Nat.min_l by lia. split; [lia|]. split; [lia|]. rewrite <- Ho. unfold l. by rewrite take_take, Nat.min_l by lia.
  - split; [lia|]. split; [cbn; lia|done].
Qed.
Lemma rle_ok fuel rest : (length rest <= fuel)%nat → rle_decode (rle_from fuel rest) = Some rest.
Proof.
  revert rest. induction fuel as [|f IH]; intros [|cur tl] Hf; [done|cbn in Hf; lia|done|]. cbn [rle_from]. destruct (run_length_ok cur tl) as [(H1 & H2 & H3) _]. set (c := run_length cur (cur :: tl)) in *. clearbody c. cbn [rle_decode]. rewrite Nat2N.id. rewrite IH by (rewrite drop_length; lia). cbn. f_equal. rewrite <- H3. apply take_drop.
Qed.
Lemma rle_shape fuel rest : (length rest <= fuel)%nat → rle_tight (rle_from fuel rest) ∧ ∀ i c, rle_from fuel rest !! (2 * i)%nat = Some c → 1 <= c ∧ c <= 255.
Proof.
  revert rest. induction fuel as [|f IH]; intros [|cur tl] Hf; [split; [done|]; by intros i c|cbn in Hf; lia|split; [done|]; by intros i c|]. cbn [rle_from]. destruct (run_length_ok cur tl) as [(H1 & H2 & H3) H4]. set (c := run_length cur (cur :: tl)) in *. clearbody c. destruct (IH (drop c (cur :: tl))) as [I1 I2]; [rewrite drop_length; cbn in Hf |- *; lia|]. split.
  - destruct (rle_from f (drop c (cur :: tl))) as [|c' [|b' r]] eqn:E; [done|done|]. split; [|exact I1]. destruct (decide (c = 255)%nat) as [->|Hne]; [by left|]. right. intros ->. apply H4; [lia|]. destruct f as [|f]; [done|]. cbn [rle_from] in E. destruct (drop c (b' :: tl)) as [|x xs] eqn:Ed; [done|]. injection E as _ Ex _. subst x. rewrite <- (Nat.add_0_r c), <- lookup_drop, Ed. done.
  - intros [|i] x; [cbn; intros [= <-]; lia|]. assert (2 * S i = S (S (2 * i)))%nat as -> by lia. cbn [lookup list_lookup]. apply I2.
Qed.

(** *** Lengths *)
Lemma lengths_eq l max : batch_validate_lengths l max = ((λ n, to_i32 n <? to_i32 max)%Z <$> take (length l / 8 * 8) l) ++ ((λ n, n <=? max) <$> drop (length l / 8 * 8) l).
Proof.
  unfold batch_validate_lengths. f_equal. generalize (length l / 8)%nat as k. induction k as [|k IH]; [done|]. rewrite seq_S, fmap_app, concat_app, IH. cbn [fmap list_fmap concat]. rewrite app_nil_r, <- fmap_app. f_equal.
  rewrite <- (take_drop (k * 8) (take (S k * 8) l)). rewrite take_take, skipn_firstn_comm. f_equal; f_equal; lia.
Qed.
Lemma lengths_lookup l max i : batch_validate_lengths l max !! i = (if (i <? length l / 8 * 8)%nat then (λ n, to_i32 n <? to_i32 max)%Z else (λ n, n <=? max)) <$> l !! i.
Proof.
  rewrite lengths_eq. pose proof (chunks_le (length l) 8 ltac:(lia)) as Hc. set (k := (length l / 8 * 8)%nat) in *. clearbody k. destruct (i <? k)%nat eqn:E.
  - apply Nat.ltb_lt in E. rewrite lookup_app_l by (rewrite fmap_length, take_length; lia). by rewrite list_lookup_fmap, lookup_take.
  - apply Nat.ltb_ge in E. rewrite lookup_app_r by (rewrite fmap_length, take_length; lia). rewrite fmap_length, take_length, Nat.min_l by lia. rewrite list_lookup_fmap, lookup_drop. do 2 f_equal. lia.
Qed.
