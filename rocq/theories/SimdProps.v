(** C56, C57, C58, C113: the vectorised routines. *)
From stdpp Require Import list list_numbers strings.
From Verif Require Import TextLib Utf8Lib SimdModel SimdSpec SimdProofs SimdProofs2.
Local Open Scope N_scope.

Lemma space_among b : is_space b = among white_bytes b.
Proof.
  unfold is_space, among, white_bytes. destruct (decide (b ∈ [32; 9; 10; 13])) as [H|H].
  - rewrite bool_decide_eq_true_2 by done. rewrite !elem_of_cons, elem_of_nil in H. naive_solver.
  - rewrite bool_decide_eq_false_2 by done. rewrite !elem_of_cons, elem_of_nil in H. destruct (N.eqb_spec b 32), (N.eqb_spec b 9), (N.eqb_spec b 10), (N.eqb_spec b 13); naive_solver.
Qed.
Lemma escape_among b : is_escape b = among escape_bytes b.
Proof.
  unfold is_escape, among, escape_bytes. destruct (decide (b ∈ [34; 92])) as [H|H].
  - rewrite bool_decide_eq_true_2 by done. rewrite !elem_of_cons, elem_of_nil in H. naive_solver.
  - rewrite bool_decide_eq_false_2 by done. rewrite !elem_of_cons, elem_of_nil in H. destruct (N.eqb_spec b 92), (N.eqb_spec b 34); naive_solver.
Qed.
Lemma positions_same p q input : (∀ b, p b = q b) → positions p input = positions q input.
Proof. intros H. unfold positions. generalize 0%nat. induction input as [|b l IH]; intros n; cbn [positions_from]; [done|]. by rewrite H, IH. Qed.

(** *** C56: the scanners agree with the scalar definition, and terminate *)
(** Whitespace and escapes: as long as no block of 32 bytes ends in a byte that is looked for, *)
Theorem C56_whitespace_partial : ∀ fuel input, (32 <= fuel)%nat → (∀ i, (i * 32 + 32 <= length input)%nat → ∀ b, input !! (i * 32 + 31)%nat = Some b → b ∉ white_bytes) →
  find_whitespace_simd fuel input = Some (positions (among white_bytes) input).
Proof.
  intros fuel input Hf H. rewrite <-(positions_same is_space) by apply space_among. apply find_simd_ok; [done|]. intros i Hi. unfold at_pos. destruct (input !! _) eqn:E; [|done].
  rewrite space_among. apply bool_decide_eq_false. by eapply H.
Qed.
Print Assumptions C56_whitespace_partial.
Theorem C56_escapes_partial : ∀ fuel input, (32 <= fuel)%nat → (∀ i, (i * 32 + 32 <= length input)%nat → ∀ b, input !! (i * 32 + 31)%nat = Some b → b ∉ escape_bytes) →
  find_escapes_simd fuel input = Some (positions (among escape_bytes) input).
Proof.
  intros fuel input Hf H. rewrite <-(positions_same is_escape) by apply escape_among. apply find_simd_ok; [done|]. intros i Hi. unfold at_pos. destruct (input !! _) eqn:E; [|done].
  rewrite escape_among. apply bool_decide_eq_false. by eapply H.
Qed.
Print Assumptions C56_escapes_partial.
(** otherwise they run for ever: the mask is shifted as a signed number. *)
Theorem C56_whitespace_hangs_refuted : ∀ input i b, (i * 32 + 32 <= length input)%nat → input !! (i * 32 + 31)%nat = Some b → b ∈ white_bytes → ∀ fuel, find_whitespace_simd fuel input = None.
Proof. intros input i b Hi Hb Hs fuel. apply (find_simd_hangs _ _ _ i); [done|]. unfold at_pos. rewrite Hb, space_among. by apply bool_decide_eq_true. Qed.
Print Assumptions C56_whitespace_hangs_refuted.
Theorem C56_escapes_hangs_refuted : ∀ input i b, (i * 32 + 32 <= length input)%nat → input !! (i * 32 + 31)%nat = Some b → b ∈ escape_bytes → ∀ fuel, find_escapes_simd fuel input = None.
Proof. intros input i b Hi Hb Hs fuel. apply (find_simd_hangs _ _ _ i); [done|]. unfold at_pos. rewrite Hb, escape_among. by apply bool_decide_eq_true. Qed.
Print Assumptions C56_escapes_hangs_refuted.
(** Patterns: an answer is always the first occurrence, *)
Theorem C56_pattern : ∀ fuel hay needle r, needle ≠ [] → find_pattern_simd fuel hay needle = Some r → first_occurrence hay needle r.
Proof. exact pattern_sound. Qed.
Print Assumptions C56_pattern.
(** and there is one exactly if the pattern occurs, or none of the blocks searched ends in its first byte; *)
Theorem C56_pattern_stops : ∀ hay needle, needle ≠ [] →
  (∃ fuel r, find_pattern_simd fuel hay needle = Some r) ↔
  (∃ j, occurs hay needle j) ∨ ∀ i, (i < (length hay - length needle + 1) / 32)%nat → head needle ≠ hay !! (i * 32 + 31)%nat.
Proof. exact pattern_stops_iff. Qed.
Print Assumptions C56_pattern_stops.
(** otherwise it runs for ever. *)
Theorem C56_pattern_hangs_refuted : ∀ hay first rest i, let needle := first :: rest in (length needle <= length hay)%nat → (i < (length hay - length needle + 1) / 32)%nat → hay !! (i * 32 + 31)%nat = Some first →
  (∀ j, ¬ occurs hay needle j) → ∀ fuel, find_pattern_simd fuel hay needle = None.
Proof. intros hay first rest i needle Hl Hi Hf Hn fuel. apply (pattern_hangs fuel hay first rest i); [done|done| |done]. unfold at_pos. rewrite Hf. apply N.eqb_refl. Qed.
Print Assumptions C56_pattern_hangs_refuted.
Definition ex_line : list N := lit "The quick brown fox jumps over-the lazy dog and runs away".
Example C56_example : find_whitespace_simd 32 ex_line = Some [3; 9; 15; 19; 25; 34; 39; 43; 47; 52]%nat ∧ ex_line !! 31%nat = Some 116 ∧ find_escapes_simd 32 (lit "say ""hi""") = Some [4; 7]%nat ∧
  find_pattern_simd 64 ex_line (lit "lazy") = Some (Some 35%nat) ∧ find_pattern_simd 64 ex_line (lit "cat") = Some None ∧
  (31 < length (lit "0123456789012345678901234567890 x"))%nat ∧ find_whitespace_simd 99 (lit "0123456789012345678901234567890 x") = None ∧ find_pattern_simd 99 (ex_line ++ ex_line) (lit "to") = None.
Proof. split; [by vm_compute|]. repeat split; try (by vm_compute). by apply (bool_decide_unpack _); vm_compute. Qed.

(** *** C57: UTF-8 validation accepts exactly UTF-8 *)
(** It accepts UTF-8 in which no character crosses a multiple of 32 bytes, *)
Theorem C57_accepts_partial : ∀ t, Forall scalar t → (∀ i, (i * 32 <= length (utf8 t))%nat → ∃ t1 t2, t = t1 ++ t2 ∧ length (utf8 t1) = (i * 32)%nat) → validate_utf8_simd (utf8 t) = true.
Proof. exact utf8_boundaries. Qed.
Print Assumptions C57_accepts_partial.
(** and of the inputs shorter than 32 bytes exactly those of the shape of UTF-8. *)
Theorem C57_short_partial : ∀ input, Forall byte input → (length input < 32)%nat → validate_utf8_simd input = true ↔ shaped input.
Proof. exact short_shaped. Qed.
Print Assumptions C57_short_partial.
(** C57: exactly what is accepted, for inputs of every length.  Each full block of 32 bytes consists of bytes
    from 128 on only, or starts with characters of the shape of UTF-8 that cover it; and the rest has that shape. *)
Theorem C57_exact : ∀ input, Forall byte input →
  validate_utf8_simd input = true ↔
  (∀ i, (i * 32 + 32 <= length input)%nat →
     Forall (λ b, 128 <= b) (take 32 (drop (i * 32) input)) ∨ covered 32 (drop (i * 32) input)) ∧
  shaped (drop (length input / 32 * 32) input).
Proof. exact validate_exact. Qed.
Print Assumptions C57_exact.
(** Refuted: overlong forms are accepted (also the one the documentation says is not), *)
Theorem C57_overlong_refuted : ∀ b c, 192 <= b → b < 194 → continuation c → validate_utf8_simd [b; c] = true ∧ utf8_decode [b; c] = None.
Proof.
  intros b c H1 H2 [Hc1 Hc2]. split; [|apply decode_bad_start; lia]. apply short_shaped; [|cbn; lia|].
  - repeat constructor; unfold byte; lia.
  - apply Sh2; [done|lia|done|constructor].
Qed.
Print Assumptions C57_overlong_refuted.
(** anything made of blocks of 32 bytes from 128 on is accepted, for instance 32 continuation bytes, *)
Theorem C57_high_refuted : ∀ input n, length input = (n * 32)%nat → Forall (λ b, 128 <= b) input → validate_utf8_simd input = true.
Proof. exact high_accepted. Qed.
Print Assumptions C57_high_refuted.
Theorem C57_continuations_refuted : ∀ input, length input = 32%nat → Forall continuation input → validate_utf8_simd input = true ∧ utf8_decode input = None.
Proof.
  intros input Hl Hc. split; [apply (high_accepted input 1); [done|]; eapply Forall_impl; [exact Hc|]; by intros b [? _]|]. destruct input as [|b r]; [done|]. apply Forall_cons in Hc as [[H1 H2] _]. apply decode_bad_start; lia.
Qed.
Print Assumptions C57_continuations_refuted.
(** and valid UTF-8 with a character across byte 32 is rejected. *)
Theorem C57_crossing_refuted : ∀ a c b, Forall (λ x, x < 128) a → length a = 31%nat → 128 <= c → c < 2048 → (length b < 31)%nat → Forall (λ x, x < 128) b → validate_utf8_simd (utf8 (a ++ [c] ++ b)) = false.
Proof. exact crossing_rejected. Qed.
Print Assumptions C57_crossing_refuted.
Example C57_example : let t := lit "Hello, " ++ [19990; 30028] ++ lit "! " ++ [128640] in validate_utf8_simd (utf8 t) = true ∧ utf8_decode (utf8 t) = Some t ∧ validate_utf8_simd [255; 254; 253] = false ∧
  validate_utf8_simd (utf8 (lit "0123456789012345678901234567890" ++ [233] ++ lit "xyz")) = false ∧ validate_utf8_simd (utf8 (lit "012345678901234567890123456789" ++ [233] ++ lit "xyz")) = true.
Proof. repeat split; by vm_compute. Qed.

(** *** C58: base64, masking, run lengths, copying and checksums are exact *)
Theorem C58_base64 : ∀ input output, Forall byte input → ∃ enc, base64_encode_simd input output = output ++ enc ∧ base64_decode enc = Some input.
Proof. intros input output H. eexists. split; [done|]. by apply base64_ok. Qed.
Print Assumptions C58_base64.
Theorem C58_mask : ∀ data m0 m1 m2 m3 i, xor_mask_simd data [m0; m1; m2; m3] !! i =
  (λ b, N.lxor b (match i mod 4 with 0 => m0 | 1 => m1 | 2 => m2 | _ => m3 end)%nat) <$> data !! i.
Proof.
  intros data m0 m1 m2 m3 i. rewrite xor_imap, list_lookup_imap. unfold mask_at. assert (i mod 4 < 4)%nat as H by (apply Nat.mod_upper_bound; lia). destruct (i mod 4)%nat as [|[|[|[|k]]]]; try done. lia.
Qed.
Print Assumptions C58_mask.
Theorem C58_mask_twice : ∀ data mask, xor_mask_simd (xor_mask_simd data mask) mask = data.
Proof.
  intros data mask. rewrite !xor_imap. apply list_eq. intros i. rewrite !list_lookup_imap. destruct (data !! i) as [b|]; [|done]. cbn. f_equal. rewrite N.lxor_assoc, N.lxor_nilpotent. apply N.lxor_0_r.
Qed.
Print Assumptions C58_mask_twice.
Theorem C58_rle : ∀ input output, ∃ enc, rle_encode_simd input output = output ++ enc ∧ rle_decode enc = Some input ∧ (∀ i c, enc !! (2 * i)%nat = Some c → 1 <= c ∧ c <= 255) ∧ rle_tight enc.
Proof. intros input output. eexists. split; [done|]. split; [by apply rle_ok|]. destruct (rle_shape (length input) input) as [H1 H2]; [done|]. done. Qed.
Print Assumptions C58_rle.
Theorem C58_copy : ∀ src dst, (length src <= length dst)%nat → copy_simd src dst = Some (src ++ drop (length src) dst).
Proof. exact copy_ok. Qed.
Print Assumptions C58_copy.
Theorem C58_copy_short : ∀ src dst, (length dst < length src)%nat → copy_simd src dst = None.
Proof. intros src dst H. unfold copy_simd. by rewrite (proj2 (Nat.leb_gt _ _) H). Qed.
Print Assumptions C58_copy_short.
Theorem C58_checksum : ∀ bufs i, batch_checksum_simd bufs !! i = (λ b, total b mod 2 ^ 32) <$> bufs !! i.
Proof. intros bufs i. unfold batch_checksum_simd. rewrite list_lookup_fmap. destruct (bufs !! i) as [b|]; [|done]. cbn. f_equal. apply checksum_ok. Qed.
Print Assumptions C58_checksum.
Example C58_example : base64_encode_simd (lit "any carnal pleas") (lit ">") = lit ">YW55IGNhcm5hbCBwbGVhcw==" ∧ xor_mask_simd [1; 2; 3; 4; 5] [170; 187; 204; 221] = [171; 185; 207; 217; 175] ∧
  rle_encode_simd (replicate 40 7 ++ [1; 1; 2]) [9] = [9; 40; 7; 2; 1; 1; 2] ∧ copy_simd [1; 2] [0; 0; 3] = Some [1; 2; 3] ∧ batch_checksum_simd [replicate 40 200; []] = [8000; 0].
Proof. repeat split; by vm_compute. Qed.

(** *** C113: batch_validate_lengths tells which lengths are within the limit *)
Theorem C113_lengths_partial : ∀ lengths max i n, lengths !! i = Some n → n < 2 ^ 31 → max < 2 ^ 31 → n ≠ max ∨ (length lengths / 8 * 8 <= i)%nat → batch_validate_lengths lengths max !! i = Some (n <=? max).
Proof.
  intros lengths max i n Hi Hn Hm Hor. rewrite lengths_lookup, Hi. cbn [fmap option_fmap option_map]. f_equal. destruct (i <? length lengths / 8 * 8)%nat eqn:E; [|done]. apply Nat.ltb_lt in E. destruct Hor as [Hne|?]; [|lia]. unfold to_i32, as_i32. rewrite !(proj2 (Z.ltb_lt _ (2 ^ 31))) by lia.
  destruct (n <=? max) eqn:El; [apply N.leb_le in El; apply Z.ltb_lt; lia|apply N.leb_gt in El; apply Z.ltb_ge; lia].
Qed.
Print Assumptions C113_lengths_partial.
Theorem C113_size : ∀ lengths max, length (batch_validate_lengths lengths max) = length lengths.
Proof. intros lengths max. rewrite lengths_eq, app_length, !fmap_length, take_length, drop_length. lia. Qed.
Print Assumptions C113_size.
(** Refuted: in a block of eight the limit itself is reported as too long, *)
Theorem C113_equal_refuted : ∀ lengths max i, lengths !! i = Some max → (i < length lengths / 8 * 8)%nat → batch_validate_lengths lengths max !! i = Some false.
Proof. intros lengths max i Hi Hl. rewrite lengths_lookup, Hi. cbn [fmap option_fmap option_map]. rewrite (proj2 (Nat.ltb_lt _ _) Hl). by rewrite Z.ltb_irrefl. Qed.
Print Assumptions C113_equal_refuted.
(** and lengths from 2^31 on are reported as within any smaller limit. *)
Theorem C113_large_refuted : ∀ lengths max i n, lengths !! i = Some n → (i < length lengths / 8 * 8)%nat → 2 ^ 31 <= n → n < 2 ^ 32 → max < 2 ^ 31 → batch_validate_lengths lengths max !! i = Some true.
Proof.
  intros lengths max i n Hi Hl H1 H2 Hm. rewrite lengths_lookup, Hi. cbn [fmap option_fmap option_map]. rewrite (proj2 (Nat.ltb_lt _ _) Hl). f_equal. unfold to_i32, as_i32. rewrite (proj2 (Z.ltb_ge (Z.of_N n) _)), (proj2 (Z.ltb_lt (Z.of_N max) _)) by lia. apply Z.ltb_lt. lia.
Qed.
Print Assumptions C113_large_refuted.
Example C113_example : batch_validate_lengths [1; 2; 3; 4; 5; 6; 7; 8; 4; 5] 4 = [true; true; true; false; false; false; false; false; true; false] ∧ batch_validate_lengths (replicate 8 3000000000) 4 = replicate 8 true.
Proof. split; by vm_compute. Qed.
