(** Vectorised routines: src/simd/mod.rs.  Definitions only.  Bytes are numbers below 256; a vector
    register is the list of its lanes. *)
From stdpp Require Import list strings.
From Verif Require Import TextLib.
Local Open Scope N_scope.

(** The 32 bytes loaded at [i * 32] (_mm256_loadu_si256). *)
Definition chunk (input : list N) (i : nat) : list N := take 32 (drop (i * 32) input).
(** _mm256_movemask_epi8: one bit per lane, as an i32 *)
Fixpoint unsigned (flags : list bool) : Z := match flags with [] => 0 | b :: r => Z.b2z b + 2 * unsigned r end%Z.
Definition as_i32 (x : Z) : Z := (if x <? 2 ^ 31 then x else x - 2 ^ 32)%Z.
Definition movemask (flags : list bool) : Z := as_i32 (unsigned flags).
(** The loop over the bits of a mask, 66-74 and 280-287.  [m >>= 1] on an i32 keeps the sign.  [None]: still running. *)
Fixpoint bits (fuel : nat) (m : Z) (pos : nat) : option (list nat) :=
  if (m =? 0)%Z then Some []
  else match fuel with
       | O => None
       | S f => (λ r, if Z.odd m then pos :: r else r) <$> bits f (Z.shiftr m 1) (S pos)
       end.
Definition at_pos (p : N → bool) (input : list N) (i : nat) : bool := match input !! i with Some b => p b | None => false end.
(** find_whitespace_simd, 35-86, and find_escapes_simd, 260-297: the same code with another test *)
Definition find_simd (p : N → bool) (fuel : nat) (input : list N) : option (list nat) :=
  let chunks := (length input / 32)%nat in
  match mapM (λ i, bits fuel (movemask (p <$> chunk input i)) (i * 32)) (seq 0 chunks) with
  | Some found => Some (concat found ++ filter (λ i, at_pos p input i = true) (seq (chunks * 32) (length input - chunks * 32)))
  | None => None
  end.
Definition is_space (b : N) : bool := (b =? 32) || (b =? 9) || (b =? 10) || (b =? 13).
Definition is_escape (b : N) : bool := (b =? 92) || (b =? 34).
Definition find_whitespace_simd := find_simd is_space.
Definition find_escapes_simd := find_simd is_escape.

(** find_pattern_simd, 452-490 *)
Definition matches_at (hay needle : list N) (pos : nat) : bool :=
  (pos + length needle <=? length hay)%nat && bool_decide (take (length needle) (drop pos hay) = needle).
Fixpoint pattern_bits (hay needle : list N) (fuel : nat) (m : Z) (pos : nat) : option (option nat) :=      (* 470-483 *)
  if (m =? 0)%Z then Some None
  else match fuel with
       | O => None
       | S f => if Z.odd m && matches_at hay needle pos then Some (Some pos) else pattern_bits hay needle f (Z.shiftr m 1) (S pos)
       end.
Fixpoint pattern_chunks (hay needle : list N) (first : N) (fuel : nat) (is : list nat) : option (option nat) :=
  match is with
  | [] => Some None
  | i :: is =>
    match pattern_bits hay needle fuel (movemask ((λ b, b =? first) <$> chunk hay i)) (i * 32) with
    | Some None => pattern_chunks hay needle first fuel is
    | r => r
    end
  end.
Definition find_pattern_simd (fuel : nat) (hay needle : list N) : option (option nat) :=
  match needle with
  | [] => Some None
  | first :: _ =>
    if (length hay <? length needle)%nat then Some None
    else
      let places := (length hay - length needle + 1)%nat in
      let chunks := (places / 32)%nat in
      match pattern_chunks hay needle first fuel (seq 0 chunks) with
      | Some None => Some (head (filter (λ i, matches_at hay needle i = true) (seq (chunks * 32) (places - chunks * 32))))
      | r => r
      end
  end.

(** *** validate_utf8_simd, 88-252 *)
Definition is_continuation (b : N) : bool := N.land b 192 =? 128.                                          (* 90-92 *)
Definition cont_at (input : list N) (i : nat) : bool := at_pos is_continuation input i.
Definition validate_multibyte (input : list N) (start : nat) (first : N) : bool :=                          (* 95-135 *)
  let len := length input in
  if first <? 192 then false
  else if first <? 224 then (start + 1 <? len)%nat && cont_at input (start + 1)
  else if first <? 240 then (start + 2 <? len)%nat && cont_at input (start + 1) && cont_at input (start + 2)
  else if first <? 248 then (start + 3 <? len)%nat && cont_at input (start + 1) && cont_at input (start + 2) && cont_at input (start + 3)
  else false.
Definition sequence_length (first : N) : nat := if first <? 224 then 2 else if first <? 240 then 3 else 4.  (* 182-190 *)
(** validate_chunk_scalar, 156-178, and validate_remaining_bytes, 233-252: the loop from [i] to [stop].
    Every round advances, so [stop - i] rounds are enough. *)
Fixpoint validate_from (input : list N) (fuel i stop : nat) : bool :=
  match fuel with
  | O => true
  | S f =>
    if (i <? stop)%nat then
      let byte := default 0 (input !! i) in
      if byte <? 128 then validate_from input f (S i) stop
      else validate_multibyte input i byte && validate_from input f (i + sequence_length byte) stop
    else true
  end.
(** process_simd_chunk, 140-153: [0 > data] as signed bytes holds for the bytes from 128 on *)
Definition process_chunk (input : list N) (i : nat) : bool :=
  if forallb (λ b, 128 <=? b) (chunk input i) then true
  else validate_from input 32 (i * 32) (Nat.min (i * 32 + 32) (length input)).
Definition validate_utf8_simd (input : list N) : bool :=                                                    (* 216-230 *)
  let chunks := (length input / 32)%nat in
  forallb (process_chunk input) (seq 0 chunks) && validate_from input (length input) (chunks * 32) (length input).

(** *** Serialisation *)
(** copy_simd, 310-324; [None]: the assertion fails *)
Definition copy_simd (src dst : list N) : option (list N) :=
  if (length src <=? length dst)%nat then
    let chunks := (length src / 32)%nat in
    Some (concat (chunk src <$> seq 0 chunks) ++ drop (chunks * 32) src ++ drop (length src) dst)
  else None.
(** base64_encode_simd, 332-369: appends to [output] *)
Definition base64_table : list N := lit "ABCDEFGHIJKLMNOPQRSTUVWXYZabcdefghijklmnopqrstuvwxyz0123456789+/".
Definition b64 (i : N) : N := nth (N.to_nat i) base64_table 0.
Fixpoint base64_encode (input : list N) : list N :=
  match input with
  | b1 :: b2 :: b3 :: r =>
    b64 (N.shiftr b1 2) :: b64 (N.lor (N.shiftl (N.land b1 3) 4) (N.shiftr b2 4)) :: b64 (N.lor (N.shiftl (N.land b2 15) 2) (N.shiftr b3 6)) :: b64 (N.land b3 63) :: base64_encode r
  | [b1; b2] => [b64 (N.shiftr b1 2); b64 (N.lor (N.shiftl (N.land b1 3) 4) (N.shiftr b2 4)); b64 (N.shiftl (N.land b2 15) 2); 61]
  | [b1] => [b64 (N.shiftr b1 2); b64 (N.shiftl (N.land b1 3) 4); 61; 61]
  | [] => []
  end.
Definition base64_encode_simd (input output : list N) : list N := output ++ base64_encode input.
(** xor_mask_simd, 377-402; the mask has four bytes *)
Definition mask_at (mask : list N) (i : nat) : N := nth (i mod 4) mask 0.
Definition xor_mask_simd (data mask : list N) : list N :=
  let chunks := (length data / 32)%nat in
  let pattern := mask_at mask <$> seq 0 32 in
  concat ((λ i, zip_with N.lxor (chunk data i) pattern) <$> seq 0 chunks) ++
  zip_with (λ b i, N.lxor b (mask_at mask i)) (drop (chunks * 32) data) (seq (chunks * 32) (length data - chunks * 32)).

(** *** rle_encode_simd, 415-444.  [rest] is the input from [i] on. *)
Fixpoint ones (flags : list bool) : nat := match flags with true :: r => S (ones r) | _ => 0 end.           (* trailing_ones *)
(** src/simd/mod.rs 435-437 *)
Fixpoint count_on (current : N) (rest : list N) (fuel count : nat) : nat :=                                 (* 435-437 *)
  match fuel with
  | O => count
  | S f => if (count <? length rest)%nat && (count <? 255)%nat && at_pos (λ b, b =? current) rest count then count_on current rest f (S count) else count
  end.
Definition run_length (current : N) (rest : list N) : nat :=
  let c := (if (32 <=? length rest) then Nat.min (ones ((λ b, (b =? current)%N) <$> take 32 rest)) 255 else 1)%nat in
  count_on current rest 255 c.
Fixpoint rle_from (fuel : nat) (rest : list N) : list N :=
  match fuel, rest with
  | S f, current :: _ => let c := run_length current rest in N.of_nat c :: current :: rle_from f (drop c rest)
  | _, _ => []
  end.
Definition rle_encode_simd (input output : list N) : list N := output ++ rle_from (length input) input.

(** *** Batch operations *)
(** batch_validate_lengths, 503-527: eight lanes at a time, compared as signed and strictly *)
Definition to_i32 (n : N) : Z := as_i32 (Z.of_N n).
Definition batch_validate_lengths (lengths : list N) (max : N) : list bool :=
  let chunks := (length lengths / 8)%nat in
  concat ((λ i, (λ n, to_i32 n <? to_i32 max)%Z <$> take 8 (drop (i * 8) lengths)) <$> seq 0 chunks) ++
  ((λ n, n <=? max) <$> drop (chunks * 8) lengths).
(** batch_checksum_simd, 535-569: _mm256_sad_epu8 with zero adds up each group of eight bytes *)
Definition wrapping_add (a b : N) : N := (a + b) mod 2 ^ 32.
Definition sum (l : list N) : N := foldr N.add 0 l.
Definition sad (c : list N) : list N := [sum (take 8 c); sum (take 8 (drop 8 c)); sum (take 8 (drop 16 c)); sum (take 8 (drop 24 c))].
Definition checksum (buf : list N) : N :=
  let chunks := (length buf / 32)%nat in
  let s := fold_left (λ s i, fold_left (λ s x, wrapping_add s (x mod 2 ^ 32)) (sad (chunk buf i)) s) (seq 0 chunks) 0 in
  fold_left wrapping_add (drop (chunks * 32) buf) s.
Definition batch_checksum_simd (bufs : list (list N)) : list N := checksum <$> bufs.
