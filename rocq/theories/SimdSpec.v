(** What the vectorised routines are to compute. *)
From stdpp Require Import list strings.
From Verif Require Import TextLib.
Local Open Scope N_scope.

(** The positions of the bytes that satisfy [p], ascending. *)
Fixpoint positions_from (pos : nat) (p : N → bool) (input : list N) : list nat :=
  match input with [] => [] | b :: r => if p b then pos :: positions_from (S pos) p r else positions_from (S pos) p r end.
Definition positions : (N → bool) → list N → list nat := positions_from 0.
(** The bytes that are looked for: JSON's whitespace (space, tab, line feed, carriage return), and the characters that end or escape in
    a string. *)
Definition white_bytes : list N := [32; 9; 10; 13].
Definition escape_bytes : list N := [34; 92].
Definition among (l : list N) (b : N) : bool := bool_decide (b ∈ l).
(** [needle] occurs in [hay] at [i]. *)
Definition occurs (hay needle : list N) (i : nat) : Prop := ∃ before after, hay = before ++ needle ++ after ∧ length before = i.
(** The first place where [needle] occurs. *)
Definition first_occurrence (hay needle : list N) (r : option nat) : Prop :=
  match r with
  | Some i => occurs hay needle i ∧ ∀ j, (j < i)%nat → ¬ occurs hay needle j
  | None => ∀ j, ¬ occurs hay needle j
  end.
Definition byte (b : N) : Prop := b < 256.
Definition continuation (b : N) : Prop := 128 <= b ∧ b < 192.
(** The shape of UTF-8, without the exclusion of overlong forms, surrogates and large code points. *)
Inductive shaped : list N → Prop :=
| ShNil : shaped []
| Sh1 b r : b < 128 → shaped r → shaped (b :: r)
| Sh2 b c r : 192 <= b → b < 224 → continuation c → shaped r → shaped (b :: c :: r)
| Sh3 b c d r : 224 <= b → b < 240 → continuation c → continuation d → shaped r → shaped (b :: c :: d :: r)
| Sh4 b c d e r : 240 <= b → b < 248 → continuation c → continuation d → continuation e → shaped r → shaped (b :: c :: d :: e :: r).
(** The first [n] bytes belong to characters of the shape of UTF-8 (the last of which may go on). *)
Definition covered (n : nat) (l : list N) : Prop := ∃ a b, l = a ++ b ∧ shaped a ∧ (n <= length a)%nat.
(** Base64 of RFC 4648, section 4: the value of a character, and decoding four characters at a time. *)
Definition b64_value (c : N) : option N :=
  if (65 <=? c) && (c <=? 90) then Some (c - 65)
  else if (97 <=? c) && (c <=? 122) then Some (c - 71)
  else if (48 <=? c) && (c <=? 57) then Some (c + 4)
  else if c =? 43 then Some 62 else if c =? 47 then Some 63 else None.
Definition PAD : N := 61.
Fixpoint base64_decode (l : list N) : option (list N) :=
  match l with
  | [] => Some []
  | c1 :: c2 :: c3 :: c4 :: r =>
    match b64_value c1, b64_value c2, b64_value c3, b64_value c4 with
    | Some v1, Some v2, Some v3, Some v4 => (λ t, (v1 * 4 + v2 / 16) :: ((v2 mod 16) * 16 + v3 / 4) :: ((v3 mod 4) * 64 + v4) :: t) <$> base64_decode r
    | Some v1, Some v2, Some v3, None =>
      if bool_decide (c4 = PAD ∧ r = []) && (v3 mod 4 =? 0) then Some [v1 * 4 + v2 / 16; (v2 mod 16) * 16 + v3 / 4] else None
    | Some v1, Some v2, None, None =>
      if bool_decide (c3 = PAD ∧ c4 = PAD ∧ r = []) && (v2 mod 16 =? 0) then Some [v1 * 4 + v2 / 16] else None
    | _, _, _, _ => None
    end
  | _ => None
  end.
(** Expanding run-length pairs. *)
Fixpoint rle_decode (l : list N) : option (list N) :=
  match l with
  | [] => Some []
  | c :: b :: r => (λ t, replicate (N.to_nat c) b ++ t) <$> rle_decode r
  | [_] => None
  end.
Definition total (l : list N) : N := foldr N.add 0 l.
(** No two neighbouring pairs could be one: a run is cut only at 255. *)
Fixpoint rle_tight (l : list N) : Prop := match l with c :: b :: ((c' :: b' :: _) as r) => (c = 255 ∨ b ≠ b') ∧ rle_tight r | _ => True end.
