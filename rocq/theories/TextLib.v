(** Unicode text as a list of code points (or bytes), decimal numbers, UTF-8 widths. *)
From Coq Require Import Ascii.
From stdpp Require Import sets list strings.
From Verif Require Import ListLib.
Local Open Scope N_scope.

Notation utext := (list N) (only parsing).

(** A Rust string literal. *)
Definition lit (s : string) : list N := (λ c, N_of_ascii c) <$> chars s.

Definition LF : N := 10.
Definition CR : N := 13.
Definition SP : N := 32.
Definition COLON : N := 58.

(** [char::len_utf8]. *)
Definition utf8_len (c : N) : N :=
  if c <? 128 then 1 else if c <? 2048 then 2 else if c <? 65536 then 3 else 4.
Definition utf8_size (t : list N) : N := foldr (λ c n, utf8_len c + n) 0 t.

(** Decimal digits of a number ([u64]'s [Display]). *)
Fixpoint digits_fuel (fuel : nat) (n : N) (acc : list N) : list N :=
  match fuel with
  | O => acc
  | S fuel => let acc' := (48 + n mod 10) :: acc in
              if n / 10 =? 0 then acc' else digits_fuel fuel (n / 10) acc'
  end.
Definition show_N (n : N) : list N := digits_fuel (S (N.size_nat n)) n [].

(** Digits with an upper bound, the loop of [str::parse::<u64>]. *)
Fixpoint parse_digits (max acc : N) (l : list N) : option N :=
  match l with
  | [] => Some acc
  | d :: l' =>
      if (48 <=? d) && (d <=? 57) then
        let v := acc * 10 + (d - 48) in
        if v <=? max then parse_digits max v l' else None
      else None
  end.

(** [str::parse] for an unsigned type with maximum [max]: an optional '+', then at least one
    digit. *)
Definition parse_unsigned (max : N) (l : list N) : option N :=
  match l with
  | [] => None
  | 43 :: [] => None
  | 43 :: l' => parse_digits max 0 l'
  | l => parse_digits max 0 l
  end.
Definition u64_max : N := 18446744073709551615.

Lemma digits_fuel_acc f n acc : digits_fuel f n acc = digits_fuel f n [] ++ acc.
Proof.
  revert n acc. induction f as [|f IH]; intros n acc; simpl; [done|].
  destruct (n / 10 =? 0); [done|]. rewrite (IH _ (48 + n mod 10 :: acc)), (IH _ [48 + n mod 10]).
  by rewrite <- app_assoc.
Qed.

Lemma parse_digits_app max acc l1 l2 v :
  parse_digits max acc l1 = Some v → parse_digits max acc (l1 ++ l2) = parse_digits max v l2.
Proof.
  revert acc. induction l1 as [|d l1 IH]; intros acc; simpl; [by intros [= ->]|].
  destruct ((48 <=? d) && (d <=? 57)); [|done].
  destruct (acc * 10 + (d - 48) <=? max); [|done]. apply IH.
Qed.

Lemma parse_digits_fuel max f n : n < 2 ^ (N.of_nat f) → n <= max →
  parse_digits max 0 (digits_fuel f n []) = Some n.
Proof.
  revert n. induction f as [|f IH]; intros n Hn Hm.
  - simpl in *. assert (n = 0) by lia. by subst.
  - cbn [digits_fuel]. destruct (n / 10 =? 0) eqn:E.
    + apply N.eqb_eq in E. cbn [parse_digits].
      assert (Hlt : n < 10) by (apply N.div_small_iff in E; lia).
      rewrite (N.mod_small n 10) by lia.
      replace (48 <=? 48 + n) with true by (symmetry; apply N.leb_le; lia).
      replace (48 + n <=? 57) with true by (symmetry; apply N.leb_le; lia).
      cbn [andb]. replace (0 * 10 + (48 + n - 48)) with n by lia.
      replace (n <=? max) with true by (symmetry; apply N.leb_le; lia). done.
    + apply N.eqb_neq in E. rewrite digits_fuel_acc.
      pose proof (N.div_mod n 10 ltac:(lia)) as Hdm. pose proof (N.mod_lt n 10 ltac:(lia)) as Hml.
      set (q := n / 10) in *. set (r := n mod 10) in *.
      assert (Hq : q < 2 ^ N.of_nat f).
      { rewrite Nat2N.inj_succ, N.pow_succ_r' in Hn. lia. }
      rewrite (parse_digits_app _ _ _ _ q) by (apply IH; [done|lia]).
      cbn [parse_digits].
      replace (48 <=? 48 + r) with true by (symmetry; apply N.leb_le; lia).
      replace (48 + r <=? 57) with true by (symmetry; apply N.leb_le; lia).
      cbn [andb]. replace (q * 10 + (48 + r - 48)) with n by lia.
      replace (n <=? max) with true by (symmetry; apply N.leb_le; lia). done.
Qed.

Lemma size_nat_bound n : n < 2 ^ N.of_nat (N.size_nat n).
Proof.
  destruct n as [|p]; [done|]. simpl.
  induction p as [p IH|p IH|]; cbn [Pos.size_nat]; rewrite ?Nat2N.inj_succ, ?N.pow_succ_r'; lia.
Qed.

Lemma digits_fuel_digits f n acc d : d ∈ digits_fuel f n acc → d ∈ acc ∨ 48 <= d <= 57.
Proof.
  revert n acc. induction f as [|f IH]; intros n acc; cbn [digits_fuel]; [by left|].
  pose proof (N.mod_lt n 10 ltac:(lia)) as Hml.
  set (r := n mod 10) in *. clearbody r.
  destruct (n / 10 =? 0).
  - rewrite elem_of_cons. intros [->|?]; [right; lia|by left].
  - intros H. apply IH in H as [H|H]; [|by right]. apply elem_of_cons in H as [->|?]; [right; lia|by left].
Qed.

Lemma show_N_digits n d : d ∈ show_N n → 48 <= d <= 57.
Proof. intros H. apply digits_fuel_digits in H as [H|H]; [set_solver|done]. Qed.

Lemma digits_fuel_nonempty f n acc : digits_fuel (S f) n acc ≠ [].
Proof.
  cbn [digits_fuel]. destruct (n / 10 =? 0); [done|]. rewrite digits_fuel_acc.
  by destruct (digits_fuel f (n / 10) []).
Qed.
Lemma show_N_nonempty n : show_N n ≠ [].
Proof. apply digits_fuel_nonempty. Qed.

(** Printing then parsing an in-range number gives it back. *)
Lemma parse_show_N max n : n <= max → parse_unsigned max (show_N n) = Some n.
Proof.
  intros Hm. unfold parse_unsigned.
  assert (H : parse_digits max 0 (show_N n) = Some n).
  { apply parse_digits_fuel; [|done]. pose proof (size_nat_bound n).
    rewrite Nat2N.inj_succ, N.pow_succ_r'. lia. }
  destruct (show_N n) as [|d l] eqn:E; [by destruct (show_N_nonempty n)|].
  assert (48 <= d <= 57) by (apply (show_N_digits n); rewrite E; set_solver).
  assert (d ≠ 43) by lia.
  destruct d as [|p]; [lia|]. 
  do 7 (destruct p as [p|p|]; try (exact H); try lia).
Qed.
