(** What fast JSON reading and printing are to do. *)
From stdpp Require Import list strings.
From Verif Require Import ListLib TextLib Utf8Lib JsonLib.
Local Open Scope N_scope.

(** JSON text without the whitespace outside of strings: outside a string, inside one, and after a
    backslash in one. *)
Inductive place := Outside | Inside | Escaped.
Fixpoint squeeze (p : place) (t : list N) : list N :=
  match t with
  | [] => []
  | c :: r =>
    match p with
    | Outside => if json_ws c then squeeze Outside r else c :: squeeze (if c =? 34 then Inside else Outside) r
    | Inside => c :: squeeze (if c =? 34 then Outside else if c =? 92 then Escaped else Inside) r
    | Escaped => c :: squeeze Inside r
    end
  end.
Definition without_whitespace : list N → list N := squeeze Outside.
(** No character of [t] lies across a multiple of 32 bytes. *)
Definition aligned (t : list N) : Prop := ∀ i, (i * 32 <= length (utf8 t))%nat → ∃ t1 t2, t = t1 ++ t2 ∧ length (utf8 t1) = (i * 32)%nat.
(** No complete block of 32 bytes ends in a byte that satisfies [p]. *)
Definition no_block_ends_in (p : N → bool) (input : list N) : Prop := ∀ i, (i * 32 + 32 <= length input)%nat → ∀ b, input !! (i * 32 + 31)%nat = Some b → p b = false.
(** [v] with every string, also every key, replaced by the string of its UTF-8 bytes. *)
Fixpoint byte_strings (v : json) : json :=
  match v with
  | JStr s => JStr (utf8 s)
  | JArr l => JArr (byte_strings <$> l)
  | JObj l => JObj ((λ kv, (utf8 kv.1, byte_strings kv.2)) <$> l)
  | v => v
  end.
(** Every string and key of [v] is ASCII. *)
Fixpoint ascii_only (v : json) : bool :=
  match v with
  | JStr s => forallb (λ c, c <? 128) s
  | JArr l => forallb ascii_only l
  | JObj l => forallb (λ kv, forallb (λ c, c <? 128) kv.1 && ascii_only kv.2) l
  | _ => true
  end.
(** The bytes that open or close a string, or escape a character in it. *)
Definition quote_or_backslash (c : N) : bool := (c =? 34) || (c =? 92).
(** A document over several lines: after an opening bracket and a comma a new line, indented by two for
    each open bracket, before a closing bracket also, and a space after a colon. *)
Definition new_line (indent : nat) : list N := 10 :: replicate indent 32.
Fixpoint indented (n : nat) (v : json) : list N :=
  match v with
  | JArr l => 91 :: new_line (n + 2) ++ join_with (44 :: new_line (n + 2)) (indented (n + 2) <$> l) ++ new_line n ++ [93]
  | JObj l => 123 :: new_line (n + 2) ++ join_with (44 :: new_line (n + 2)) ((λ kv, show_str kv.1 ++ 58 :: 32 :: indented (n + 2) kv.2) <$> l) ++ new_line n ++ [125]
  | v => show v
  end.
