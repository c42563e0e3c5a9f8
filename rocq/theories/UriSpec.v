(** Specification vocabulary for URI templates: percent-encoding, RFC 6570 expansion of string
    values, template text, and the templates whose matching is unambiguous. *)
From stdpp Require Import gmap sets list strings.
From Verif Require Import ListLib TextLib Utf8Lib WhiteSpec UriModel.
Local Open Scope N_scope.

(** *** Percent-encoding (RFC 3986) *)
Definition unreserved_chars : list N :=
  lit "ABCDEFGHIJKLMNOPQRSTUVWXYZabcdefghijklmnopqrstuvwxyz0123456789-._~".
Definition reserved_chars : list N := lit ":/?#[]@!$&'()*+,;=".
Definition hex_value (c : N) : option N :=
  if (48 <=? c) && (c <=? 57) then Some (c - 48)
  else if (65 <=? c) && (c <=? 70) then Some (c - 55)
  else if (97 <=? c) && (c <=? 102) then Some (c - 87)
  else None.

(** Text made of unreserved characters and escapes only. *)
Inductive safe : list N → Prop :=
| safe_nil : safe []
| safe_char c t : c ∈ unreserved_chars → safe t → safe (c :: t)
| safe_escape a b t : is_Some (hex_value a) → is_Some (hex_value b) → safe t → safe (PERCENT :: a :: b :: t).

(** The bytes a percent-encoded text stands for. *)
Fixpoint pct_decode (t : list N) : option (list N) :=
  match t with
  | [] => Some []
  | c :: t1 =>
      if decide (c = PERCENT) then
        match t1 with
        | a :: b :: t2 =>
            match hex_value a, hex_value b, pct_decode t2 with
            | Some x, Some y, Some r => Some (16 * x + y :: r)
            | _, _, _ => None
            end
        | _ => None
        end
      else match pct_decode t1 with Some r => Some (c :: r) | None => None end
  end.

(** *** RFC 6570, Appendix A: expansion of an expression whose variables are strings *)
Record rfc_row := MkRow { r_first : list N; r_sep : list N; r_named : bool; r_ifemp : list N; r_reserved : bool }.
Definition rfc_table (o : oper) : rfc_row :=
  match o with
  | OSimple   => MkRow []      (lit ",") false []        false
  | OReserved => MkRow []      (lit ",") false []        true
  | OLabel    => MkRow (lit ".") (lit ".") false []        false
  | OPath     => MkRow (lit "/") (lit "/") false []        false
  | OParam    => MkRow (lit ";") (lit ";") true  []        false
  | OQuery    => MkRow (lit "?") (lit "&") true  (lit "=") false
  | OCont     => MkRow (lit "&") (lit "&") true  (lit "=") false
  | OFragment => MkRow (lit "#") (lit ",") false []        true
  end.
Definition upper_hex (n : N) : N := if n <? 10 then 48 + n else 65 + (n - 10).
(** A character that may not stay is replaced by the escapes of its UTF-8 bytes. *)
Definition escape_char (c : N) : list N :=
  concat ((λ b, [PERCENT; upper_hex (b / 16); upper_hex (b mod 16)]) <$> utf8_char c).
Definition rfc_char (allow_reserved : bool) (c : N) : list N :=
  if decide (c ∈ unreserved_chars) then [c]
  else if decide (allow_reserved = true ∧ c ∈ reserved_chars) then [c]
  else escape_char c.
Fixpoint rfc_string (allow_reserved : bool) (v : list N) : list N :=
  match v with
  | [] => []
  | c :: v1 =>
      match v1 with
      | a :: b :: v2 =>
          if decide (allow_reserved = true ∧ c = PERCENT ∧ is_Some (hex_value a) ∧ is_Some (hex_value b))
          then c :: a :: b :: rfc_string allow_reserved v2
          else rfc_char allow_reserved c ++ rfc_string allow_reserved v1
      | _ => rfc_char allow_reserved c ++ rfc_string allow_reserved v1
      end
  end.
Definition truncated (s : varspec) (v : list N) : list N :=
  match v_mod s with Some (MPrefix n) => take (N.to_nat n) v | _ => v end.
Definition rfc_part (row : rfc_row) (s : varspec) (v : list N) : list N :=
  let x := rfc_string (r_reserved row) (truncated s v) in
  if r_named row then
    match x with [] => v_name s ++ r_ifemp row | _ => v_name s ++ lit "=" ++ x end
  else x.
Fixpoint defined_values (vars : vmap) (specs : list varspec) : list (varspec * list N) :=
  match specs with
  | [] => []
  | s :: specs => match vars !! v_name s with
                  | Some v => (s, v) :: defined_values vars specs
                  | None => defined_values vars specs
                  end
  end.
Definition rfc_expand (o : oper) (specs : list varspec) (vars : vmap) : list N :=
  let row := rfc_table o in
  match defined_values vars specs with
  | [] => []
  | ds => r_first row ++ join_with (r_sep row) ((λ d, rfc_part row d.1 d.2) <$> ds)
  end.

(** *** Template text *)
Definition op_text (o : oper) : list N :=
  match o with
  | OSimple => [] | OReserved => lit "+" | OFragment => lit "#" | OLabel => lit "."
  | OPath => lit "/" | OParam => lit ";" | OQuery => lit "?" | OCont => lit "&"
  end.
Definition spec_text (s : varspec) : list N :=
  v_name s ++ match v_mod s with
              | None => [] | Some MExplode => lit "*" | Some (MPrefix n) => lit ":" ++ show_N n end.
Definition expr_text (e : expr) : list N :=
  match e with
  | ELit t => t
  | EMulti o specs => lit "{" ++ op_text o ++ join_with (lit ",") (spec_text <$> specs) ++ lit "}"
  end.

(** White space may stand before and after each variable. *)
Definition spec_spelled (s : varspec) (t : list N) : Prop := ∃ a b, t = a ++ spec_text s ++ b ∧ blank a ∧ blank b.
Definition expr_spelled (e : expr) (t : list N) : Prop :=
  match e with
  | ELit l => t = l
  | EMulti o specs => ∃ ts, t = lit "{" ++ op_text o ++ join_with (lit ",") ts ++ lit "}" ∧ Forall2 spec_spelled specs ts
  end.

(** [a-zA-Z_][a-zA-Z0-9_]* *)
Definition name_first : list N := lit "ABCDEFGHIJKLMNOPQRSTUVWXYZabcdefghijklmnopqrstuvwxyz_".
Definition name_rest : list N := name_first ++ lit "0123456789".
Definition good_name (n : list N) : Prop :=
  ∃ c r, n = c :: r ∧ c ∈ name_first ∧ ∀ x, x ∈ r → x ∈ name_rest.
Definition good_spec (s : varspec) : Prop :=
  good_name (v_name s) ∧ ∀ n, v_mod s = Some (MPrefix n) → 1 <= n <= 10000.
Definition good_expr (e : expr) : Prop :=
  match e with
  | ELit t => t ≠ [] ∧ LBRACE ∉ t
  | EMulti _ specs => specs ≠ [] ∧ Forall good_spec specs
  end.
Definition is_lit (e : expr) : bool := match e with ELit _ => true | _ => false end.
(** No two literals in a row. *)
Fixpoint alternating (es : list expr) : Prop :=
  match es with
  | e1 :: ((e2 :: _) as es') => (is_lit e1 = true → is_lit e2 = false) ∧ alternating es'
  | _ => True
  end.

(** No complete expression hides in a literal. *)
Definition no_expr (t : list N) : Prop :=
  ∀ a inner b, t = a ++ LBRACE :: inner ++ RBRACE :: b → inner ≠ [] → RBRACE ∈ inner.

(** *** Unambiguous matching *)
(** Characters at which the value of a variable ends. *)
Definition stops (o : oper) : list N :=
  match o with
  | OSimple | OReserved | OPath => lit "/"
  | OLabel => lit "."
  | OParam => lit ";&"
  | OQuery | OCont => lit "&"
  | OFragment => [LF]
  end.
(** The first character of whatever an expression expands to, if it is fixed. *)
Definition first_char (e : expr) : option N :=
  match e with
  | ELit t => head t
  | EMulti o _ => head (r_first (rfc_table o))
  end.
(** Every expression has one variable, which is defined, not cut off, non-empty, free of characters
    that would be escaped and of the characters that end it; and the next expression starts with
    such a character. *)
Fixpoint recoverable (vars : vmap) (es : list expr) : Prop :=
  match es with
  | [] => True
  | ELit t :: es => t ≠ [] ∧ recoverable vars es
  | EMulti o [s] :: es =>
      (∃ v, vars !! v_name s = Some v ∧ truncated s v = v ∧ v ≠ [] ∧
            (o = OReserved ∨ ∀ c, c ∈ v → c ∈ unreserved_chars) ∧ (∀ c, c ∈ v → c ∉ stops o)) ∧
      (match es with [] => True | e :: _ => ∃ c, first_char e = Some c ∧ c ∈ stops o end) ∧
      recoverable vars es
  | EMulti _ _ :: _ => False
  end.

(** The text of a template of single-variable expressions with the values put in as they are. *)
Definition opener (o : oper) (n : list N) : list N :=
  match o with
  | OSimple | OReserved => []
  | OFragment => lit "#" | OLabel => lit "." | OPath => lit "/"
  | OParam => lit ";" ++ n ++ lit "=" | OQuery => lit "?" ++ n ++ lit "=" | OCont => lit "&" ++ n ++ lit "="
  end.
Inductive spells (m : vmap) : list expr → list N → Prop :=
  | spells_nil : spells m [] []
  | spells_lit t es r : spells m es r → spells m (ELit t :: es) (t ++ r)
  | spells_var o s v es r : m !! v_name s = Some v → v ≠ [] → spells m es r →
      spells m (EMulti o [s] :: es) (opener o (v_name s) ++ v ++ r).
Definition one_variable (e : expr) : Prop := match e with ELit _ => True | EMulti _ ss => length ss = 1%nat end.
