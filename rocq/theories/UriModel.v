(** Model of /repo/src/shared/uri_template.rs.  Text is a list of code points.  Definitions only. *)
From stdpp Require Import gmap sets list strings.
From Verif Require Import ListLib TextLib Utf8Lib.
Local Open Scope N_scope.

(** Characters (src/shared/uri_template.rs 14, 166-178, 198, 340-390) *)
Definition LBRACE : N := 123.
Definition RBRACE : N := 125.
Definition COMMA : N := 44.
Definition STAR : N := 42.
Definition SLASH : N := 47.
Definition DOT : N := 46.
Definition AMP : N := 38.
Definition SEMI : N := 59.
Definition QMARK : N := 63.
Definition HASH : N := 35.
Definition PLUS : N := 43.
Definition EQUALS : N := 61.
Definition PERCENT : N := 37.

(** [Operator], uri_template.rs:78-88. *)
Inductive oper := OSimple | OReserved | OFragment | OLabel | OPath | OParam | OQuery | OCont.
Global Instance oper_eq_dec : EqDecision oper.
Proof. solve_decision. Defined.

(** [VarSpec] and [Modifier], uri_template.rs:91-104. *)
Inductive modifier := MPrefix (n : N) | MExplode.
Record varspec := MkSpec { v_name : list N; v_mod : option modifier }.

(** [Expression], uri_template.rs:53-75: only [Multiple] and [Literal] are ever created (186-188). *)
Inductive expr := ELit (t : list N) | EMulti (o : oper) (specs : list varspec).

(** *** Parsing *)
(** [char::is_whitespace] (Unicode White_Space), used by [str::trim] (used at uri_template.rs 179) *)
Definition is_white (c : N) : bool :=
  ((9 <=? c) && (c <=? 13)) || (c =? 32) || (c =? 133) || (c =? 160) || (c =? 5760) ||
  ((8192 <=? c) && (c <=? 8202)) || (c =? 8232) || (c =? 8233) || (c =? 8239) || (c =? 8287) ||
  (c =? 12288).

(** uri_template.rs 18 *)
Definition is_alpha (c : N) : bool := ((65 <=? c) && (c <=? 90)) || ((97 <=? c) && (c <=? 122)).
Definition is_digit (c : N) : bool := (48 <=? c) && (c <=? 57).
(** The regex ^[a-zA-Z_][a-zA-Z0-9_]*$, uri_template.rs:17-18. *)
Definition valid_name (n : list N) : bool :=
  match n with
  | [] => false
  | c :: n => (is_alpha c || (c =? 95)) && forallb (λ c, is_alpha c || is_digit c || (c =? 95)) n
  end.

(** [parse_var_spec], uri_template.rs:192-236 ([None] is [Err]; usize is 64 bits wide). *)
Definition parse_var_spec (spec : list N) : option varspec :=
  match spec with
  | [] => None
  | _ =>
    if decide (last spec = Some STAR) then
      let name := take (length spec - 1) spec in
      if valid_name name then Some (MkSpec name (Some MExplode)) else None
    else
      match split_once COLON spec with
      | Some (name, len) =>
          if valid_name name then
            match parse_unsigned u64_max len with
            | Some n => if (n =? 0) || (10000 <? n) then None else Some (MkSpec name (Some (MPrefix n)))
            | None => None
            end
          else None
      | None => if valid_name spec then Some (MkSpec spec None) else None
      end
  end.

(** The operator of an expression, uri_template.rs:164-174. *)
Definition operator_of (inner : list N) : oper * list N :=
  match inner with
  | c :: r =>
      if decide (c = PLUS) then (OReserved, r)
      else if decide (c = HASH) then (OFragment, r)
      else if decide (c = DOT) then (OLabel, r)
      else if decide (c = SLASH) then (OPath, r)
      else if decide (c = SEMI) then (OParam, r)
      else if decide (c = QMARK) then (OQuery, r)
      else if decide (c = AMP) then (OCont, r)
      else (OSimple, inner)
  | [] => (OSimple, [])
  end.

(** [parse_expression], uri_template.rs:159-189 (the list of pieces of a split is never empty). *)
Definition parse_expression (inner : list N) : option expr :=
  match inner with
  | [] => None
  | _ =>
    let '(o, vars) := operator_of inner in
    match mapM (λ v, parse_var_spec (trim_by is_white v)) (split_on COMMA vars) with
    | Some specs => Some (EMulti o specs)
    | None => None
    end
  end.

(** The leftmost match of the regex \{([^}]+)\} (uri_template.rs:14): text before it, the group,
    text after it. *)
Fixpoint find_expr (t : list N) : option (list N * list N * list N) :=
  match t with
  | [] => None
  | c :: t' =>
      let skip := match find_expr t' with Some (b, i, a) => Some (c :: b, i, a) | None => None end in
      if decide (c = LBRACE) then
        match split_once RBRACE t' with
        | Some (i :: inner, after) => Some ([], i :: inner, after)
        | _ => skip
        end
      else skip
  end.

(** [parse_template], uri_template.rs:129-156; every turn consumes at least three characters. *)
Fixpoint parse_loop (fuel : nat) (t : list N) : option (list expr) :=
  match find_expr t with
  | None => Some (match t with [] => [] | _ => [ELit t] end)
  | Some (before, inner, after) =>
      match fuel with
      | O => None
      | S fuel =>
        match parse_expression inner with
        | None => None
        | Some e =>
          match parse_loop fuel after with
          | None => None
          | Some es => Some (match before with [] => e :: es | _ => ELit before :: e :: es end)
          end
        end
      end
  end.
Definition parse_template (t : list N) : option (list expr) := parse_loop (length t) t.

(** *** Expansion *)
(** The crate urlencoding: bytes A-Z a-z 0-9 - _ . ~ are kept, others become %XX (used at uri_template.rs 399) *)
Definition is_unreserved (c : N) : bool :=
  is_alpha c || is_digit c || (c =? 45) || (c =? 95) || (c =? 46) || (c =? 126).
Definition hex_digit (n : N) : N := if n <? 10 then 48 + n else 55 + n.
Definition pct_byte (b : N) : list N :=
  if is_unreserved b then [b] else [PERCENT; hex_digit (b / 16); hex_digit (b mod 16)].
Definition pct_encode (v : list N) : list N := concat (pct_byte <$> utf8 v).

(** [encode_value], uri_template.rs:393-401. *)
Definition encode_value (v : list N) (allow_reserved : bool) : list N :=
  if allow_reserved then v else pct_encode v.

(** The text one variable contributes, uri_template.rs:333-363; explode is treated as no
    modifier. *)
Definition named (o : oper) : bool := match o with OParam | OQuery | OCont => true | _ => false end.
Definition part (o : oper) (spec : varspec) (v : list N) : list N :=
  let v := match v_mod spec with Some (MPrefix n) => take (N.to_nat n) v | _ => v end in
  let enc := encode_value v (bool_decide (o = OReserved)) in
  if named o then v_name spec ++ EQUALS :: enc else enc.
Definition separator (o : oper) : list N :=
  match o with
  | OSimple | OReserved | OFragment => [COMMA]
  | OLabel => [DOT] | OPath => [SLASH] | OParam => [SEMI] | OQuery | OCont => [AMP]
  end.
Definition prefix (o : oper) : list N :=
  match o with
  | OFragment => [HASH] | OLabel => [DOT] | OPath => [SLASH] | OParam => [SEMI]
  | OQuery => [QMARK] | OCont => [AMP] | _ => []
  end.

Notation vmap := (gmap (list N) (list N)).

(** [expand_multiple], uri_template.rs:329-390. *)
Definition expand_multiple (o : oper) (specs : list varspec) (vars : vmap) : list N :=
  match omap (λ s, match vars !! v_name s with Some v => Some (part o s v) | None => None end) specs with
  | [] => []
  | parts => prefix o ++ join_with (separator o) parts
  end.
Definition expand_expr (vars : vmap) (e : expr) : list N :=
  match e with ELit t => t | EMulti o specs => expand_multiple o specs vars end.
(** [expand_with_map], uri_template.rs:277-285. *)
Definition expand_map (es : list expr) (vars : vmap) : list N := concat (expand_expr vars <$> es).
(** [expand], uri_template.rs:263-274: collecting into a HashMap, later pairs win. *)
Definition var_map (vars : list (list N * list N)) : vmap :=
  fold_left (λ m kv, <[kv.1 := kv.2]> m) vars ∅.
Definition expand (es : list expr) (vars : list (list N * list N)) : list N := expand_map es (var_map vars).

(** *** Matching *)
(** The pattern built by [to_regex_pattern], uri_template.rs:437-505, as a list of literal texts and
    greedy non-empty groups over a character class.  [(.+)] excludes the line feed. *)
Inductive piece := PLit (t : list N) | PGroup (cls : N → bool).
Definition not_in (l : list N) (c : N) : bool := forallb (λ x, negb (c =? x)) l.
Definition pieces_of (e : expr) : list piece :=
  match e with
  | ELit t => [PLit t]
  | EMulti o [s] =>
      match o with
      | OSimple | OReserved => [PGroup (not_in [SLASH])]
      | OFragment => [PLit [HASH]; PGroup (not_in [LF])]
      | OLabel => [PLit [DOT]; PGroup (not_in [DOT])]
      | OPath => [PLit [SLASH]; PGroup (not_in [SLASH])]
      | OParam => [PLit (SEMI :: v_name s ++ [EQUALS]); PGroup (not_in [SEMI; AMP])]
      | OQuery => [PLit (QMARK :: v_name s ++ [EQUALS]); PGroup (not_in [AMP])]
      | OCont => [PLit (AMP :: v_name s ++ [EQUALS]); PGroup (not_in [AMP])]
      end
  | EMulti _ _ => [PGroup (not_in [LF])]
  end.

(** Length of the longest prefix in a class (the crate regex, used at uri_template.rs 417) *)
Fixpoint run_len (cls : N → bool) (t : list N) : nat :=
  match t with c :: t' => if cls c then S (run_len cls t') else 0%nat | [] => 0%nat end.

(** Longest first, down to one character: the leftmost-first semantics of a greedy [+] (the crate regex, used at uri_template.rs 417) *)
Fixpoint try_lens (f : nat → option (list (list N))) (n : nat) : option (list (list N)) :=
  match n with
  | O => None
  | S m => match f n with Some r => Some r | None => try_lens f m end
  end.
(** The captures of ^pattern$ on a text (the crate regex, used at uri_template.rs 414-430) *)
Fixpoint strip_prefix (p t : list N) : option (list N) :=
  match p, t with
  | [], _ => Some t
  | x :: p', y :: t' => if decide (x = y) then strip_prefix p' t' else None
  | _, _ => None
  end.
Fixpoint match_pieces (ps : list piece) (t : list N) : option (list (list N)) :=
  match ps with
  | [] => match t with [] => Some [] | _ => None end
  | PLit l :: ps => match strip_prefix l t with Some r => match_pieces ps r | None => None end
  | PGroup cls :: ps =>
      try_lens (λ n, match match_pieces ps (drop n t) with
                     | Some cs => Some (take n t :: cs) | None => None end) (run_len cls t)
  end.

(** [get_var_name], uri_template.rs:508-521. *)
Definition get_var_name (e : expr) : option (list N) :=
  match e with EMulti _ [s] => Some (v_name s) | _ => None end.

(** The loop of [match_uri], uri_template.rs:422-433: the capture index advances only for
    expressions with exactly one variable. *)
Fixpoint assign (es : list expr) (caps : list (list N)) (m : vmap) : vmap :=
  match es with
  | [] => m
  | e :: es =>
      match get_var_name e with
      | Some n => match caps with
                  | c :: caps => assign es caps (<[n := c]> m)
                  | [] => assign es [] m
                  end
      | None => assign es caps m
      end
  end.
Definition match_uri (es : list expr) (uri : list N) : option vmap :=
  match match_pieces (concat (pieces_of <$> es)) uri with
  | Some caps => Some (assign es caps ∅)
  | None => None
  end.

(** [variables], uri_template.rs:524-549. *)
Definition variables (es : list expr) : list (list N) :=
  concat ((λ e, match e with ELit _ => [] | EMulti _ specs => v_name <$> specs end) <$> es).
