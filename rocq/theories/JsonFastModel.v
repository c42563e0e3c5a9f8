(** JSON with vectorised scanning: src/utils/json_simd.rs, as built with the feature [simd] on x86_64.
    Definitions only.  The deserialised type is [serde_json::Value]; [of_bytes] and [to_bytes] are
    serde_json's from_slice and to_vec (JsonLib).  The outer option is [None] when a scanner does not
    return within [fuel] rounds per block; [Some None] is an error. *)
From stdpp Require Import list strings.
From Verif Require Import TextLib Utf8Lib JsonLib SimdModel.
Local Open Scope N_scope.

(** [binary_search(&i).is_ok()] in the ascending list of positions that a scanner returned (src/utils/json_simd.rs 55, 135) *)
Definition found (positions : list nat) (i : nat) : bool := existsb (Nat.eqb i) positions.
(** The loop that strips whitespace, 34-59, from index [i] on *)
Fixpoint strip_loop (ws : list nat) (i : nat) (in_string escape_next : bool) (input : list N) : list N :=
  match input with
  | [] => []
  | byte :: rest =>
    if escape_next then byte :: strip_loop ws (S i) in_string false rest
    else if (byte =? 92) && in_string then byte :: strip_loop ws (S i) in_string true rest
    else if byte =? 34 then byte :: strip_loop ws (S i) (negb in_string) false rest
    else if negb in_string && found ws i then strip_loop ws (S i) in_string false rest
    else byte :: strip_loop ws (S i) in_string false rest
  end.
(** parse_json_fast, 11-69.  [avx2]: what the processor reports *)
Definition parse_json_fast (avx2 : bool) (fuel : nat) (input : list N) : option (option json) :=
  if avx2 then
    if validate_utf8_simd input then
      match find_whitespace_simd fuel input with
      | None => None
      | Some ws => Some (of_bytes (if (length ws <? length input / 10)%nat then input else strip_loop ws 0 false false input))
      end
    else Some None
  else Some (of_bytes input).
(** parse_json_batch, 106-110: one after the other *)
Definition parse_json_batch (avx2 : bool) (fuel : nat) (inputs : list (list N)) : option (list (option json)) :=
  mapM (parse_json_fast avx2 fuel) inputs.
(** serialize_json_fast, 79-96: [None] is the error *)
Definition serialize_json_fast (avx2 : bool) (value : json) : option (list N) :=
  let json := to_bytes value in
  if avx2 && negb (validate_utf8_simd json) then None else Some json.

(** The loop of pretty_print_fast, 129-174.  Every byte is pushed [as char]: the result is a list of
    code points, one for each byte. *)
Definition line (indent : nat) : list N := 10 :: replicate indent 32.
Fixpoint pretty_loop (escapes : list nat) (i indent : nat) (in_string escape_next : bool) (compact : list N) : list N :=
  match compact with
  | [] => []
  | byte :: rest =>
    if escape_next then byte :: pretty_loop escapes (S i) indent in_string false rest
    else
      let escape := found escapes i && (byte =? 92) && in_string in
      let in_string := if found escapes i && (byte =? 34) then negb in_string else in_string in
      if in_string then byte :: pretty_loop escapes (S i) indent in_string escape rest
      else if (byte =? 123) || (byte =? 91) then byte :: line (indent + 2) ++ pretty_loop escapes (S i) (indent + 2) in_string escape rest
      else if (byte =? 125) || (byte =? 93) then line (indent - 2) ++ byte :: pretty_loop escapes (S i) (indent - 2) in_string escape rest
      else if byte =? 44 then 44 :: line indent ++ pretty_loop escapes (S i) indent in_string escape rest
      else if byte =? 58 then 58 :: 32 :: pretty_loop escapes (S i) indent in_string escape rest
      else if is_space byte then pretty_loop escapes (S i) indent in_string escape rest
      else byte :: pretty_loop escapes (S i) indent in_string escape rest
  end.
(** pretty_print_fast, 113-177, on a processor with AVX2; otherwise serde_json's own printer is used,
    which is not modelled. *)
Definition pretty_print_fast (fuel : nat) (value : json) : option (list N) :=
  let compact := to_bytes value in
  match find_escapes_simd fuel compact with
  | None => None
  | Some escapes => Some (pretty_loop escapes 0 0 false false compact)
  end.
