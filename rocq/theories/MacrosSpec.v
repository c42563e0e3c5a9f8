(** Specification vocabulary for the macros. *)
From stdpp Require Import list strings.
From Verif Require Import ListLib TextLib JsonLib SerdeLib MacrosModel.
Local Open Scope N_scope.

(** *** Attributes as they are written: an opening, key = "text" pairs with a separator between, a closing *)
(** A string literal: quotes and backslashes are escaped *)
Definition literal (v : list N) : list N := 34 :: concat ((λ c, if bool_decide (c = 34 ∨ c = 92) then [92; c] else [c]) <$> v) ++ [34].
Definition pair_text (kv : list N * list N) : list N := kv.1 ++ lit " = " ++ literal kv.2.
Definition attribute (opening sep closing : list N) (kvs : list (list N * list N)) : list N := opening ++ join_with sep (pair_text <$> kvs) ++ closing.
(** Punctuation as the compiler prints it: no quotes, and each key stands alone *)
Definition punctuation (opening sep closing : list N) : Prop :=
  34 ∉ opening ∧ 34 ∉ sep ∧ 34 ∉ closing ∧ (∃ a c, opening = a ++ [c] ∧ (c = 32 ∨ c = 40)) ∧ (∃ a c, sep = a ++ [c] ∧ (c = 32 ∨ c = 44)).
(** A text without quotes and backslashes; a key *)
Definition plain (v : list N) : Prop := 34 ∉ v ∧ 92 ∉ v.
Definition letter_key (k : list N) : Prop := Forall (λ c, 97 <= c <= 122 \/ c = 95) k.
Definition ends_in (k v : list N) : Prop := ∃ a, v = a ++ k.
(** What is said about [k] cannot be taken for something else: no other key ends in [k], no text in "k = " *)
Definition unmistakable (k : list N) (kvs : list (list N * list N)) : Prop :=
  Forall (λ kv, (ends_in k kv.1 → kv.1 = k) ∧ ¬ ends_in (k ++ lit " = ") kv.2) kvs.

(** *** What a JSON schema of this form demands: its type, its required members, its properties *)
Fixpoint meets (fuel : nat) (schema v : json) : Prop :=
  match fuel with
  | O => True
  | S fuel =>
    match schema with
    | JObj s =>
      (assoc (lit "type") s = Some (JStr (lit "object")) → ∃ l, v = JObj l) ∧
      (∀ ks, assoc (lit "required") s = Some (JArr ks) → ∀ k l, JStr k ∈ ks → v = JObj l → is_Some (assoc k l)) ∧
      (∀ ps, assoc (lit "properties") s = Some (JObj ps) → ∀ k t l x, (k, t) ∈ ps → v = JObj l → assoc k l = Some x → meets fuel t x)
    | _ => True
    end
  end.
Definition satisfies (schema v : json) : Prop := ∀ fuel, meets fuel schema v.

(** *** A parameter's argument is there and of its type *)
Definition supplied (p : param) (args v : json) : Prop := ∃ l x, args = JObj l ∧ assoc (pr_name p) l = Some x ∧ decode (pr_ty p) x = Some v.

(** *** Names of functions as usually written: words in lower case, starting with a letter, with single
    underscores between *)
Definition word (w : list N) : Prop := ∃ c r, w = c :: r ∧ 97 <= c <= 122 ∧ Forall (λ c, 97 <= c <= 122 \/ 48 <= c <= 57) r.
Definition snake (s : list N) : Prop := ∃ ws, ws ≠ [] ∧ Forall word ws ∧ s = join_with [95] ws.
(** What the function gets for a parameter: the argument's value; an optional parameter has none when its
    argument is absent, null or of another type *)
Definition argument (p : param) (args : json) (v : option json) : Prop :=
  match v with
  | Some x => supplied p args x ∧ (pr_optional p = true → get args (pr_name p) ≠ Some JNull)
  | None => pr_optional p = true ∧ (get args (pr_name p) = Some JNull ∨ ¬ ∃ x, supplied p args x)
  end.
