(** UUIDs as text, and what a request context is to keep on its way. *)
From stdpp Require Import list strings gmap.
From Verif Require Import ListLib TextLib Utf8Lib JsonLib RpcModel ContextModel.
Local Open Scope N_scope.

Definition hex_digit (c : N) : Prop := (48 <= c ∧ c <= 57) ∨ (97 <= c ∧ c <= 102).
Definition hex_group (n : nat) (g : list N) : Prop := length g = n ∧ Forall hex_digit g.
(** The text of a UUID: five groups of hexadecimal digits. *)
Definition uuid_of (t a b c d e : list N) : Prop :=
  t = a ++ [45] ++ b ++ [45] ++ c ++ [45] ++ d ++ [45] ++ e ∧ hex_group 8 a ∧ hex_group 4 b ∧ hex_group 4 c ∧ hex_group 4 d ∧ hex_group 12 e.
Definition uuid (t : list N) : Prop := ∃ a b c d e, uuid_of t a b c d e.
(** A context as the library makes it for a request with a numeric id. *)
Definition standard (c : context) : Prop :=
  uuid (trace_id c) ∧ uuid (span_id c) ∧ ∃ z, request_id c = IdNum z ∧ (i64_min <= z <= i64_max)%Z.
(** What has to survive: trace, request, user, session and baggage. *)
Definition kept (c c' : context) : Prop :=
  trace_id c' = trace_id c ∧ request_id c' = request_id c ∧ user_id c' = user_id c ∧ session_id c' = session_id c ∧ baggage c' = baggage c.
(** The text without its dashes. *)
Definition digits_of (t : list N) : list N := filter (λ c, c ≠ 45) t.
Definition new_span (o : hop) : list N := match o with Nested s | Sent _ s => s end.

(** *** Headers of strangers *)
(** A text can be cut after [k] bytes of its UTF-8 form: no character lies across. *)
Definition cuts_at (t : list N) (k : nat) : Prop := ∃ t1 t2, t = t1 ++ t2 ∧ length (utf8 t1) = k.
(** A part of the trace header that has the right number of bytes but not at characters. *)
Definition crooked (n : nat) (cuts : list nat) (t : list N) : Prop := length (utf8 t) = n ∧ ∃ k, k ∈ cuts ∧ ¬ cuts_at t k.
(** The trace header with these parts. *)
Definition traceparent (parts : list (list N)) : list N := utf8 (join_with [45] parts).
