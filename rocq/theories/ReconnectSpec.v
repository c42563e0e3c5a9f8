(** Specification vocabulary for reconnection and middleware chains. *)
From Coq Require Import QArith Qminmax.
From stdpp Require Import base numbers list.
From Verif Require Import ReconnectModel.

(** Rounding to the f64 numbers: monotone, exact on its own results and on 0. *)
Record rounding (rnd : Q → Q) : Prop := {
  rnd_mono : ∀ x y, (x <= y)%Q → (rnd x <= rnd y)%Q;
  rnd_idem : ∀ x, (rnd (rnd x) == rnd x)%Q;
  rnd_zero : (rnd 0 == 0)%Q }.
Definition is_f64 (rnd : Q → Q) (x : Q) : Prop := (rnd x == x)%Q.
(** A configuration as documented (durations are not negative, the jitter factor neither) and a
    random factor between 0 and 1. *)
Record delay_input (rnd : Q → Q) (initial maxd : Q) (pow : xf) (jitter r : Q) : Prop := {
  di_initial : (0 <= initial)%Q; di_max : (0 <= maxd)%Q; di_f64 : is_f64 rnd maxd;
  di_pow : match pow with Fin q => (0 <= q)%Q | Inf => True | NaN => False end;
  di_jitter : (0 <= jitter)%Q; di_random : (0 <= r)%Q ∧ (r <= 1)%Q }.

(** Histories. *)
Definition is_failure (o : call) : bool := match o with OnFailed _ => true | _ => false end.
Definition failures (h : list call) : nat := length (filter (λ o, is_failure o = true) h).
(** No call that may reset the retry count. *)
Definition no_reset (h : list call) : Prop := Forall (λ o, match o with OnConnected _ | OnDisconnected _ | Reset => False | _ => True end) h.
(** No success: consecutive failures. *)
Definition no_success (h : list call) : Prop := Forall (λ o, match o with OnConnected _ | Reset => False | _ => True end) h.
(** Only checks before the time [t], and switching the manager on and off. *)
Definition checks_before (t : Z) (h : list call) : Prop :=
  Forall (λ o, match o with Should now => (now < t)%Z | Enable _ | Reset => True | _ => False end) h.
Definition all_refused (rs : list (option bool)) : Prop := Some true ∉ rs.

(** What a chain of hooks has to do with a message: the hooks are invoked in order from the first,
    each sees what the previous one left, the first error is the result and ends the run, and
    without an error every hook was invoked. *)
Record runs_in_order {M E} (hooks : list (M → M * option E)) (m : M) (seen : list M) (rest : M) (r : option E) : Prop := {
  ro_first : ∀ x, seen !! 0 = Some x → x = m;
  ro_next : ∀ i x y, seen !! i = Some x → seen !! S i = Some y → ∃ f, hooks !! i = Some f ∧ f x = (y, None);
  ro_end : match r with
    | None => length seen = length hooks ∧
        (match last seen, last hooks with Some x, Some f => f x = (rest, None) | None, None => rest = m | _, _ => False end)
    | Some e => ∃ x f, last seen = Some x ∧ hooks !! (length seen - 1) = Some f ∧ f x = (rest, Some e) end }.

(** Calls of a kind in a history *)
Definition count (p : call → bool) (h : list call) : nat := length (filter (λ o, p o = true) h).
Definition is_attempt (o : call) : bool := match o with OnConnecting => true | _ => false end.
Definition is_success (o : call) : bool := match o with OnConnected _ => true | _ => false end.
