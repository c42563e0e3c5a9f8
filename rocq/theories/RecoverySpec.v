(** Specification vocabulary for retries and circuit breakers. *)
From stdpp Require Import gmap strings list.
From Verif Require Import RecoveryModel.
Local Open Scope Z_scope.

Definition failed (o : outcome) : Prop := match o with Fail _ => True | Done _ => False end.
(** A run of at most [most] invocations that stops at the first success: [n] invocations, all but the
    last failed, the last one's outcome is returned, and it is a failure only if all [most] were used. *)
Definition tried (op : nat → outcome) (most n : nat) (r : outcome) : Prop :=
  (1 ≤ n ≤ most)%nat ∧ (∀ i, (S i < n)%nat → failed (op i)) ∧ r = op (n - 1)%nat ∧ (failed r → n = most).
(** The waiting times: [initial], then each the next one multiplied and capped. *)
Fixpoint geometric (mul : Z → Z) (maxd : Z) (d : Z) (n : nat) : list Z :=
  match n with O => [] | S n => d :: geometric mul maxd (Z.min (mul d) maxd) n end.

(** *** Histories of a breaker *)
(** Failures since the last success. *)
Fixpoint failures_since (n : nat) (h : list bop) : nat :=
  match h with
  | [] => n
  | Success :: h => failures_since 0 h
  | Failure _ :: h => failures_since (S n) h
  | Allow _ :: h => failures_since n h
  end.
(** No point of the history has reached the threshold (a threshold of 0 acts as 1). *)
Definition below (th : nat) (h : list bop) : Prop :=
  ∀ h1 h2, h = h1 ++ h2 → (failures_since 0 h1 < Nat.max 1 th)%nat.
Definition all_allowed (r : list (option bool)) : Prop := Forall (λ a, a = None ∨ a = Some true) r.
Definition none_allowed (r : list (option bool)) : Prop := Forall (λ a, a = None ∨ a = Some false) r.
(** What may happen while the breaker is open: further failures (of calls already under way), and
    questions asked before [timeout] has passed since the last failure. *)
Inductive waiting (timeout : Z) : Z → list bop → Prop :=
| wait_nil t : waiting timeout t []
| wait_ask t now h : now - t < timeout → waiting timeout t h → waiting timeout t (Allow now :: h)
| wait_fail t now h : waiting timeout now h → waiting timeout t (Failure now :: h).
(** A trial phase: questions and [n] successes. *)
Fixpoint trial (n : nat) (h : list bop) : Prop :=
  match h with
  | [] => n = 0%nat
  | Allow _ :: h => trial n h
  | Success :: h => match n with S n => trial n h | O => False end
  | Failure _ :: _ => False
  end.
(** The clock reading of the last failure. *)
Fixpoint last_failure (t : option Z) (h : list bop) : option Z :=
  match h with
  | [] => t
  | Failure now :: h => last_failure (Some now) h
  | _ :: h => last_failure t h
  end.
(** A breaker that answers every further history as a new one would. *)
Definition like_new (c : config) (b : breaker) : Prop := ∀ h, (brun b h).1 = (brun (breaker_new c) h).1.

(** *** Executions of operations, one after the other *)
(** An operation's id, the outcomes of its calls and the clock readings at them. *)
Record execution := MkExecution { ex_id : string; ex_op : nat → outcome; ex_clock : nat → Z }.
Fixpoint executions (x : executor) (l : list execution) : list (final * nat) * executor :=
  match l with
  | [] => ([], x)
  | e :: l => let r := execute (ex_op e) (ex_clock e) x (ex_id e) in let '(rs, x') := executions r.2 l in (r.1.1 :: rs, x')
  end.
(** What the breaker of operation [id] is told by an execution that made [n] calls, and its answer. *)
Definition reported (o : outcome) (now : Z) : bop := match o with Done _ => Success | Fail _ => Failure now end.
Definition told (id : string) (e : execution) (n : nat) : list (bop * option bool) :=
  if bool_decide (ex_id e = id) then
    match ex_op e 0%nat with
    | Done _ => [(Success, None)]
    | Fail _ =>
      if bool_decide (n = 2)%nat then [(Allow (ex_clock e 0%nat), Some true); (reported (ex_op e 1%nat) (ex_clock e 1%nat), None)]
      else [(Allow (ex_clock e 0%nat), Some false)]
    end
  else [].
Definition history (id : string) (l : list execution) (ns : list nat) : list (bop * option bool) := concat (zip_with (told id) l ns).
(** The executor applies the circuit breaker [c] to every error. *)
Definition guards (c : config) (x : executor) : Prop := ∀ code, get_strategy (x_policy x) code = Breaker (c_failures c) (c_successes c) (c_timeout c).
