(** What a caller of [register_request] may rely on, stated without the pending table:
    the fate of one request as a function of the calls made after it was registered. *)
From stdpp Require Import list strings.
From Verif Require Import ProtocolModel.

Inductive fate :=
| Waiting                 (* no answer yet *)
| Answered (r : response) (* this response is, or will be, in the receiver *)
| Abandoned.              (* cancelled or superseded: the receiver is closed *)

(** Effect of one later call on the fate of a request with id [id] registered on transport
    [t].  Calls about other ids, responses for other transports and everything after the
    request was answered or abandoned do not matter. *)
Definition fate_step (t : tid) (id : reqid) (f : fate) (o : op) : fate :=
  match f with
  | Waiting =>
      match o with
      | Register id' => if decide (id' = id) then Abandoned else Waiting
      | Complete id' r => if decide (id' = id) then Answered r else Waiting
      | CompleteFor id' r t' => if decide (id' = id ∧ t' = t) then Answered r else Waiting
      | Cancel id' => if decide (id' = id) then Abandoned else Waiting
      | RunTask _ => Waiting
      end
  | _ => f
  end.

Definition fate_of (t : tid) (id : reqid) (later : list op) : fate :=
  fold_left (fate_step t id) later Waiting.

(** Number of [register_request] calls in a history: the name of the next receiver. *)
Fixpoint registrations (h : list op) : nat :=
  match h with
  | [] => 0
  | Register _ :: h => S (registrations h)
  | _ :: h => registrations h
  end.
