(** One BatchProcessor used by several tasks: src/utils/parallel_batch.rs 385-460.  Definitions only. *)
From stdpp Require Import gmap list.
From Verif Require Import BatchModel.

(** A call of process that is under way, by a number: the time at which it began, 405.  Its update of the metrics holds the
    write lock from 413 to its end, so it is one step, as are metrics (444-454) and reset_metrics (457-459). *)
Record bproc := MkProc { bp_calls : gmap nat N; bp_metrics : metrics }.
Inductive pop :=
| PBegin (i : nat) (now : N)                              (* 404-409: process is called; it is suspended at the await of 409 *)
| PEnd (i : nat) (now : N) (rs : list bresponse)          (* 411-441: the batch has been handled; [rs] has a response for each request (C03) *)
| PGone (i : nat)                                         (* the caller drops the future, or the handler panics: nothing is recorded *)
| PReset.                                                 (* reset_metrics, 457-459 *)
(** new, 387-392 *)
Definition bp_init : bproc := MkProc ∅ metrics0.
(** Numbers that no call has are ignored. Times are in milliseconds, 412. *)
Definition bp_step (s : bproc) (o : pop) : bproc :=
  match o with
  | PBegin i now => MkProc (<[i := now]> (bp_calls s)) (bp_metrics s)
  | PEnd i now rs =>
      match bp_calls s !! i with
      | Some t => MkProc (delete i (bp_calls s)) (record_batch (bp_metrics s) (N.of_nat (length rs)) (now - t)%N rs)
      | None => s
      end
  | PGone i => MkProc (delete i (bp_calls s)) (bp_metrics s)
  | PReset => MkProc (bp_calls s) metrics0
  end.
Definition bp_run (os : list pop) : bproc := fold_left bp_step os bp_init.
