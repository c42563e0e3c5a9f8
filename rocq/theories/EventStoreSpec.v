(** Specification vocabulary for the event store: which events were stored, and the fate of one of
    them, read off the history alone. *)
From stdpp Require Import gmap strings list.
From Verif Require Import EventStoreModel.

(** All events ever stored, oldest first. *)
Definition stored (h : list sop) : list event :=
  omap (λ o, match o with SPush e => Some e | _ => None end) h.

(** An event with timestamp [ts], stored just before the steps [h], survives them: at every
    cleanup fewer than [max_events] newer events had been stored and it was not too old, and it
    was older than no explicit clearing bound.  [newer] counts the newer events stored so far. *)
Fixpoint survives (max_events : nat) (max_age ts : Z) (newer : nat) (h : list sop) : Prop :=
  match h with
  | [] => True
  | SPush _ :: h => survives max_events max_age ts (S newer) h
  | SCleanup now :: h => newer < max_events ∧ (now - max_age <= ts)%Z ∧
                         survives max_events max_age ts newer h
  | SClear t :: h => (t <= ts)%Z ∧ survives max_events max_age ts newer h
  | SToken _ :: h => survives max_events max_age ts newer h
  end.
