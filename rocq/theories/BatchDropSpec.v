(** Specification vocabulary for adds of a batcher or debouncer that are given up. *)
From stdpp Require Import base numbers list.
From Verif Require Import DeliveryModel BatchDropModel.

Definition b_after {A} (max : nat) (os : list (bop A)) : bstate A := b_run max b_new os.
(** The notifications a history added, in order. *)
Definition b_added {A} (os : list (bop A)) : list A := omap (λ o, match o with BAdd _ x => Some x | _ => None end) os.
(** What has not been lost: received, in the channel, held by a sender or pending. *)
Definition b_there {A} (s : bstate A) : list A := concat (b_recv s ++ b_chan s ++ (w_batch <$> b_out s)) ++ b_pending s.
(** The batches that are lost in a history: those held by an add, waiting for room, whose caller gives up. *)
Definition lost_at {A} (s : bstate A) (o : bop A) : list (list A) :=
  match o with BDrop k => w_batch <$> filter (λ w, waits_for k w = true) (b_out s) | _ => [] end.
Fixpoint lost_from {A} (max : nat) (s : bstate A) (os : list (bop A)) : list (list A) :=
  match os with [] => [] | o :: os => lost_at s o ++ lost_from max (b_step max s o) os end.
Definition b_lost {A} (max : nat) (os : list (bop A)) : list (list A) := lost_from max b_new os.
(** The receiver keeps up: the channel always has room. *)
Definition roomy {A} (max : nat) (os : list (bop A)) : Prop := ∀ os1 os2, os = os1 ++ os2 → length (b_chan (b_after max os1)) < capacity.
(** The history without the callers' names, for histories in which nobody gives up (C27). *)
Definition plain {A} (os : list (bop A)) : list (mop A) :=
  omap (λ o, match o with BAdd _ x => Some (MAdd x) | BTick => Some MTick | BSend i => Some (MSend i) | BRecv => Some MRecv | _ => None end) os.
