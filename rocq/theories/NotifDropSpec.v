(** Specification vocabulary for adds and flushes of a notification batcher that are given up. *)
From stdpp Require Import base numbers list gmap.
From Verif Require Import NotifDropModel.

Section spec.
  Context {A : Type} (key : A → nat) (max cap : nat).
  Definition n_after (os : list (nop A)) : nstate A := n_run key max cap n_new os.
  (** The notifications a history added: those whose add got the lock. *)
  Definition added_at (s : nstate A) (o : nop A) : list A := match o, n_lock s with NAdd _ x, Free => [x] | _, _ => [] end.
  Fixpoint added_from (s : nstate A) (os : list (nop A)) : list A :=
    match os with [] => [] | o :: os => added_at s o ++ added_from (n_step key max cap s o) os end.
  Definition n_added (os : list (nop A)) : list A := added_from n_new os.
  (** What has not been lost: received, in the channel, held by an add, a timer or flush, or collected. *)
  Definition in_lock (h : holder A) : list (list A) := match h with Free => [] | ByTimer b => [b] | ByFlush m _ => (map_to_list m).*2 end.
  Definition batches_there (s : nstate A) : list (list A) := n_recv s ++ n_chan s ++ (w_batch <$> n_out s) ++ in_lock (n_lock s) ++ (map_to_list (n_batches s)).*2.
  Definition n_there (s : nstate A) : list A := concat (batches_there s).
  (** The batches that giving up loses: those of an add, or of a flush, that waits for room. *)
  Definition lost_at (s : nstate A) (o : nop A) : list (list A) :=
    match o with
    | NDrop k => w_batch <$> filter (λ w, waits_for k w = true) (n_out s)
    | NFlushDrop => match n_lock s with ByFlush m true => (map_to_list m).*2 | _ => [] end
    | _ => []
    end.
  Fixpoint lost_from (s : nstate A) (os : list (nop A)) : list (list A) :=
    match os with [] => [] | o :: os => lost_at s o ++ lost_from (n_step key max cap s o) os end.
  Definition n_lost (os : list (nop A)) : list (list A) := lost_from n_new os.
  (** The receiver keeps up: the channel always has room. *)
  Definition roomy (os : list (nop A)) : Prop := ∀ os1 os2, os = os1 ++ os2 → length (n_chan (n_after os1)) < cap.
End spec.
