(** Specification vocabulary for batching and debouncing. *)
From stdpp Require Import gmap list.
From Verif Require Import DeliveryModel.
Local Open Scope Z_scope.

(** The notifications a history added, in order. *)
Definition added {A} (os : list (mop A)) : list A := omap (λ o, match o with MAdd x => Some x | _ => None end) os.
(** No batch is formed while another one waits to be sent: each add or tick finds no waiting sender. *)
Fixpoint one_sender {A} (max : nat) (s : batcher A) (os : list (mop A)) : Prop :=
  match os with
  | [] => True
  | o :: os => (match o with MAdd _ | MTick => mb_out s = [] | _ => True end) ∧ one_sender max (mstep max s o) os
  end.

(** The notification a key is still owed after a history, with the time it was added: the last one
    added, unless it was sent or flushed since. *)
Definition owed_step (k : nat) (o : option (nat * Z)) (e : dcall * dout) : option (nat * Z) :=
  match e with
  | (CAdd k' n t, _) => if decide (k' = k) then Some (n, t) else o
  | (CFire _ _, OSent k' _) => if decide (k' = k) then None else o
  | (CFlush, _) => None
  | _ => o
  end.
Definition owed (k : nat) (h : list (dcall * dout)) : option (nat * Z) := fold_left (owed_step k) h None.
(** The receiver keeps up: the channel is never full when a timer fires. *)
Definition keeps_up (wait : nat → Z) (cs : list dcall) : Prop :=
  ∀ cs1 cs2, cs = cs1 ++ cs2 → (length (d_chan (drun wait debouncer_new cs1).1) < capacity)%nat.

(** *** Debouncing under any schedule *)
(** The notifications a history of steps added, with their keys. *)
Definition inserted (os : list dstep_op) : list (nat * nat) := omap (λ o, match o with DInsert k n => Some (k, n) | _ => None end) os.
(** What a step sends, and what it returns to the caller of flush. *)
Definition sent_by (s : debouncer) (o : dstep_op) : list (nat * nat) :=
  match o with DFire t now => option_list (d_fire t now s).2 | DUnblock t => option_list (d_unblock t s).2 | _ => [] end.
Definition flushed_by (s : debouncer) (o : dstep_op) : list (nat * nat) :=
  match o with DDrain => map_to_list (d_drain s).2 | _ => [] end.
(** A history: the state it ends in, what was sent and what was flushed. *)
Fixpoint dhist (wait : nat → Z) (s : debouncer) (os : list dstep_op) : debouncer * list (nat * nat) * list (nat * nat) :=
  match os with
  | [] => (s, [], [])
  | o :: os => let '(s', se, fl) := dhist wait (dstep wait s o) os in (s', sent_by s o ++ se, flushed_by s o ++ fl)
  end.
