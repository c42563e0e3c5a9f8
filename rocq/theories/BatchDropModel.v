(** Calls of MessageBatcher::add that are given up (a timeout or a select drops the future): src/utils/batching.rs 113-127,
    157-206.  Definitions only.  Notifications are opaque.  Every step runs under one lock or is one channel operation. *)
From stdpp Require Import base numbers list.
From Verif Require Import DeliveryModel.

(** A batch that was taken but not yet put into the channel: whose it is (task k that called add, or the timer), the batch, and
    whether its sender found the channel full and waits for room (src/utils/batching.rs 120-123 and 173) *)
Record sender (A : Type) := MkSender { w_by : option nat; w_batch : list A; w_waits : bool }.
Arguments MkSender {_}. Arguments w_by {_}. Arguments w_batch {_}. Arguments w_waits {_}.
Record bstate (A : Type) := MkB { b_pending : list A; b_out : list (sender A); b_chan : list (list A); b_recv : list (list A) }.
Arguments MkB {_}. Arguments b_pending {_}. Arguments b_out {_}. Arguments b_chan {_}. Arguments b_recv {_}.
(** MessageBatcher::new, src/utils/batching.rs 73-81 *)
Definition b_new {A} : bstate A := MkB [] [] [] [].
(** add called by task k up to the send (113-119); the timer up to the send (163-172); the i-th sender puts its batch into the
    channel (120-123, 173); it finds the channel full and waits; the caller of add, task k, gives up (an add waits nowhere else
    but for the lock, where it has done nothing yet); receive_batch (204-206) *)
Inductive bop (A : Type) := BAdd (k : nat) (x : A) | BTick | BSend (i : nat) | BWait (i : nat) | BDrop (k : nat) | BRecv.
Arguments BAdd {_}. Arguments BTick {_}. Arguments BSend {_}. Arguments BWait {_}. Arguments BDrop {_}. Arguments BRecv {_}.
(** The add of task k that waits for room, if there is one (src/utils/batching.rs 120-123) *)
Definition waits_for {A} (k : nat) (w : sender A) : bool := bool_decide (w_by w = Some k) && w_waits w.
(** src/utils/batching.rs 113-127, 163-175, 204-206; dropping the future of add at 120-123 drops the batch it holds *)
Definition b_step {A} (max : nat) (s : bstate A) (o : bop A) : bstate A :=
  match o with
  | BAdd k x =>
    let p := b_pending s ++ [x] in
    if bool_decide (max ≤ length p) then MkB [] (b_out s ++ [MkSender (Some k) p false]) (b_chan s) (b_recv s)
    else MkB p (b_out s) (b_chan s) (b_recv s)
  | BTick =>
    match b_pending s with
    | [] => s
    | p => MkB [] (b_out s ++ [MkSender None p false]) (b_chan s) (b_recv s)
    end
  | BSend i =>
    match b_out s !! i with
    | Some w => if bool_decide (length (b_chan s) < capacity) then MkB (b_pending s) (delete i (b_out s)) (b_chan s ++ [w_batch w]) (b_recv s) else s
    | None => s
    end
  | BWait i =>
    match b_out s !! i with
    | Some w => if bool_decide (length (b_chan s) < capacity) then s
                else MkB (b_pending s) (<[i := MkSender (w_by w) (w_batch w) true]> (b_out s)) (b_chan s) (b_recv s)
    | None => s
    end
  | BDrop k => MkB (b_pending s) (filter (λ w, waits_for k w = false) (b_out s)) (b_chan s) (b_recv s)
  | BRecv => match b_chan s with [] => s | b :: c => MkB (b_pending s) (b_out s) c (b_recv s ++ [b]) end
  end.
(** Histories (they drive src/utils/batching.rs 113-206) *)
Definition b_run {A} (max : nat) (s : bstate A) (os : list (bop A)) : bstate A := fold_left (b_step max) os s.
