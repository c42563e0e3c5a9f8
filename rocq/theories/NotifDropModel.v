(** Calls of NotificationBatcher::add and flush that are given up, with an output channel of any size:
    src/server/notification_debouncer.rs 313-389.  Definitions only.  Notifications are opaque; [key] is notification_key (it is
    modelled in NotifModel).  Every step runs under the lock or is one channel operation. *)
From stdpp Require Import base numbers list gmap.

(** A full batch taken by the add of task k (351-356), and whether it found the channel full and waits for room *)
Record held (A : Type) := MkHeld { w_by : nat; w_batch : list A; w_waits : bool }.
Arguments MkHeld {_}. Arguments w_by {_}. Arguments w_batch {_}. Arguments w_waits {_}.
(** Who holds the lock while it sends: nobody; a timer with its batch (366-369); flush, with the batches it has not sent yet and
    whether it waits for room (380-386) *)
Inductive holder (A : Type) := Free | ByTimer (b : list A) | ByFlush (m : gmap nat (list A)) (waits : bool).
Arguments Free {_}. Arguments ByTimer {_}. Arguments ByFlush {_}.
Record nstate (A : Type) := MkN { n_batches : gmap nat (list A); n_timers : list nat; n_out : list (held A); n_lock : holder A; n_chan : list (list A); n_recv : list (list A) }.
Arguments MkN {_}. Arguments n_batches {_}. Arguments n_timers {_}. Arguments n_out {_}. Arguments n_lock {_}. Arguments n_chan {_}. Arguments n_recv {_}.
(** NotificationBatcher::new, src/server/notification_debouncer.rs 329-340 *)
Definition n_new {A} : nstate A := MkN ∅ [] [] Free [] [].
(** add called by task k up to its send (343-356) or its end (375); its i-th sender sends, or waits for room (356); the caller, task
    k, gives up while it waits; the i-th timer fires (364-367) and sends (369); flush begins (380-382), sends the batch of
    key j (in any order: it iterates over a HashMap), waits for room, ends; its caller gives up while it waits; the other end of
    the channel receives *)
Inductive nop (A : Type) := NAdd (k : nat) (x : A) | NSend (i : nat) | NWait (i : nat) | NDrop (k : nat) | NTimer (i : nat) | NTimerSend
  | NFlush | NFlushSend (j : nat) | NFlushWait | NFlushEnd | NFlushDrop | NRecv.
Arguments NAdd {_}. Arguments NSend {_}. Arguments NWait {_}. Arguments NDrop {_}. Arguments NTimer {_}. Arguments NTimerSend {_}.
Arguments NFlush {_}. Arguments NFlushSend {_}. Arguments NFlushWait {_}. Arguments NFlushEnd {_}. Arguments NFlushDrop {_}. Arguments NRecv {_}.
(** The add of task k waits for room (src/server/notification_debouncer.rs 356) *)
Definition waits_for {A} (k : nat) (w : held A) : bool := bool_decide (w_by w = k) && w_waits w.
Section batcher.
  Context {A : Type} (key : A → nat) (max cap : nat).
  (** Room in the channel (src/server/notification_debouncer.rs 324, 332: its size is the caller's) *)
  Definition room (s : nstate A) : bool := bool_decide (length (n_chan s) < cap).
  (** src/server/notification_debouncer.rs 343-389; a dropped future of add drops its batch, one of flush drops the Drain, which
      empties the map, and with it every batch that was not sent *)
  Definition n_step (s : nstate A) (o : nop A) : nstate A :=
    match o with
    | NAdd k x =>
      match n_lock s with
      | Free =>
        let b := default [] (n_batches s !! key x) ++ [x] in
        if bool_decide (max ≤ length b) then MkN (<[key x := []]> (n_batches s)) (n_timers s) (n_out s ++ [MkHeld k b false]) Free (n_chan s) (n_recv s)
        else MkN (<[key x := b]> (n_batches s)) (n_timers s ++ [key x]) (n_out s) Free (n_chan s) (n_recv s)
      | _ => s
      end
    | NSend i =>
      match n_out s !! i with
      | Some w => if room s then MkN (n_batches s) (n_timers s) (delete i (n_out s)) (n_lock s) (n_chan s ++ [w_batch w]) (n_recv s) else s
      | None => s
      end
    | NWait i =>
      match n_out s !! i with
      | Some w => if room s then s else MkN (n_batches s) (n_timers s) (<[i := MkHeld (w_by w) (w_batch w) true]> (n_out s)) (n_lock s) (n_chan s) (n_recv s)
      | None => s
      end
    | NDrop k => MkN (n_batches s) (n_timers s) (filter (λ w, waits_for k w = false) (n_out s)) (n_lock s) (n_chan s) (n_recv s)
    | NTimer i =>
      match n_lock s, n_timers s !! i with
      | Free, Some j =>
        MkN (delete j (n_batches s)) (delete i (n_timers s)) (n_out s) (match n_batches s !! j with Some (y :: b) => ByTimer (y :: b) | _ => Free end) (n_chan s) (n_recv s)
      | _, _ => s
      end
    | NTimerSend =>
      match n_lock s with
      | ByTimer b => if room s then MkN (n_batches s) (n_timers s) (n_out s) Free (n_chan s ++ [b]) (n_recv s) else s
      | _ => s
      end
    | NFlush =>
      match n_lock s with
      | Free => MkN ∅ (n_timers s) (n_out s) (ByFlush (n_batches s) false) (n_chan s) (n_recv s)
      | _ => s
      end
    | NFlushSend j =>
      match n_lock s with
      | ByFlush m _ =>
        match m !! j with
        | Some [] => MkN (n_batches s) (n_timers s) (n_out s) (ByFlush (delete j m) false) (n_chan s) (n_recv s)
        | Some b => if room s then MkN (n_batches s) (n_timers s) (n_out s) (ByFlush (delete j m) false) (n_chan s ++ [b]) (n_recv s) else s
        | None => s
        end
      | _ => s
      end
    | NFlushWait =>
      match n_lock s with
      | ByFlush m _ => if room s then s else MkN (n_batches s) (n_timers s) (n_out s) (ByFlush m true) (n_chan s) (n_recv s)
      | _ => s
      end
    | NFlushEnd =>
      match n_lock s with
      | ByFlush m _ => if bool_decide (m = ∅) then MkN (n_batches s) (n_timers s) (n_out s) Free (n_chan s) (n_recv s) else s
      | _ => s
      end
    | NFlushDrop =>
      match n_lock s with
      | ByFlush m true => MkN (n_batches s) (n_timers s) (n_out s) Free (n_chan s) (n_recv s)
      | _ => s
      end
    | NRecv => match n_chan s with [] => s | b :: c => MkN (n_batches s) (n_timers s) (n_out s) (n_lock s) c (n_recv s ++ [b]) end
    end.
  (** Histories (they drive src/server/notification_debouncer.rs 343-389) *)
  Definition n_run (s : nstate A) (os : list (nop A)) : nstate A := fold_left n_step os s.
End batcher.
