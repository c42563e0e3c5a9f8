(** Message batching and debouncing: src/utils/batching.rs.  Definitions only.  Notifications are
    opaque.  Every step below runs under one lock or is one channel operation, so any interleaving of
    calls and background tasks is a sequence of steps. *)
From stdpp Require Import gmap list.
Local Open Scope Z_scope.

(** *** MessageBatcher, batching.rs:33-207.  [mb_out] are batches taken from the pending list whose
    sender is still waiting for room in the channel (capacity 100, line 74). *)
Record batcher (A : Type) := MkBatcher { mb_pending : list A; mb_out : list (list A); mb_chan : list (list A); mb_recv : list (list A) }.
Arguments MkBatcher {_}. Arguments mb_pending {_}. Arguments mb_out {_}. Arguments mb_chan {_}. Arguments mb_recv {_}.
Definition capacity : nat := 100.
Definition batcher_new {A} : batcher A := MkBatcher [] [] [] [].
Inductive mop (A : Type) :=
| MAdd (x : A)       (* add, 113-119: push under the lock, take the batch if it is full *)
| MTick              (* the timer task, 163-172 *)
| MSend (i : nat)    (* the i-th waiting sender gets room: 120-123 or 173 *)
| MRecv.             (* receive_batch, 204-206, when a batch is there *)
Arguments MAdd {_}. Arguments MTick {_}. Arguments MSend {_}. Arguments MRecv {_}.
Definition mstep {A} (max : nat) (s : batcher A) (o : mop A) : batcher A :=
  match o with
  | MAdd x =>
    let p := mb_pending s ++ [x] in
    if bool_decide (max ≤ length p)%nat then MkBatcher [] (mb_out s ++ [p]) (mb_chan s) (mb_recv s)
    else MkBatcher p (mb_out s) (mb_chan s) (mb_recv s)
  | MTick =>
    match mb_pending s with
    | [] => s
    | p => MkBatcher [] (mb_out s ++ [p]) (mb_chan s) (mb_recv s)
    end
  | MSend i =>
    match mb_out s !! i with
    | Some b => if bool_decide (length (mb_chan s) < capacity)%nat
                then MkBatcher (mb_pending s) (delete i (mb_out s)) (mb_chan s ++ [b]) (mb_recv s) else s
    | None => s
    end
  | MRecv =>
    match mb_chan s with
    | [] => s
    | b :: c => MkBatcher (mb_pending s) (mb_out s) c (mb_recv s ++ [b])
    end
  end.
Definition mrun {A} (max : nat) (s : batcher A) (os : list (mop A)) : batcher A := fold_left (mstep max) os s.

(** *** MessageDebouncer, batching.rs:210-462.  Keys and notifications are numbers; [wait k] is the
    configured wait of a key (329-334). *)
Inductive task :=
| Sleeping (k : nat) (due : Z)       (* 356-357: woken at its due time or later *)
| Holding (k : nat) (n : nat)        (* 366-367: took the notification, the channel is full *)
| Finishing (k : nat).               (* 370-372 *)
Record debouncer := MkDeb {
  d_pending : gmap nat nat; d_timers : gmap nat nat; d_tasks : gmap nat task; d_next : nat; d_chan : list nat; d_recv : list nat }.
Definition debouncer_new : debouncer := MkDeb ∅ ∅ ∅ 0 [] [].
(** add, 336-339 *)
Definition d_insert (k n : nat) (s : debouncer) : debouncer :=
  MkDeb (<[k := n]> (d_pending s)) (d_timers s) (d_tasks s) (d_next s) (d_chan s) (d_recv s).
(** add, 342-347: an aborted task disappears (it is waiting: asleep, for room or for a lock) *)
Definition d_cancel (k : nat) (s : debouncer) : debouncer :=
  match d_timers s !! k with
  | Some t => MkDeb (d_pending s) (delete k (d_timers s)) (delete t (d_tasks s)) (d_next s) (d_chan s) (d_recv s)
  | None => s
  end.
(** add, 349-373: the new task *)
Definition d_spawn (wait : nat → Z) (k : nat) (now : Z) (s : debouncer) : debouncer :=
  MkDeb (d_pending s) (d_timers s) (<[d_next s := Sleeping k (now + wait k)]> (d_tasks s)) (S (d_next s)) (d_chan s) (d_recv s).
(** add, 376-379: storing the handle; a replaced handle is dropped, its task goes on *)
Definition d_store (k t : nat) (s : debouncer) : debouncer :=
  MkDeb (d_pending s) (<[k := t]> (d_timers s)) (d_tasks s) (d_next s) (d_chan s) (d_recv s).
(** The task wakes up, 359-367, and sends at once if there is room. *)
Definition d_fire (t : nat) (now : Z) (s : debouncer) : debouncer * option (nat * nat) :=
  match d_tasks s !! t with
  | Some (Sleeping k due) =>
    if bool_decide (due ≤ now) then
      match d_pending s !! k with
      | Some n =>
        if bool_decide (length (d_chan s) < capacity)%nat
        then (MkDeb (delete k (d_pending s)) (d_timers s) (<[t := Finishing k]> (d_tasks s)) (d_next s) (d_chan s ++ [n]) (d_recv s), Some (k, n))
        else (MkDeb (delete k (d_pending s)) (d_timers s) (<[t := Holding k n]> (d_tasks s)) (d_next s) (d_chan s) (d_recv s), None)
      | None => (MkDeb (d_pending s) (d_timers s) (<[t := Finishing k]> (d_tasks s)) (d_next s) (d_chan s) (d_recv s), None)
      end
    else (s, None)
  | _ => (s, None)
  end.
(** Room became free for a blocked task (src/utils/batching.rs 326-390: the send at the end of the spawned task, resumed) *)
Definition d_unblock (t : nat) (s : debouncer) : debouncer * option (nat * nat) :=
  match d_tasks s !! t with
  | Some (Holding k n) =>
    if bool_decide (length (d_chan s) < capacity)%nat
    then (MkDeb (d_pending s) (d_timers s) (<[t := Finishing k]> (d_tasks s)) (d_next s) (d_chan s ++ [n]) (d_recv s), Some (k, n))
    else (s, None)
  | _ => (s, None)
  end.
(** The task ends, 370-372. *)
Definition d_finish (t : nat) (s : debouncer) : debouncer :=
  match d_tasks s !! t with
  | Some (Finishing k) => MkDeb (d_pending s) (delete k (d_timers s)) (delete t (d_tasks s)) (d_next s) (d_chan s) (d_recv s)
  | _ => s
  end.
(** flush, 450-462: its two locked parts *)
Definition d_abort_all (s : debouncer) : debouncer :=
  MkDeb (d_pending s) ∅ (foldr delete (d_tasks s) (map_to_list (d_timers s)).*2) (d_next s) (d_chan s) (d_recv s).
Definition d_drain (s : debouncer) : debouncer * gmap nat nat :=
  (MkDeb ∅ (d_timers s) (d_tasks s) (d_next s) (d_chan s) (d_recv s), d_pending s).
(** receive, 415-417 *)
Definition d_receive (s : debouncer) : debouncer :=
  match d_chan s with [] => s | n :: c => MkDeb (d_pending s) (d_timers s) (d_tasks s) (d_next s) c (d_recv s ++ [n]) end.
(** The parts as steps of any interleaving (drives batching.rs 326-450) *)
Inductive dstep_op :=
| DInsert (k n : nat) | DCancel (k : nat) | DSpawn (k : nat) (now : Z) | DStore (k t : nat)
| DFire (t : nat) (now : Z) | DUnblock (t : nat) | DFinish (t : nat) | DAbortAll | DDrain | DReceive.
Definition dstep (wait : nat → Z) (s : debouncer) (o : dstep_op) : debouncer :=
  match o with
  | DInsert k n => d_insert k n s | DCancel k => d_cancel k s | DSpawn k now => d_spawn wait k now s | DStore k t => d_store k t s
  | DFire t now => (d_fire t now s).1 | DUnblock t => (d_unblock t s).1 | DFinish t => d_finish t s
  | DAbortAll => d_abort_all s | DDrain => (d_drain s).1 | DReceive => d_receive s
  end.
(** Calls that do not overlap; a timer task that wakes up runs to its end (drives batching.rs 326-450) *)
Inductive dcall := CAdd (k n : nat) (now : Z) | CFire (t : nat) (now : Z) | CFlush | CReceive.
(** What a call delivers: to the channel, or as the result of flush (batching.rs 410-465) *)
Inductive dout := ONone | OSent (k n : nat) | OFlushed (m : gmap nat nat).
Definition dcall_step (wait : nat → Z) (s : debouncer) (c : dcall) : debouncer * dout :=
  match c with
  | CAdd k n now =>
    let s := d_cancel k (d_insert k n s) in
    (d_store k (d_next s) (d_spawn wait k now s), ONone)
  | CFire t now =>
    let '(s, r) := d_fire t now s in
    (d_finish t s, match r with Some (k, n) => OSent k n | None => ONone end)
  | CFlush => let '(s, m) := d_drain (d_abort_all s) in (s, OFlushed m)
  | CReceive => (d_receive s, ONone)
  end.
Fixpoint drun (wait : nat → Z) (s : debouncer) (cs : list dcall) : debouncer * list (dcall * dout) :=
  match cs with
  | [] => (s, [])
  | c :: cs => let '(s, r) := dcall_step wait s c in let '(s, rs) := drun wait s cs in (s, (c, r) :: rs)
  end.
