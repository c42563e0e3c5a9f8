(** Model of /repo/src/shared/event_store.rs: the in-memory event store and the resumption
    manager.  Definitions only.  Timestamps are integers (milliseconds); message bodies are opaque;
    [Utc::now()] and [Uuid::new_v4()] are inputs of the operations. *)
From stdpp Require Import gmap strings list.

(** [MessageDirection], event_store.rs:61-67. *)
Inductive direction := Inbound | Outbound.
Global Instance direction_eq_dec : EqDecision direction.
Proof. solve_decision. Defined.

(** [StoredEvent], event_store.rs:44-58. *)
Record event := MkEvent {
  ev_id : string; ev_ts : Z; ev_msg : nat; ev_dir : direction; ev_session : string; ev_seq : N
}.

(** [ResumptionState], event_store.rs:88-98 ([pending_requests] is always empty). *)
Record rstate := MkRState { rs_session : string; rs_last : string; rs_next : N }.

(** [InMemoryEventStore], event_store.rs:102-107; [max_events] and [max_age] are parameters. *)
Record store := MkStore { st_events : list event; st_tokens : gmap string rstate }.
Definition store0 : store := MkStore [] ∅.

(** [while let Some(event) = events.front() { if event.timestamp < t ... }],
    event_store.rs:130-136 and 178-184. *)
Fixpoint pop_older (t : Z) (l : list event) : list event :=
  match l with
  | e :: l' => if decide (ev_ts e < t)%Z then pop_older t l' else e :: l'
  | [] => []
  end.

(** [cleanup], event_store.rs:120-137: first [while events.len() > max_events { pop_front }]. *)
Definition cleanup (max_events : nat) (max_age now : Z) (l : list event) : list event :=
  pop_older (now - max_age) (drop (length l - max_events) l).

(** Atomic store-level steps.  [store_event] (141-148) is [SPush] followed by [SCleanup]: the two
    take the lock separately, so other callers' steps may come in between. *)
Inductive sop :=
| SPush (e : event)                       (* event_store.rs:142-145 *)
| SCleanup (now : Z)                      (* event_store.rs:146, 120-137 *)
| SClear (t : Z)                          (* event_store.rs:174-187 *)
| SToken (tok : string).                  (* event_store.rs:189-214, [tok] is the fresh uuid *)

(** [create_resumption_token], event_store.rs:189-214: [None] is the "No events" error.
    [expires_at] is only put in the returned token, not kept in the store. *)
Definition token_state (s : store) : option rstate :=
  match last (st_events s) with
  | Some e => Some (MkRState (ev_session e) (ev_id e) (ev_seq e + 1))
  | None => None
  end.

Definition sstep (max_events : nat) (max_age : Z) (s : store) (o : sop) : store :=
  match o with
  | SPush e => MkStore (st_events s ++ [e]) (st_tokens s)
  | SCleanup now => MkStore (cleanup max_events max_age now (st_events s)) (st_tokens s)
  | SClear t => MkStore (pop_older t (st_events s)) (st_tokens s)
  | SToken tok =>
      match token_state s with
      | Some r => MkStore (st_events s) (<[tok := r]> (st_tokens s))
      | None => s
      end
  end.
Definition sruns (max_events : nat) (max_age : Z) (h : list sop) : store :=
  fold_left (sstep max_events max_age) h store0.

(** The count returned by [clear_events_before], event_store.rs:176, 186. *)
Definition clear_count (t : Z) (s : store) : nat :=
  length (st_events s) - length (pop_older t (st_events s)).

(** [position(|e| e.id == event_id)], event_store.rs:159-162. *)
Fixpoint position (id : string) (l : list event) : option nat :=
  match l with
  | [] => None
  | e :: l' => if decide (ev_id e = id) then Some 0 else S <$> position id l'
  end.

(** [get_events_since], event_store.rs:151-167. *)
Definition get_events_since (s : store) (id : string) (limit : option nat) : list event :=
  let start := match position id (st_events s) with Some i => i + 1 | None => 0 end in
  let rest := drop start (st_events s) in
  match limit with Some n => take n rest | None => rest end.

(** [get_latest_event_id], event_store.rs:169-172. *)
Definition get_latest_event_id (s : store) : option string := ev_id <$> last (st_events s).

(** [validate_resumption_token], event_store.rs:216-219; the current time is not looked at. *)
Definition validate_token (s : store) (now : Z) (tok : string) : option rstate := st_tokens s !! tok.

(** [get_pending_events], event_store.rs:313-324. *)
Definition get_pending_events (s : store) (id : string) : list event :=
  filter (λ e, ev_dir e = Outbound) (get_events_since s id None).

(** ** [ResumptionManager], event_store.rs:223-310: several managers (named by a number, each with
    its session) share one store.  [record_outbound]/[record_inbound] take a sequence number
    ([MTake]), then push the event ([MPush]), then clean up; task [t] is one such call in
    progress. *)
Inductive mop :=
| MTake (t : nat) (m : nat)                                     (* 249-254, 270-275 *)
| MPush (t : nat) (id : string) (ts : Z) (msg : nat) (d : direction) (* 256-265, 277-286 *)
| MCleanup (now : Z)
| MClear (t : Z)
| MToken (tok : string)                                         (* 291-293 *)
| MResume (m : nat) (tok : string) (now : Z).                   (* 296-310 *)

Record world := MkWorld {
  w_store : store;
  w_counter : gmap nat N;          (* sequence_counter of each manager; absent means 0 *)
  w_tasks : gmap nat (nat * N)     (* record calls between taking a number and storing *)
}.
(** src/shared/event_store.rs 110-120, 240-246: empty store, no manager has counted *)
Definition world0 : world := MkWorld store0 ∅ ∅.

Definition counter (w : world) (m : nat) : N := default 0%N (w_counter w !! m).

(** event_store.rs 249-288: record_outbound and record_inbound as a take and a store *)
Definition mstep (max_events : nat) (max_age : Z) (sess : nat → string) (w : world) (o : mop) : world :=
  match o with
  | MTake t m =>
      match w_tasks w !! t with
      | Some _ => w
      | None => MkWorld (w_store w) (<[m := (counter w m + 1)%N]> (w_counter w))
                        (<[t := (m, counter w m)]> (w_tasks w))
      end
  | MPush t id ts msg d =>
      match w_tasks w !! t with
      | Some (m, q) =>
          MkWorld (sstep max_events max_age (w_store w) (SPush (MkEvent id ts msg d (sess m) q)))
                  (w_counter w) (delete t (w_tasks w))
      | None => w
      end
  | MCleanup now => MkWorld (sstep max_events max_age (w_store w) (SCleanup now)) (w_counter w) (w_tasks w)
  | MClear t => MkWorld (sstep max_events max_age (w_store w) (SClear t)) (w_counter w) (w_tasks w)
  | MToken tok => MkWorld (sstep max_events max_age (w_store w) (SToken tok)) (w_counter w) (w_tasks w)
  | MResume m tok now =>
      match validate_token (w_store w) now tok with
      | Some r => MkWorld (w_store w) (<[m := rs_next r]> (w_counter w)) (w_tasks w)
      | None => w
      end
  end.
Definition mruns max_events max_age sess (h : list mop) : world :=
  fold_left (mstep max_events max_age sess) h world0.

(** The number an [MTake] hands out (observable as the [sequence] of the stored event) (event_store.rs 249-288) *)
Definition taken (w : world) (m : nat) (o : mop) : option N :=
  match o with
  | MTake t m' => if decide (m' = m) then
                    match w_tasks w !! t with None => Some (counter w m) | Some _ => None end
                  else None
  | _ => None
  end.
Fixpoint taken_by max_events max_age sess (m : nat) (w : world) (h : list mop) : list N :=
  match h with
  | [] => []
  | o :: h => option_list (taken w m o) ++
              taken_by max_events max_age sess m (mstep max_events max_age sess w o) h
  end.

(** What [resume_from_token] returns, event_store.rs:306-309. *)
Definition resume_events (s : store) (now : Z) (tok : string) : option (list event) :=
  r ← validate_token s now tok; Some (get_events_since s (rs_last r) None).
