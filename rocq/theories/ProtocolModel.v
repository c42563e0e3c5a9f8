(** Model of the pending-request table of [Protocol]
    (/repo/src/shared/protocol.rs:86-275).  Definitions only. *)
From stdpp Require Import gmap strings list.

(** [RequestId], /repo/src/types/jsonrpc.rs:27-33: an untagged enum
    [String(String) | Number(i64)].  Integers are kept unbounded here; the table only
    compares ids. *)
Inductive reqid := RString (s : string) | RNumber (z : Z).

Global Instance reqid_eq_dec : EqDecision reqid.
Proof. solve_decision. Defined.
Global Instance reqid_countable : Countable reqid.
Proof.
  refine (inj_countable' (λ r, match r with RString s => inl s | RNumber z => inr z end)
                         (λ s, match s with inl s => RString s | inr z => RNumber z end) _).
  by intros [].
Defined.

(** [TransportId], protocol.rs:69-70 (an opaque string). *)
Notation tid := string (only parsing).

(** [JSONRPCResponse], types/jsonrpc.rs: only its identity matters to the table, so the
    payload is an opaque number; the response carries its own id, which the table never
    looks at. *)
(** src/types/jsonrpc.rs 205-214 *)
Record response := MkResp { resp_id : reqid; resp_payload : Z }.

(** A oneshot channel made by [register_request] is named by the number of earlier
    registrations. *)
Notation waiter := nat (only parsing).

(** The protocol instance (protocol.rs:97-106) together with the tasks spawned by the
    completion functions (protocol.rs:191-196, 258-263) that have not run yet and the
    values already put into the oneshot channels. *)
Record proto := MkProto {
  p_self    : tid;                          (* protocol.rs:105 transport_id *)
  p_pending : gmap reqid (tid * waiter);    (* protocol.rs:103 pending_requests *)
  p_next    : waiter;                       (* number of channels made so far *)
  p_tasks   : list (waiter * response);     (* spawned, not yet run *)
  p_inbox   : gmap waiter response          (* values sent through the oneshot *)
}.

(** [Protocol::with_transport_id], protocol.rs:154-160 ([new], 127-133, is the same with a
    random transport id). *)
Definition init (t : tid) : proto := MkProto t ∅ 0 [] ∅.

(** [register_request], protocol.rs:173-181: a fresh channel; [HashMap::insert] replaces an
    older entry of the same id (whose sender is dropped). *)
Definition register (s : proto) (id : reqid) : proto * waiter :=
  (MkProto (p_self s) (<[id := (p_self s, p_next s)]> (p_pending s))
           (S (p_next s)) (p_tasks s) (p_inbox s), p_next s).

(** [complete_request], protocol.rs:185-203.  Always [Ok(())]. *)
Definition complete (s : proto) (id : reqid) (r : response) : proto :=
  match p_pending s !! id with
  | Some (t, w) =>
      let removed := delete id (p_pending s) in
      if decide (t = p_self s)
      then MkProto (p_self s) removed (p_next s) (p_tasks s ++ [(w, r)]) (p_inbox s)
      else MkProto (p_self s) (<[id := (t, w)]> removed) (p_next s) (p_tasks s) (p_inbox s)
  | None => s
  end.

(** [complete_request_for_transport], protocol.rs:248-269; the boolean is the [Ok] value. *)
Definition complete_for (s : proto) (id : reqid) (r : response) (t' : tid) : proto * bool :=
  match p_pending s !! id with
  | Some (t, w) =>
      if decide (t = t')
      then (MkProto (p_self s) (delete id (p_pending s)) (p_next s)
                    (p_tasks s ++ [(w, r)]) (p_inbox s), true)
      else (s, false)
  | None => (s, false)
  end.

(** [cancel_request], protocol.rs:272-274. *)
Definition cancel (s : proto) (id : reqid) : proto :=
  MkProto (p_self s) (delete id (p_pending s)) (p_next s) (p_tasks s) (p_inbox s).

(** The runtime runs the [k]-th outstanding spawned task, in any order it likes
    (protocol.rs:191-196): the response goes into the channel. *)
Definition run_task (s : proto) (k : nat) : proto :=
  match p_tasks s !! k with
  | Some (w, r) =>
      MkProto (p_self s) (p_pending s) (p_next s) (delete k (p_tasks s)) (<[w := r]> (p_inbox s))
  | None => s
  end.

(** One call on the protocol object, or one scheduling decision of the runtime (drives src/shared/protocol.rs 173-280) *)
Inductive op :=
| Register (id : reqid)
| Complete (id : reqid) (r : response)
| CompleteFor (id : reqid) (r : response) (t : tid)
| Cancel (id : reqid)
| RunTask (k : nat).

Definition step (s : proto) (o : op) : proto :=
  match o with
  | Register id => fst (register s id)
  | Complete id r => complete s id r
  | CompleteFor id r t => fst (complete_for s id r t)
  | Cancel id => cancel s id
  | RunTask k => run_task s k
  end.

Definition run (s : proto) (h : list op) : proto := fold_left step h s.
