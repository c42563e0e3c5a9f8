(** Properties C01 and C02. *)
From stdpp Require Import gmap strings list.
From Verif Require Import ProtocolModel ProtocolSpec ProtocolProofs.

(** C01, safety: whatever was called before and after, and whatever the runtime scheduled, a
    value found in the receiver of the registration [Register id] is the response of the first
    completion of this very id that followed it, with no re-registration or cancellation of the
    id in between. *)
Theorem C01_response_matches_request : ∀ t before id later r,
  p_inbox (run (init t) (before ++ Register id :: later)) !! registrations before = Some r →
  fate_of t id later = Answered r.
Proof. exact delivered_is_fate. Qed.
Print Assumptions C01_response_matches_request.

(** C01, liveness: once the spawned tasks have run, the answered request has its response. *)
Theorem C01_response_delivered : ∀ t before id later r,
  fate_of t id later = Answered r →
  p_tasks (run (init t) (before ++ Register id :: later)) = [] →
  p_inbox (run (init t) (before ++ Register id :: later)) !! registrations before = Some r.
Proof. exact fate_is_delivered. Qed.
Print Assumptions C01_response_delivered.

(** ... and the runtime can always run them to completion. *)
Theorem C01_tasks_drain : ∀ s,
  ∃ h, (∀ o, o ∈ h → ∃ k, o = RunTask k) ∧ p_tasks (run s h) = [].
Proof. exact drain. Qed.
Print Assumptions C01_tasks_drain.

(** C01, frame: a request stays pending exactly as long as nothing about its own id happened. *)
Theorem C01_pending_iff_waiting : ∀ t before id later,
  fate_of t id later = Waiting ↔
  ∃ id' t', p_pending (run (init t) (before ++ Register id :: later)) !! id'
            = Some (t', registrations before).
Proof. exact pending_iff_waiting. Qed.
Print Assumptions C01_pending_iff_waiting.

(** C02: a response for another transport is invisible in every history. *)
Theorem C02_wrong_transport_invisible : ∀ t h1 h2 id r t',
  t' ≠ t → run (init t) (h1 ++ CompleteFor id r t' :: h2) = run (init t) (h1 ++ h2).
Proof. exact wrong_transport_invisible. Qed.
Print Assumptions C02_wrong_transport_invisible.

(** C02: the returned boolean says whether the request was completed; an unknown id or a wrong
    transport returns [false] and changes nothing, otherwise exactly this id leaves the table. *)
Theorem C02_complete_for_transport : ∀ t h id r t',
  let s := run (init t) h in
  (p_pending s !! id = None ∨ t' ≠ t → complete_for s id r t' = (s, false)) ∧
  (is_Some (p_pending s !! id) ∧ t' = t →
     snd (complete_for s id r t') = true ∧
     p_pending (fst (complete_for s id r t')) = delete id (p_pending s)).
Proof. exact complete_for_spec. Qed.
Print Assumptions C02_complete_for_transport.

Theorem C02_complete_request : ∀ t h id r,
  let s := run (init t) h in
  p_pending (complete s id r) = delete id (p_pending s) ∧
  (p_pending s !! id = None → complete s id r = s).
Proof. exact complete_spec. Qed.
Print Assumptions C02_complete_request.

(** Non-vacuity: two requests share the table, answers arrive swapped, once with a wrong
    transport, and tasks run in reverse order. *)
Example C01_example :
  let h := [Register (RNumber 1); Register (RString "a"%string);
            CompleteFor (RNumber 1) (MkResp (RNumber 1) 7) "other"%string;
            Complete (RString "a"%string) (MkResp (RString "a"%string) 8);
            Complete (RNumber 1) (MkResp (RNumber 1) 9); RunTask 1; RunTask 0] in
  p_inbox (run (init "t"%string) h) !! 0 = Some (MkResp (RNumber 1) 9) ∧
  p_inbox (run (init "t"%string) h) !! 1 = Some (MkResp (RString "a"%string) 8) ∧
  p_tasks (run (init "t"%string) h) = [] ∧
  fate_of "t"%string (RNumber 1) (tail h) = Answered (MkResp (RNumber 1) 9).
Proof. vm_compute. done. Qed.
