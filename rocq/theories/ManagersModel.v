(** The server's managers: cancellation, subscriptions, roots, elicitation.  Definitions only.  Each
    step below holds one lock, so any interleaving of concurrent calls is a sequence of steps.  Hash
    maps and sets are finite maps and sets: nothing here depends on their iteration order. *)
From stdpp Require Import gmap strings list sorting.

(** *** CancellationManager, src/server/cancellation.rs:11-93.  Tokens are numbered in the order of
    creation; a clone of a token is the same token.  [k_taken] are the calls of cancel_request that
    have removed their token (40-43) and not yet cancelled it (45-59).  The notification sender is
    set. *)
Record canceller := MkCanceller {
  k_tokens : gmap string nat; k_next : nat; k_cancelled : gset nat; k_taken : list (nat * (string * string)); k_sent : list (string * string) }.
Definition canceller_new : canceller := MkCanceller ∅ 0 ∅ [] [].
Inductive kstep :=
| KCreate (id : string)                              (* create_token, 31-36 *)
| KTake (id : string) (reason : option string)       (* cancel_request, 39-43 *)
| KAct (i : nat)                                     (* cancel_request, 45-59, of the i-th such call *)
| KRemove (id : string)                              (* remove_token, 65-68 *)
| KClear                                             (* clear, 85-92 *)
| KOwn (t : nat).                                    (* a holder of the token cancels it: CancellationToken::cancel *)
(** src/server/cancellation.rs 54; k_step drives 31-90 *)
Definition default_reason : string := "Cancelled by server".
Definition k_step (s : canceller) (o : kstep) : canceller :=
  match o with
  | KCreate id => MkCanceller (<[id := k_next s]> (k_tokens s)) (S (k_next s)) (k_cancelled s) (k_taken s) (k_sent s)
  | KTake id r =>
    match k_tokens s !! id with
    | Some t => MkCanceller (delete id (k_tokens s)) (k_next s) (k_cancelled s) (k_taken s ++ [(t, (id, default default_reason r))]) (k_sent s)
    | None => s
    end
  | KAct i =>
    match k_taken s !! i with
    | Some (t, n) => MkCanceller (k_tokens s) (k_next s) ({[t]} ∪ k_cancelled s) (delete i (k_taken s)) (k_sent s ++ [n])
    | None => s
    end
  | KRemove id => MkCanceller (delete id (k_tokens s)) (k_next s) (k_cancelled s) (k_taken s) (k_sent s)
  | KClear => MkCanceller ∅ (k_next s) (list_to_set (map_to_list (k_tokens s)).*2 ∪ k_cancelled s) (k_taken s) (k_sent s)
  | KOwn t => MkCanceller (k_tokens s) (k_next s) ({[t]} ∪ k_cancelled s) (k_taken s) (k_sent s)
  end.
Definition k_run (os : list kstep) : canceller := fold_left k_step os canceller_new.
(** is_cancelled, 71-76, and get_token, 79-82 *)
Definition is_cancelled (s : canceller) (id : string) : bool :=
  match k_tokens s !! id with Some t => bool_decide (t ∈ k_cancelled s) | None => false end.
Definition get_token (s : canceller) (id : string) : option nat := k_tokens s !! id.

(** *** SubscriptionManager, src/server/subscriptions.rs:13-216 *)
Notation subscriptions := (gmap string (gset string)) (only parsing).
(** subscribe, 63-71 *)
Definition subscribe (s : subscriptions) (u c : string) : subscriptions := <[u := {[c]} ∪ default ∅ (s !! u)]> s.
(** unsubscribe, 79-89 *)
Definition unsubscribe (s : subscriptions) (u c : string) : subscriptions :=
  match s !! u with
  | Some cs => let cs := cs ∖ {[c]} in if decide (cs = ∅) then delete u s else <[u := cs]> s
  | None => s
  end.
(** unsubscribe_all, 98-117 *)
Definition unsubscribe_all (s : subscriptions) (c : string) : subscriptions :=
  filter (λ p : string * gset string, p.2 ≠ ∅) ((λ cs, cs ∖ {[c]}) <$> s).
(** has_subscribers, 124-127 *)
Definition has_subscribers (s : subscriptions) (u : string) : bool :=
  match s !! u with Some cs => negb (bool_decide (cs = ∅)) | None => false end.
(** get_subscriptions, 134-145 *)
Definition get_subscriptions (s : subscriptions) (c : string) : list string :=
  (filter (λ p : string * gset string, c ∈ p.2) (map_to_list s)).*1.
(** get_subscribers, 152-157 *)
Definition get_subscribers (s : subscriptions) (u : string) : list string := default [] (elements <$> s !! u).
(** notify_resource_updated, 168-189: the notifications sent and the count returned *)
Definition notify_updated (s : subscriptions) (u : string) : list string * nat :=
  match s !! u with
  | Some cs => if bool_decide (0 < size cs) then ([u], size cs) else ([], 0)
  | None => ([], 0)
  end.
(** get_stats, 192-216; the quotient of the two totals is left out *)
Definition stat_resources (s : subscriptions) : nat := size s.
Definition stat_subscriptions (s : subscriptions) : nat := sum_list (size <$> (map_to_list s).*2).
Definition stat_subscribers (s : subscriptions) : nat :=
  size (foldr (λ cs m, foldr (λ c m, <[c := S (default 0 (m !! c))]> m) m (elements cs)) (∅ : gmap string nat) (map_to_list s).*2).
Inductive sop := SSub (u c : string) | SUnsub (u c : string) | SGone (c : string).
Definition s_step (s : subscriptions) (o : sop) : subscriptions :=
  match o with SSub u c => subscribe s u c | SUnsub u c => unsubscribe s u c | SGone c => unsubscribe_all s c end.
Definition s_run (os : list sop) : subscriptions := fold_left s_step os ∅.

(** *** RootsManager, src/server/roots.rs:36-180.  The notification sender is set. *)
Record root := MkRoot { root_uri : string; root_name : option string }.
(** [r_closures]: the unregister functions returned so far, in order; None once called (they are
    FnOnce).  [r_sent] counts the notifications sent. *)
(** src/server/roots.rs 55-70; rop drives 93-175 *)
Record roots := MkRoots { r_roots : list root; r_closures : list (option string); r_sent : nat }.
Definition roots_new : roots := MkRoots [] [] 0.
Inductive rop :=
| RRegister (uri : string) (name : option string)
| RUnregister (i : nat).       (* the task spawned by the i-th unregister function runs *)
(** The first root with this URI is removed: 129-130 *)
Fixpoint remove_first (uri : string) (l : list root) : option (list root) :=
  match l with
  | [] => None
  | r :: l => if decide (root_uri r = uri) then Some l else cons r <$> remove_first uri l
  end.
Definition file_scheme : string := "file://".
(** register_root, 93-143; Some false is the error *)
Definition r_step (s : roots) (o : rop) : roots * bool :=
  match o with
  | RRegister uri name =>
    if String.prefix file_scheme uri
    then (MkRoots (r_roots s ++ [MkRoot uri name]) (r_closures s ++ [Some uri]) (S (r_sent s)), true)
    else (s, false)
  | RUnregister i =>
    match r_closures s !! i with
    | Some (Some uri) =>
      let cl := <[i := None]> (r_closures s) in
      match remove_first uri (r_roots s) with
      | Some l => (MkRoots l cl (S (r_sent s)), true)
      | None => (MkRoots (r_roots s) cl (r_sent s), true)
      end
    | _ => (s, false)
    end
  end.
Definition r_run (os : list rop) : roots := fold_left (λ s o, (r_step s o).1) os roots_new.

(** *** ElicitationManager, src/server/elicitation.rs:13-167, with a request channel set.  Calls of
    elicit_input are numbered; responses are numbered by the step that sends them. *)
Inductive answer := Response (id : string) (n : nat) | Cancelled (id : string).
Definition answer_id (a : answer) : string := match a with Response id _ => id | Cancelled id => id end.
(** The oneshot channel of a call: empty, holding an answer, or its sender dropped (src/server/elicitation.rs 59; outcome: the results of 53-105) *)
Inductive slot := Empty | Filled (a : answer) | Dropped.
Inductive outcome := Answered (a : answer) | TimedOut | ChannelClosed | SendFailed.
(** Where a call is: sending its request (70), waiting (82), past its timeout and about to remove its
    entry (96), about to remove it after a failed send (72), ended, or its future was dropped. *)
Inductive place := Sending | Waiting | Expired | Failing | Ended (o : outcome) | Abandoned.
Record caller := MkCaller { c_id : string; c_slot : slot; c_place : place }.
Record elicit := MkElicit { e_pending : gmap string nat; e_callers : gmap nat caller; e_next : nat; e_responses : nat }.
Definition elicit_new : elicit := MkElicit ∅ ∅ 0 0.
Inductive estep :=
| EStart (id : string)            (* 60-64 *)
| ESend (w : nat) (ok : bool)     (* 70 *)
| EFail (w : nat)                 (* 71-76 *)
| EWake (w : nat)                 (* 83-93 *)
| EExpire (w : nat)               (* 94: the oneshot was polled first and is still empty *)
| ETimeout (w : nat)              (* 95-101 *)
| ERespond (id : string)          (* handle_response, 107-125 *)
| ECancel (id : string)           (* cancel, 128-150 *)
| ECancelAll                      (* cancel_all, 153-166 *)
| EAbandon (w : nat).             (* the caller drops the future of elicit_input *)
(** No code of its own: reads and writes the places of the model *)
Definition place_of (s : elicit) (w : nat) : option place := c_place <$> e_callers s !! w.
Definition set_place (p : place) (c : caller) : caller := MkCaller (c_id c) (c_slot c) p.
(** The sender in the map sends, or is dropped; it does so at most once (src/server/elicitation.rs 107-165) *)
Definition set_slot (x : slot) (c : caller) : caller := MkCaller (c_id c) x (c_place c).
Definition drop_sender (id : string) (s : elicit) : gmap nat caller :=
  match e_pending s !! id with Some w => alter (set_slot Dropped) w (e_callers s) | None => e_callers s end.
(** The receiver is gone once the call has left its wait: the answer is lost (112-114). *)
Definition receive (a : answer) (c : caller) : caller :=
  match c_place c with Sending | Waiting => set_slot (Filled a) c | _ => set_slot Dropped c end.
Definition e_step (s : elicit) (o : estep) : elicit * bool :=
  match o with
  | EStart id =>
    (MkElicit (<[id := e_next s]> (e_pending s)) (<[e_next s := MkCaller id Empty Sending]> (drop_sender id s)) (S (e_next s)) (e_responses s), true)
  | ESend w ok =>
    match place_of s w with
    | Some Sending => (MkElicit (e_pending s) (alter (set_place (if ok then Waiting else Failing)) w (e_callers s)) (e_next s) (e_responses s), true)
    | _ => (s, false)
    end
  | EFail w =>
    match e_callers s !! w with
    | Some (MkCaller id _ Failing) =>
      (MkElicit (delete id (e_pending s)) (alter (set_place (Ended SendFailed)) w (drop_sender id s)) (e_next s) (e_responses s), true)
    | _ => (s, false)
    end
  | EWake w =>
    match e_callers s !! w with
    | Some (MkCaller _ (Filled a) Waiting) => (MkElicit (e_pending s) (alter (set_place (Ended (Answered a))) w (e_callers s)) (e_next s) (e_responses s), true)
    | Some (MkCaller _ Dropped Waiting) => (MkElicit (e_pending s) (alter (set_place (Ended ChannelClosed)) w (e_callers s)) (e_next s) (e_responses s), true)
    | _ => (s, false)
    end
  | EExpire w =>
    match e_callers s !! w with
    | Some (MkCaller _ Empty Waiting) => (MkElicit (e_pending s) (alter (set_place Expired) w (e_callers s)) (e_next s) (e_responses s), true)
    | _ => (s, false)
    end
  | ETimeout w =>
    match e_callers s !! w with
    | Some (MkCaller id _ Expired) =>
      (MkElicit (delete id (e_pending s)) (alter (set_place (Ended TimedOut)) w (drop_sender id s)) (e_next s) (e_responses s), true)
    | _ => (s, false)
    end
  | ERespond id =>
    match e_pending s !! id with
    | Some w => (MkElicit (delete id (e_pending s)) (alter (receive (Response id (e_responses s))) w (e_callers s)) (e_next s) (S (e_responses s)), true)
    | None => (MkElicit (e_pending s) (e_callers s) (e_next s) (S (e_responses s)), false)
    end
  | ECancel id =>
    match e_pending s !! id with
    | Some w => (MkElicit (delete id (e_pending s)) (alter (receive (Cancelled id)) w (e_callers s)) (e_next s) (e_responses s), true)
    | None => (s, false)
    end
  | ECancelAll =>
    (MkElicit ∅ (foldr (λ p : string * nat, alter (receive (Cancelled p.1)) p.2) (e_callers s) (map_to_list (e_pending s))) (e_next s) (e_responses s), true)
  | EAbandon w =>
    match place_of s w with
    | Some Sending | Some Waiting | Some Expired | Some Failing =>
      (MkElicit (e_pending s) (alter (set_place Abandoned) w (e_callers s)) (e_next s) (e_responses s), true)
    | _ => (s, false)
    end
  end.
Definition e_run (os : list estep) : elicit := fold_left (λ s o, (e_step s o).1) os elicit_new.
(** pending_count, 169-171 *)
Definition pending_count (s : elicit) : nat := size (e_pending s).
