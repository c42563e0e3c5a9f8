(** A batch whose handlers share a state: process_batch_parallel_stateful, src/utils/parallel_batch.rs:258-279.
    Definitions only. *)
From stdpp Require Import gmap strings list.
From Verif Require Import ListLib ProtocolModel BatchModel.

Section shared.
  Context {S : Type}.
  (** A handler works on the state through an Arc<RwLock<S>> (parallel_batch.rs:260, 265): what it does is a sequence of
      sections, each under the write lock, and then it replies.  [secs q]: the sections for a request; [reply q seen]: the reply, from the
      states the sections found.  What a handler does between its sections does not matter to others. *)
  Record shandler := MkSHandler { secs : brequest → list (S → S); reply : brequest → list S → bresponse }.
  (** The shared state, the states each handler's sections have found, the batch itself (parallel_batch.rs:134-183), and the sections run so
      far, in order (request, section) *)
  Record sstate := MkSState { s_shared : S; s_seen : list (list S); s_batch : bstate; s_ran : list (nat * nat) }.
  (** process_batch_parallel_stateful, 258-279: the state is only handed to the handlers *)
  Definition sinit (cfg : bconfig) (x : S) (reqs : list brequest) : sstate := MkSState x ((λ _, []) <$> reqs) (binit cfg reqs) [].
  (** What the scheduler lets happen: a handler is called (147-150), runs its next section, replies (160-161, 177) or is cut off by the
      timeout (162-174), which drops its future between two sections *)
  Inductive sstep := SStart (i : nat) | SSection (i : nat) | SReply (i : nat) | STimeout (i : nat).
  Definition sexec (cfg : bconfig) (h : shandler) (reqs : list brequest) (s : sstate) (o : sstep) : option sstate :=
    match o with
    | SStart i => b ← bexec cfg (s_batch s) (Start i); Some (MkSState (s_shared s) (s_seen s) b (s_ran s))
    | SSection i =>
      match stats (s_batch s) !! i, reqs !! i, s_seen s !! i with
      | Some Running, Some q, Some l =>
        match secs h q !! length l with
        | Some f => Some (MkSState (f (s_shared s)) (<[i := l ++ [s_shared s]]> (s_seen s)) (s_batch s) (s_ran s ++ [(i, length l)]))
        | None => None
        end
      | _, _, _ => None
      end
    | SReply i =>
      match reqs !! i, s_seen s !! i with
      | Some q, Some l =>
        if decide (length l = length (secs h q)) then
          b ← bexec cfg (s_batch s) (Finish i (reply h q l)); Some (MkSState (s_shared s) (s_seen s) b (s_ran s))
        else None
      | _, _ => None
      end
    | STimeout i => b ← bexec cfg (s_batch s) (TimeoutAt i); Some (MkSState (s_shared s) (s_seen s) b (s_ran s))
    end.
  Fixpoint sruns (cfg : bconfig) (h : shandler) (reqs : list brequest) (s : sstate) (sched : list sstep) : option sstate :=
    match sched with
    | [] => Some s
    | o :: sched => match sexec cfg h reqs s o with Some s' => sruns cfg h reqs s' sched | None => None end
    end.
End shared.
Global Arguments shandler : clear implicits.
Global Arguments sstate : clear implicits.
