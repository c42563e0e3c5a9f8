(** Model of batch processing: /repo/src/shared/batch.rs, /repo/src/utils/parallel_batch.rs and
    /repo/src/server/batch.rs.  Definitions only. *)
From Coq Require Import QArith.
From stdpp Require Import gmap strings list sorting.
From Verif Require Import ListLib ProtocolModel.

(** [JSONRPCRequest] (types/jsonrpc.rs): id, method and opaque params (src/types/jsonrpc.rs 116-126) *)
Record brequest := MkBReq { bq_id : reqid; bq_method : string; bq_params : Z }.

(** [ResponsePayload] (types/jsonrpc.rs): the [data] of an error is dropped, results are opaque (src/types/jsonrpc.rs 205-226) *)
Inductive bpayload := PResult (v : Z) | PError (code : Z) (message : string).
Record bresponse := MkBResp { br_id : reqid; br_payload : bpayload }.

(** [ParallelBatchConfig], parallel_batch.rs:48-57. *)
Record bconfig := MkBConfig {
  max_concurrency : nat;
  fail_fast : bool;
  request_timeout_ms : option N
}.

(** [Default for ParallelBatchConfig], parallel_batch.rs:59-67. *)
Definition default_bconfig : bconfig := MkBConfig 10 false (Some 30000%N).

(** The response made when the per-request timeout elapses, parallel_batch.rs:163-173: its id is
    the string "null", not the id of the request. *)
Definition timeout_response : bresponse :=
  MkBResp (RString "null"%string) (PError (-32603) "Request timeout"%string).

(** State of one future of parallel_batch.rs:145-181. *)
Inductive tstat := Idle | Running | Done (r : bresponse).

(** The semaphore (parallel_batch.rs:134) and the futures (137-183). *)
Record bstate := MkBState { permits : nat; stats : list tstat }.

(** parallel_batch.rs:134-183: all futures are created, none polled. *)
Definition binit (cfg : bconfig) (reqs : list brequest) : bstate :=
  MkBState (max_concurrency cfg) ((λ _, Idle) <$> reqs).

(** Scheduler-visible events of the futures.
    [Start i]: future [i] obtains a permit and calls the handler (parallel_batch.rs:147-150); the
    order in which waiting futures obtain permits is left open (tokio is FIFO; the theorems hold
    for every order).
    [Finish i r]: the handler future of request [i] yields [r] (160-161, 177); the permit is
    released when the future is dropped.
    [Timeout i]: tokio::time::timeout fires (162-174); possible only if a timeout is set.
    [fail_fast] is never consulted. *)
Inductive bstep := Start (i : nat) | Finish (i : nat) (r : bresponse) | TimeoutAt (i : nat).

Definition bexec (cfg : bconfig) (s : bstate) (o : bstep) : option bstate :=
  match o with
  | Start i =>
      match stats s !! i, permits s with
      | Some Idle, S p => Some (MkBState p (<[i := Running]> (stats s)))
      | _, _ => None
      end
  | Finish i r =>
      match stats s !! i with
      | Some Running => Some (MkBState (S (permits s)) (<[i := Done r]> (stats s)))
      | _ => None
      end
  | TimeoutAt i =>
      match request_timeout_ms cfg, stats s !! i with
      | Some _, Some Running => Some (MkBState (S (permits s)) (<[i := Done timeout_response]> (stats s)))
      | _, _ => None
      end
  end.

Fixpoint bruns (cfg : bconfig) (s : bstate) (sched : list bstep) : option bstate :=
  match sched with
  | [] => Some s
  | o :: sched => match bexec cfg s o with Some s' => bruns cfg s' sched | None => None end
  end.

(** [join_all] returns when every future is done (parallel_batch.rs:186). *)
Definition done_response (t : tstat) : option bresponse :=
  match t with Done r => Some r | _ => None end.

Definition joined (s : bstate) : option (list (nat * bresponse)) :=
  mapM (λ p : nat * tstat, r ← done_response p.2; Some (p.1, r)) (imap pair (stats s)).

(** [sort_by_key] on the index and dropping the index, parallel_batch.rs:189-195. *)
Definition index_le (a b : nat * bresponse) : Prop := a.1 ≤ b.1.
Global Instance index_le_dec a b : Decision (index_le a b).
Proof. unfold index_le. apply _. Defined.
Definition sort_by_index (l : list (nat * bresponse)) : list (nat * bresponse) :=
  merge_sort index_le l.
Definition responses_of (l : list (nat * bresponse)) : list bresponse := (sort_by_index l).*2.

(** [BatchRequest] and [BatchResponse], shared/batch.rs (src/shared/batch.rs 14-29) *)
Inductive batch_request := SingleReq (r : brequest) | BatchReq (rs : list brequest).
Inductive batch_response := SingleResp (r : bresponse) | BatchResp (rs : list bresponse).

(** [BatchRequest::into_requests], shared/batch.rs (src/shared/batch.rs 50-55) *)
Definition into_requests (b : batch_request) : list brequest :=
  match b with SingleReq r => [r] | BatchReq rs => rs end.

(** [BatchResponse::from_responses], shared/batch.rs (src/shared/batch.rs 80-86) *)
Definition from_responses (rs : list bresponse) : batch_response :=
  match rs with
  | [] => BatchResp []
  | [r] => SingleResp r
  | _ => BatchResp rs
  end.

(** [process_batch_request], shared/batch.rs, as a relation: [out] is a possible result.  The
    parallel case allows every complete schedule and, beyond what [join_all] does, every order of
    the collected results. *)
(** src/shared/batch.rs 107-137 *)
Inductive process_batch (handled : brequest → bresponse → Prop) :
    batch_request → batch_response → Prop :=
| pb_empty : process_batch handled (BatchReq []) (BatchResp [])
| pb_one b q r : into_requests b = [q] → handled q r →
    process_batch handled b (from_responses [r])
| pb_many b sched s l l' :
    1 < length (into_requests b) →
    bruns default_bconfig (binit default_bconfig (into_requests b)) sched = Some s →
    (∀ i q r, Finish i r ∈ sched → into_requests b !! i = Some q → handled q r) →
    joined s = Some l → l' ≡ₚ l →
    process_batch handled b (from_responses (responses_of l')).

(** ** [BatchMetrics] and [BatchProcessor::process], parallel_batch.rs:363-441.
    The running average is an exact rational ([None] is NaN); u64 counters are unbounded. *)
Record metrics := MkMetrics {
  m_total : N; m_ok : N; m_err : N; m_timeout : N; m_avg : option Q; m_max : N
}.
(** [BatchMetrics::default()], parallel_batch.rs:363. *)
Definition metrics0 : metrics := MkMetrics 0 0 0 0 (Some 0%Q) 0.

(** [err.message.contains("timeout")], parallel_batch.rs:426. *)
Definition mentions_timeout (m : string) : bool :=
  contains (chars "timeout") (chars m).

(** The counting loop, parallel_batch.rs:420-433. *)
Definition count_response (m : metrics) (r : bresponse) : metrics :=
  match br_payload r with
  | PResult _ => MkMetrics (m_total m) (m_ok m + 1) (m_err m) (m_timeout m) (m_avg m) (m_max m)
  | PError _ msg =>
      if mentions_timeout msg
      then MkMetrics (m_total m) (m_ok m) (m_err m) (m_timeout m + 1) (m_avg m) (m_max m)
      else MkMetrics (m_total m) (m_ok m) (m_err m + 1) (m_timeout m) (m_avg m) (m_max m)
  end.

(** f64 division: 0/0 is NaN (the dividend is NaN or non-negative; a non-zero dividend over zero
    does not occur because the divisor is a total that is zero only for no requests). *)
Definition fdiv (a : option Q) (b : Q) : option Q :=
  match a with
  | None => None
  | Some a => if Qeq_bool b 0 then None else Some (a / b)%Q
  end.

(** parallel_batch.rs:413-440 after [process_batch_parallel] returned [rs] for [n] requests in
    [t] milliseconds. *)
Definition record_batch (m : metrics) (n : N) (t : N) (rs : list bresponse) : metrics :=
  let m1 := MkMetrics (m_total m + n) (m_ok m) (m_err m) (m_timeout m) (m_avg m) (N.max (m_max m) t) in
  let m2 := fold_left count_response rs m1 in
  let total_time := match m_avg m2 with
                    | Some a => Some (a * inject_Z (Z.of_N (m_total m2 - n)) + inject_Z (Z.of_N t))%Q
                    | None => None
                    end in
  MkMetrics (m_total m2) (m_ok m2) (m_err m2) (m_timeout m2)
            (fdiv total_time (inject_Z (Z.of_N (m_total m2)))) (m_max m2).

(** [rate_limited_processor], parallel_batch.rs:490-535, nanosecond clock: [n] permits, each held
    for [1s / n]; requests queue FIFO for permits.  [free] lists the times at which the permits
    become available, in order; the result lists the times at which requests pass the limiter. *)
Fixpoint rate_limited (interval : N) (free : list N) (nreqs : nat) : list N :=
  match nreqs, free with
  | S k, t :: rest => (t + interval)%N :: rate_limited interval (rest ++ [(t + interval)%N]) k
  | _, _ => []
  end.
Definition rate_limit_times (n : nat) (nreqs : nat) : list N :=
  rate_limited (1000000000 / N.of_nat n)%N (replicate n 0%N) nreqs.

(** ** Observations used in the statements (not in the code). *)
(** A handler call is in progress for this future (no code of its own: a future between the call at src/utils/parallel_batch.rs 150 and its result) *)
Definition is_running (t : tstat) : bool := match t with Running => true | _ => false end.

(** A history of [BatchProcessor::process] calls: elapsed time and responses of each (drives src/utils/parallel_batch.rs 395-440) *)
Definition batches := list (N * list bresponse).
Definition record_all (bs : batches) : metrics :=
  fold_left (λ m b, record_batch m (N.of_nat (length b.2)) b.1 b.2) bs metrics0.
