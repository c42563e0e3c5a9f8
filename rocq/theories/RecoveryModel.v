(** Retries, fallbacks and circuit breakers: src/error/recovery.rs.  Definitions only.
    Durations and clock readings are integers (nanoseconds). *)
From stdpp Require Import gmap strings list.
Local Open Scope Z_scope.

(** *** Errors and outcomes.  An error is its code, if it is Error::Protocol, and its text
    (src/error/mod.rs:918-923); values are opaque. *)
Record err := MkErr { e_code : option Z; e_text : string }.
Inductive outcome := Done (v : nat) | Fail (e : err).
Definition internal_error : Z := -32603.
Definition invalid_request : Z := -32600.
(** Error::internal, src/error/mod.rs:461-463 *)
Definition err_internal (s : string) : err := MkErr None s.

(** *** RecoveryStrategy, recovery.rs:44-80.  The f64 multiplication of a delay is an arbitrary
    function to whole nanoseconds; conversions between Duration and f64 are taken as exact (they are
    below 2^53 ns). *)
Inductive strategy :=
| RetryFixed (attempts : nat) (delay : Z)
| RetryExponential (attempts : nat) (initial maxd : Z) (mul : Z → Z)
| Fallback
| Breaker (failures successes : nat) (timeout : Z)
| FailFast.
(** RecoveryPolicy, 117-128 and new, add_strategy, get_strategy, 161-181 *)
Record policy := MkPolicy { p_strategies : gmap Z strategy; p_default : strategy }.
Definition policy_new (d : strategy) : policy := MkPolicy ∅ d.
Definition add_strategy (c : Z) (s : strategy) (p : policy) : policy := MkPolicy (<[c := s]> (p_strategies p)) (p_default p).
Definition get_strategy (p : policy) (c : Z) : strategy := default (p_default p) (p_strategies p !! c).
(** Default, 130-158 *)
Definition ms : Z := 1000000.
Definition policy_default : policy :=
  add_strategy invalid_request (RetryFixed 2 (500 * ms))
  (add_strategy internal_error (RetryExponential 3 (100 * ms) (5000 * ms) (λ d, 2 * d)) (policy_new FailFast)).

(** *** CircuitBreaker, 232-271 *)
Inductive cstate := Closed | Open | HalfOpen.
Record config := MkConfig { c_failures : nat; c_successes : nat; c_timeout : Z }.
Record breaker := MkBreaker { b_state : cstate; b_failures : nat; b_successes : nat; b_last : option Z; b_config : config }.
(** new, 305-313 *)
Definition breaker_new (c : config) : breaker := MkBreaker Closed 0 0 None c.
(** Each call first reads the state and then acts on what it read; the second part is separate so
    that calls can overlap.  allow_request, 336-359 *)
Definition allow_act (read : cstate) (now : Z) (b : breaker) : bool * breaker :=
  match read with
  | Closed | HalfOpen => (true, b)
  | Open =>
    match b_last b with
    | Some t =>
      if bool_decide (c_timeout (b_config b) ≤ now - t)
      then (true, MkBreaker HalfOpen (b_failures b) 0 (b_last b) (b_config b))
      else (false, b)
    | None => (false, b)
    end
  end.
(** record_success, 362-385 *)
Definition success_act (read : cstate) (b : breaker) : breaker :=
  match read with
  | Closed => MkBreaker (b_state b) 0 (b_successes b) (b_last b) (b_config b)
  | HalfOpen =>
    let n := S (b_successes b) in
    if bool_decide (c_successes (b_config b) ≤ n)%nat
    then MkBreaker Closed 0 n (b_last b) (b_config b)
    else MkBreaker (b_state b) (b_failures b) n (b_last b) (b_config b)
  | Open => MkBreaker Closed 0 (b_successes b) (b_last b) (b_config b)
  end.
(** record_failure, 388-413 *)
Definition failure_act (read : cstate) (now : Z) (b : breaker) : breaker :=
  match read with
  | Closed =>
    let n := S (b_failures b) in
    if bool_decide (c_failures (b_config b) ≤ n)%nat
    then MkBreaker Open n (b_successes b) (Some now) (b_config b)
    else MkBreaker (b_state b) n (b_successes b) (b_last b) (b_config b)
  | HalfOpen => MkBreaker Open 1 (b_successes b) (Some now) (b_config b)
  | Open => MkBreaker (b_state b) (b_failures b) (b_successes b) (Some now) (b_config b)
  end.
(** The calls when nothing overlaps (src/error/recovery.rs 336-360, 362-386, 388-420) *)
Definition allow_request (now : Z) (b : breaker) : bool * breaker := allow_act (b_state b) now b.
Definition record_success (b : breaker) : breaker := success_act (b_state b) b.
Definition record_failure (now : Z) (b : breaker) : breaker := failure_act (b_state b) now b.
(** A history of calls; the answers of allow_request are collected (drives src/error/recovery.rs 336-420) *)
Inductive bop := Allow (now : Z) | Success | Failure (now : Z).
Definition bstep (b : breaker) (o : bop) : option bool * breaker :=
  match o with
  | Allow now => let '(a, b) := allow_request now b in (Some a, b)
  | Success => (None, record_success b)
  | Failure now => (None, record_failure now b)
  end.
Fixpoint brun (b : breaker) (os : list bop) : list (option bool) * breaker :=
  match os with
  | [] => ([], b)
  | o :: os => let '(a, b) := bstep b o in let '(r, b) := brun b os in (a :: r, b)
  end.

(** *** RecoveryExecutor, 417-421.  The operation's i-th invocation ends with [op i] at clock
    reading [clock i].  A result is what is returned, the number of invocations and the sleeps. *)
Inductive final := Returned (o : outcome) | Panicked.
Record executor := MkExecutor { x_policy : policy; x_handlers : gmap string (string → outcome); x_breakers : gmap string breaker }.
Section execute.
  Context (op : nat → outcome) (clock : nat → Z).
  (** The loops of retry_fixed, 538-554, and retry_exponential, 577-603; [next] is None when
      Duration::from_secs_f64 panics (negative) *)
  Fixpoint retry_loop (next : Z → option Z) (attempts : nat) (d : Z) (i : nat) (last : err) : final * nat * list Z :=
    match attempts with
    | O => (Returned (Fail last), i, [])
    | S a =>
      match op i with
      | Done v => (Returned (Done v), S i, [d])
      | Fail e =>
        match next d with
        | None => (Panicked, S i, [d])
        | Some d' => let '(r, n, w) := retry_loop next a d' (S i) e in (r, n, d :: w)
        end
      end
    end.
  Definition retry_fixed (attempts : nat) (d : Z) (e : err) := retry_loop Some attempts d 1 e.
  Definition exp_next (maxd : Z) (mul : Z → Z) (d : Z) : option Z :=
    let n := Z.min (mul d) maxd in if bool_decide (n < 0) then None else Some n.
  Definition retry_exponential (attempts : nat) (initial maxd : Z) (mul : Z → Z) (e : err) :=
    retry_loop (exp_next maxd mul) attempts initial 1 e.
  (** fallback, 609-624 *)
  Definition fallback (x : executor) (msg : string) (id : string) : outcome :=
    match x_handlers x !! id with Some h => h msg | None => Fail (err_internal msg) end.
  (** circuit_breaker, 626-674: get or create, ask, call, record *)
  Definition open_error : err := MkErr (Some internal_error) "Circuit breaker is open".
  Definition with_breakers (x : executor) (m : gmap string breaker) : executor := MkExecutor (x_policy x) (x_handlers x) m.
  Definition guarded (x : executor) (id : string) (c : config) : final * nat * list Z * executor :=
    let b := default (breaker_new c) (x_breakers x !! id) in
    let '(ok, b) := allow_request (clock 0) b in
    if ok then
      match op 1%nat with
      | Done v => (Returned (Done v), 2%nat, [], with_breakers x (<[id := record_success b]> (x_breakers x)))
      | Fail e => (Returned (Fail e), 2%nat, [], with_breakers x (<[id := record_failure (clock 1) b]> (x_breakers x)))
      end
    else (Returned (Fail open_error), 1%nat, [], with_breakers x (<[id := b]> (x_breakers x))).
  (** execute_with_recovery, 458-521 *)
  Definition execute (x : executor) (id : string) : final * nat * list Z * executor :=
    match op 0%nat with
    | Done v =>
      (Returned (Done v), 1%nat, [],
       match x_breakers x !! id with
       | Some b => with_breakers x (<[id := record_success b]> (x_breakers x))
       | None => x end)
    | Fail e =>
      match get_strategy (x_policy x) (default internal_error (e_code e)) with
      | RetryFixed a d => (retry_fixed a d e, x)
      | RetryExponential a i m f => (retry_exponential a i m f e, x)
      | Fallback => (Returned (fallback x (e_text e) id), 1%nat, [], x)
      | Breaker f s t => guarded x id (MkConfig f s t)
      | FailFast => (Returned (Fail e), 1%nat, [], x)
      end
    end.
  (** with_retry, 698-723 *)
  Fixpoint with_retry_loop (attempts : nat) (d : Z) (i : nat) (last : option err) : outcome * nat * list Z :=
    match attempts with
    | O => (Fail (default (err_internal "No attempts made") last), i, [])
    | S a =>
      let w := if bool_decide (i = 0%nat) then [] else [d] in
      match op i with
      | Done v => (Done v, S i, w)
      | Fail e => let '(r, n, w') := with_retry_loop a d (S i) (Some e) in (r, n, w ++ w')
      end
    end.
  Definition with_retry (attempts : nat) (d : Z) := with_retry_loop attempts d 0 None.
End execute.
