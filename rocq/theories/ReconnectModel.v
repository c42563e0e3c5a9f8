(** Reconnection and middleware chains: src/shared/reconnect.rs, src/shared/middleware.rs.
    Definitions only. *)
From stdpp Require Import base numbers list.
From Coq Require Import QArith.
Local Open Scope Q_scope.

(** *** calculate_delay, reconnect.rs:250-278.  An f64 is a rational, infinite or not a number; each
    operation on finite values is the exact one followed by a rounding function [rnd] (the theorems
    are for every monotone one).  A finite product too large for an f64 is left finite: the next step
    caps it anyway.  [pow] is growth_factor.powi(retry_count), [r] the clock's nanoseconds divided by
    10^9.  The growth factor is not negative and the jitter factor is finite. *)
Inductive xf := Fin (q : Q) | Inf | NaN.
Section delay.
  Context (rnd : Q → Q).
  Definition times_pow (a : Q) (p : xf) : xf :=
    match p with
    | Fin q => Fin (rnd (a * q))
    | Inf => if Qeq_bool a 0 then NaN else Inf
    | NaN => NaN
    end.
  (** f64::min returns the other argument for NaN *)
  Definition cap (x : xf) (m : Q) : Q := match x with Fin q => if Qle_bool q m then q else m | Inf | NaN => m end.
  (** Duration::from_secs_f64 panics (None) from 2^64 on; its rounding to nanoseconds is left out *)
  Definition calculate_delay (initial maxd : Q) (pow : xf) (jitter r : Q) : option Q :=
    let capped := cap (times_pow initial pow) maxd in
    let range := rnd (capped * jitter) in
    let j := rnd (rnd (r * range) * 2 - range) in
    let d := rnd (capped + j) in
    let final := if Qle_bool 0 d then d else 0 in
    if Qle_bool (inject_Z (2 ^ 64)) final then None else Some final.
End delay.

Local Open Scope Z_scope.
(** *** ReconnectConfig and ReconnectManager, 16-110.  Counters do not wrap; times are integers. *)
Record rconfig := MkRconfig { rc_max : option nat; rc_reset : bool; rc_threshold : Z; rc_breaker : option nat; rc_timeout : Z }.
Inductive cstate := Disconnected | Connecting | Connected | WaitingRetry | CircuitOpen.
Record manager := MkManager {
  m_state : cstate; m_retry : nat; m_fail : nat; m_attempts : nat; m_successes : nat;
  m_last : option Z; m_opened : option Z; m_enabled : bool }.
(** new, 176-190 *)
Definition manager_new : manager := MkManager Disconnected 0 0 0 0 None None true.
Section manager.
  Context (c : rconfig).
  (** should_reconnect, 209-247 *)
  Definition should_reconnect (now : Z) (s : manager) : bool * manager :=
    if m_enabled s then
      match m_state s with
      | Connected | Connecting => (false, s)
      | CircuitOpen =>
        match m_opened s with
        | Some t =>
          if bool_decide (rc_timeout c ≤ now - t)
          then (true, MkManager Disconnected (m_retry s) (m_fail s) (m_attempts s) (m_successes s) (m_last s) None (m_enabled s))
          else (false, s)
        | None => (false, s)
        end
      | _ => (match rc_max c with Some m => bool_decide (m_retry s < m)%nat | None => true end, s)
      end
    else (false, s).
  (** on_connecting, 281-293 *)
  Definition on_connecting (s : manager) : manager :=
    MkManager Connecting (m_retry s) (m_fail s) (S (m_attempts s)) (m_successes s) (m_last s) (m_opened s) (m_enabled s).
  (** on_connected, 296-312 *)
  Definition on_connected (now : Z) (s : manager) : manager :=
    MkManager Connected (if rc_reset c then 0%nat else m_retry s) 0 (m_attempts s) (S (m_successes s)) (Some now) (m_opened s) (m_enabled s).
  (** on_connection_failed, 315-341 *)
  Definition on_failed (now : Z) (s : manager) : manager :=
    let f := S (m_fail s) in
    if match rc_breaker c with Some k => bool_decide (k ≤ f)%nat | None => false end
    then MkManager CircuitOpen (S (m_retry s)) f (m_attempts s) (m_successes s) (m_last s) (Some now) (m_enabled s)
    else MkManager WaitingRetry (S (m_retry s)) f (m_attempts s) (m_successes s) (m_last s) (m_opened s) (m_enabled s).
  (** on_disconnected, 344-358 *)
  Definition on_disconnected (now : Z) (s : manager) : manager :=
    let long := match m_state s, m_last s with Connected, Some t => bool_decide (rc_threshold c ≤ now - t) | _, _ => false end in
    MkManager Disconnected (if long then 0%nat else m_retry s) (m_fail s) (m_attempts s) (m_successes s) (m_last s) (m_opened s) (m_enabled s).
  (** set_enabled, 198-200; reset, 408-411 *)
  Definition set_enabled (b : bool) (s : manager) : manager :=
    MkManager (m_state s) (m_retry s) (m_fail s) (m_attempts s) (m_successes s) (m_last s) (m_opened s) b.
  Definition reset (s : manager) : manager :=
    MkManager (m_state s) 0 0 (m_attempts s) (m_successes s) (m_last s) (m_opened s) (m_enabled s).
  (** A history of calls that do not overlap; the answers of should_reconnect are collected. *)
  (** drives src/shared/reconnect.rs 199-220, 281-360, 407-415 *)
  Inductive call := Should (now : Z) | OnConnecting | OnConnected (now : Z) | OnFailed (now : Z) | OnDisconnected (now : Z) | Enable (b : bool) | Reset.
  Definition cstep (s : manager) (o : call) : option bool * manager :=
    match o with
    | Should now => let '(a, s) := should_reconnect now s in (Some a, s)
    | OnConnecting => (None, on_connecting s)
    | OnConnected now => (None, on_connected now s)
    | OnFailed now => (None, on_failed now s)
    | OnDisconnected now => (None, on_disconnected now s)
    | Enable b => (None, set_enabled b s)
    | Reset => (None, reset s)
    end.
  Fixpoint crun (s : manager) (os : list call) : list (option bool) * manager :=
    match os with
    | [] => ([], s)
    | o :: os => let '(a, s) := cstep s o in let '(r, s) := crun s os in (a :: r, s)
    end.

  (** reconnect_with, 361-394.  The i-th call of connect succeeds or fails; [t0 i], [t1 i], [t2 i] are
      the clock readings of the check before it, of its end and of the check after it.  A sleep is
      recorded by the retry count its length is calculated from.  None: the loop is still going after
      [fuel] turns. *)
  Inductive rresult := ROk | RLimit | RError (i : nat).
  Section with_connect.
    Context (connect : nat → bool) (t0 t1 t2 : nat → Z).
    Fixpoint reconnect_with (fuel : nat) (i : nat) (s : manager) : option (rresult * nat * list nat * manager) :=
      match fuel with
      | O => None
      | S fuel =>
        let '(ok, s) := should_reconnect (t0 i) s in
        if ok then
          let s := on_connecting s in
          if connect i then Some (ROk, S i, [], on_connected (t1 i) s)
          else
            let s := on_failed (t1 i) s in
            let '(ok, s) := should_reconnect (t2 i) s in
            if ok then
              match reconnect_with fuel (S i) s with
              | Some (r, n, w, s') => Some (r, n, m_retry s :: w, s')
              | None => None
              end
            else Some (RError i, S i, [], s)
        else Some (RLimit, i, [], s)
      end.
  End with_connect.
End manager.

(** *** Middleware, middleware.rs:65-88, and MiddlewareChain, 140-204.  A hook takes the message and
    gives what it left in it and its error, if any; the two hooks that see the message by shared
    reference cannot change it. *)
Record middleware (Q R T E : Type) := MkMiddleware {
  on_request : Q → Q * option E; on_response : R → R * option E; on_send : T → option E; on_receive : T → option E }.
Arguments on_request {_ _ _ _}. Arguments on_response {_ _ _ _}. Arguments on_send {_ _ _ _}. Arguments on_receive {_ _ _ _}. Arguments MkMiddleware {_ _ _ _}.
(** A loop of [hook(message).await?]: the messages the hooks saw, the message left, the result. *)
(** src/shared/middleware.rs 175-177, 183-185, 191-193, 199-201 *)
Fixpoint chain_loop {M E} (hooks : list (M → M * option E)) (m : M) : list M * M * option E :=
  match hooks with
  | [] => ([], m, None)
  | f :: fs =>
    match f m with
    | (m', Some e) => ([m], m', Some e)
    | (m', None) => let '(seen, m'', r) := chain_loop fs m' in (m :: seen, m'', r)
    end
  end.
Section chain.
  Context {Q R T E : Type}.
  Notation chain := (list (middleware Q R T E)).
  (** add, 168-170; process_request, 173-178; process_response, 181-186; process_send, 189-194; process_receive, 197-202 *)
  Definition chain_add (x : middleware Q R T E) (c : chain) : chain := c ++ [x].
  Definition process_request (c : chain) : Q → list Q * Q * option E := chain_loop (on_request <$> c).
  Definition process_response (c : chain) : R → list R * R * option E := chain_loop (on_response <$> c).
  Definition process_send (c : chain) (t : T) : list T * T * option E := chain_loop ((λ x t, (t, on_send x t)) <$> c) t.
  Definition process_receive (c : chain) (t : T) : list T * T * option E := chain_loop ((λ x t, (t, on_receive x t)) <$> c) t.
End chain.
