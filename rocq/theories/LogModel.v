(** Log entries, task-local request contexts and the runtime for browsers: src/shared/logging.rs,
    src/shared/context.rs:13-15, 196-206, src/shared/runtime.rs.  Definitions only. *)
From stdpp Require Import gmap list strings.
From Verif Require Import ListLib TextLib JsonLib RpcModel ContextModel.
Local Open Scope N_scope.

(** *** Scopes: RequestContext::run, context.rs:201-206, and current, 196-198.  A task is a number; tokio's
    scope makes the context current while the future runs and restores what was current before
    (tokio, not in /repo).  A new task has none. *)
Inductive event := EEnter (t : nat) (c : context) | ELeave (t : nat) | ESpawn (t new : nat) | ELog (t : nat) (level msg : list N).
Definition scopes (h : list event) (t : nat) : list context :=
  fold_left (λ s e, match e with
                    | EEnter t' c => if decide (t = t') then c :: s else s
                    | ELeave t' => if decide (t = t') then tail s else s
                    | ESpawn _ _ | ELog _ _ _ => s
                    end) h [].
Definition current (h : list event) (t : nat) : option context := head (scopes h t).

(** *** LogEntry, logging.rs:335-366, without the error details *)
Record entry := MkEntry { le_level : list N; le_msg : list N; le_request : option rid; le_trace : option (list N); le_span : option (list N);
  le_user : option (list N); le_session : option (list N); le_fields : gmap (list N) json }.
(** new, 386-410 *)
Definition new_entry (cur : option context) (level msg : list N) : entry :=
  match cur with
  | None => MkEntry level msg None None None None None ∅
  | Some c => MkEntry level msg (Some (request_id c)) (Some (trace_id c)) (Some (span_id c)) (user_id c) (session_id c) ∅
  end.
(** with_field, 413-416 *)
Definition with_field (e : entry) (k : list N) (v : json) : entry :=
  MkEntry (le_level e) (le_msg e) (le_request e) (le_trace e) (le_span e) (le_user e) (le_session e) (<[k := v]> (le_fields e)).
(** The entries a history logs (src/shared/logging.rs 386-440) *)
Definition logged (h : list event) (e : event) : option entry :=
  match e with ELog t level msg => Some (new_entry (current h t) level msg) | _ => None end.

(** log, 426-437.  to_lowercase for the letters A-Z: no other character becomes a letter of these words *)
Inductive level := Trace | Debug | Info | Warn | Error.
Definition lower (c : N) : N := if (65 <=? c) && (c <=? 90) then c + 32 else c.
Definition level_of (t : list N) : level :=
  let w := lower <$> t in
  if bool_decide (w = lit "trace") then Trace
  else if bool_decide (w = lit "debug") then Debug
  else if bool_decide (w = lit "info") then Info
  else if bool_decide (w = lit "warn") then Warn
  else if bool_decide (w = lit "error") then Error
  else Info.
(** The line: the derived Serialize, absent values as null; [time] is the timestamp as chrono writes it, [fields]
    the entries of the hash map in its order. *)
(** src/shared/logging.rs 335-367, 427 *)
Definition null_or (o : option json) : json := match o with Some v => v | None => JNull end.
Definition entry_json (time : list N) (e : entry) (fields : list (list N * json)) : json :=
  JObj [(lit "timestamp", JStr time); (lit "level", JStr (le_level e)); (lit "message", JStr (le_msg e));
        (lit "request_id", null_or (rid_json <$> le_request e)); (lit "trace_id", null_or (JStr <$> le_trace e)); (lit "span_id", null_or (JStr <$> le_span e));
        (lit "user_id", null_or (JStr <$> le_user e)); (lit "session_id", null_or (JStr <$> le_session e)); (lit "fields", JObj fields); (lit "error", JNull)].
Definition log_line (time : list N) (e : entry) (fields : list (list N * json)) : list N := to_bytes (entry_json time e fields).

(** *** runtime.rs for wasm32 *)
(** sleep, 38-55: [duration.as_millis() as i32], of a duration in nanoseconds; setTimeout takes a negative
    delay for none (the browser, not in /repo).  The result is the delay in milliseconds. *)
Definition as_i32 (n : N) : Z := let z := (Z.of_N n mod 4294967296)%Z in if (z <? 2147483648)%Z then z else (z - 4294967296)%Z.
Definition sleep_millis (nanos : N) : N := Z.to_N (as_i32 (nanos / 1000000)).
(** channel, 209-222: the buffer size is a capacity hint of the queue, [closed] is never set.  There is one sender and one receiver, neither can be cloned;
    dropping them leaves no trace in the shared state. *)
Section channel.
  Context {A : Type}.
  Record chan := MkChan { ch_queue : list A; ch_closed : bool }.
  Definition channel (buffer : N) : chan := MkChan [] false.
  Inductive cop := CSend (v : A) | CRecv | CDropSender | CDropReceiver.
  Inductive cres := CSent | CRefused (v : A) | CGot (v : A) | CEnd | CNone.
  Definition ch_step (s : chan) (o : cop) : chan * cres :=
    match o with
    | CSend v => if ch_closed s then (s, CRefused v) else (MkChan (ch_queue s ++ [v]) (ch_closed s), CSent)   (* 235-245 *)
    | CRecv => match ch_queue s with                                                                                                    (* 253-257 *)
               | v :: q => (MkChan q (ch_closed s), CGot v)
               | [] => (s, CEnd)
               end
    | CDropSender => (s, CNone)
    | CDropReceiver => (s, CNone)
    end.
  Definition ch_run (buffer : N) (os : list cop) : chan := fold_left (λ s o, (ch_step s o).1) os (channel buffer).
  Fixpoint ch_trace (s : chan) (os : list cop) : list (cop * cres) :=
    match os with [] => [] | o :: os => let r := ch_step s o in (o, r.2) :: ch_trace r.1 os end.
End channel.
Arguments chan : clear implicits.
Arguments cop : clear implicits.
Arguments cres : clear implicits.
