(** The keep-alive pings of a WebSocket client's connection: the writer and ping tasks of src/shared/websocket.rs 200-225.
    Definitions only. *)
From stdpp Require Import list.
From Coq Require Import NArith.
From Verif Require Import WsModel.

(** The two tasks and the channel of 100 between them, 201.  Times are milliseconds since the connection was made.
    [kp_ticks]: how often the interval has ticked; the n-th tick (from 0) is due at n * interval: tokio's interval ticks at
    once first, and late ticks are made up for (MissedTickBehavior::Burst).  [kp_waits]: the ping task waits for room in the channel. *)
Inductive ptask := Ticking | Waiting | Ended.
Record keep := MkKeep { kp_now : N; kp_ticks : N; kp_task : ptask; kp_queue : nat; kp_writer : bool; kp_out : list N }.
Definition wchan_cap : nat := 100.
(** connect_once, 200-225: no ping task without an interval: then write_tx is dropped and the writer leaves its loop at once.
    interval(0) panics in the task: the sender is dropped with it. *)
Definition keep_new (interval : option N) : keep :=
  match interval with
  | Some 0%N | None => MkKeep 0 0 Ended 0 false []
  | Some _ => MkKeep 0 0 Ticking 0 true []
  end.
(** [KPass]: time goes by.  [KPing]: the ping task runs.  [KWrite]: the writer runs, with whether the sink takes the message.
    [KClose]: close() of the transport, 264-278. [KGone]: the reader of the connection leaves its loop, 182-197. *)
Inductive kop := KPass (d : N) | KPing | KWrite (ok : bool) | KClose | KGone.
(** mpsc Sender::send: fails if the receiver is gone, waits if the channel is full *)
Definition put_ping (t : N) (s : keep) : keep :=
  if kp_writer s then
    if kp_queue s <? wchan_cap then MkKeep (kp_now s) t Ticking (S (kp_queue s)) true (kp_out s)
    else MkKeep (kp_now s) t Waiting (kp_queue s) true (kp_out s)
  else MkKeep (kp_now s) t Ended (kp_queue s) false (kp_out s).
Definition k_step (interval : option N) (s : keep) (o : kop) : keep :=
  match o with
  | KPass d => MkKeep (kp_now s + d) (kp_ticks s) (kp_task s) (kp_queue s) (kp_writer s) (kp_out s)
  | KPing =>                                                                            (* 217-222 *)
    match kp_task s, interval with
    | Ticking, Some p => if (kp_ticks s * p <=? kp_now s)%N then put_ping (kp_ticks s + 1) s else s
    | Waiting, _ => put_ping (kp_ticks s) s
    | _, _ => s
    end
  | KWrite ok =>                                                                        (* 204-209 *)
    match kp_writer s, kp_queue s with
    | true, S q => if ok then MkKeep (kp_now s) (kp_ticks s) (kp_task s) q true (kp_out s ++ [kp_now s])
                   else MkKeep (kp_now s) (kp_ticks s) (kp_task s) 0 false (kp_out s)
    | _, _ => s
    end
  | KClose | KGone => s                                                                 (* neither is told to the tasks *)
  end.
Definition k_run (interval : option N) (os : list kop) : keep := fold_left (k_step interval) os (keep_new interval).

(** WebSocketConfig, 19-34: auto_reconnect and request_timeout (milliseconds) are not read by any function of the file; the
    other fields are those of [connect] in WsModel and of [k_run]. *)
Record wconfig := MkWConfig { w_auto_reconnect : bool; w_request_timeout : N }.
Definition w_step (cfg : wconfig) : ctransport → cop → ctransport * cres := c_step.
Definition w_run (cfg : wconfig) (s : ctransport) (os : list cop) : ctransport := foldl (λ s o, (w_step cfg s o).1) s os.
