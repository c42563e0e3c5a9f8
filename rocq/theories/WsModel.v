(** The WebSocket transports: src/server/transport/websocket.rs and src/shared/websocket.rs.  Definitions
    only.  tokio-tungstenite is not in /repo: a connection is the frames its reader takes from the peer and
    the frames its writer has handed to the socket.  A bounded channel makes a task that puts into it
    wait, with what it holds, while it is full.  Every step is one operation of a task on a channel or on
    the connection, so any interleaving of calls and background tasks is a sequence of steps. *)
From stdpp Require Import list.
From Verif Require Import TextLib JsonLib RpcModel.

(** What [ws_stream.next()] gives: the frames, an error, or the end.  Text is its UTF-8 bytes (src/server/transport/websocket.rs 154-190) *)
Inductive frame := FText (bs : list N) | FBinary | FPing (data : list N) | FPong (data : list N) | FClose | FError | FEnd.

(** *** Server, src/server/transport/websocket.rs *)
(** The reader task of a connection, 153-195: waiting for a frame, waiting for room in a channel with what
    it wants to put there, or ended *)
Inductive reader := RIdle | RHolds (m : message) | RHoldsPong (data : list N) | RDone.
(** A connection, 101-195 *)
Record sconn := SConn {
  sc_in : list message;        (* incoming channel *)
  sc_rx : bool;                (* its receiver exists *)
  sc_out : list message;       (* outgoing channel *)
  sc_tx : bool;                (* its sender exists *)
  sc_pongs : list (list N);    (* pong channel *)
  sc_reader : reader;
  sc_writer : bool;            (* the writer task runs *)
  sc_wire : list frame }.      (* what it handed to the socket *)
(** The capacities, 102-103, 110 *)
Definition in_cap : nat := 100.
Definition out_cap : nat := 100.
Definition pong_cap : nat := 10.

(** 101-112 *)
Definition conn_new : sconn := SConn [] true [] true [] RIdle true [].
(** incoming_tx.send, 159: fails when the receiver is gone, waits when the channel is full *)
Definition put_in (m : message) (c : sconn) : sconn :=
  if negb (sc_rx c) then SConn (sc_in c) (sc_rx c) (sc_out c) (sc_tx c) (sc_pongs c) RDone (sc_writer c) (sc_wire c)
  else if length (sc_in c) <? in_cap
  then SConn (sc_in c ++ [m]) (sc_rx c) (sc_out c) (sc_tx c) (sc_pongs c) RIdle (sc_writer c) (sc_wire c)
  else SConn (sc_in c) (sc_rx c) (sc_out c) (sc_tx c) (sc_pongs c) (RHolds m) (sc_writer c) (sc_wire c).
(** pong_tx.send, 178; its receiver lives in the writer task *)
Definition put_pong (d : list N) (c : sconn) : sconn :=
  if negb (sc_writer c) then SConn (sc_in c) (sc_rx c) (sc_out c) (sc_tx c) (sc_pongs c) RDone (sc_writer c) (sc_wire c)
  else if length (sc_pongs c) <? pong_cap
  then SConn (sc_in c) (sc_rx c) (sc_out c) (sc_tx c) (sc_pongs c ++ [d]) RIdle (sc_writer c) (sc_wire c)
  else SConn (sc_in c) (sc_rx c) (sc_out c) (sc_tx c) (sc_pongs c) (RHoldsPong d) (sc_writer c) (sc_wire c).
Definition set_reader (r : reader) (c : sconn) : sconn :=
  SConn (sc_in c) (sc_rx c) (sc_out c) (sc_tx c) (sc_pongs c) r (sc_writer c) (sc_wire c).
(** One round of the reader task, 154-191 *)
Definition read_frame (f : frame) (c : sconn) : sconn :=
  match sc_reader c with
  | RIdle =>
    match f with
    | FText bs => match parse_message bs with Some m => put_in m c | None => c end
    | FPing d => put_pong d c
    | FBinary | FPong _ => c
    | FClose | FError | FEnd => set_reader RDone c
    end
  | _ => c
  end.
(** A task that waits for room in a channel tries again (websocket.rs 154-190: the send of the reader task, resumed) *)
Definition read_again (c : sconn) : sconn :=
  match sc_reader c with RHolds m => put_in m c | RHoldsPong d => put_pong d c | _ => c end.
(** One round of the writer task, 115-150: [pong] says which branch of the select is taken and [ok] whether
    the socket takes the frame.  When the task ends its receivers are dropped, with what is in them.
    Serialising a message does not fail and gives UTF-8 (119-135). *)
Definition write_frame (pong ok : bool) (c : sconn) : sconn :=
  let stop := SConn (sc_in c) (sc_rx c) [] (sc_tx c) [] (sc_reader c) false (sc_wire c) in
  if negb (sc_writer c) then c
  else match pong, sc_out c, sc_pongs c with
       | false, m :: out, _ =>
         if ok then SConn (sc_in c) (sc_rx c) out (sc_tx c) (sc_pongs c) (sc_reader c) true (sc_wire c ++ [FText (serialize_message m)]) else stop
       | true, _, d :: pongs =>
         if ok then SConn (sc_in c) (sc_rx c) (sc_out c) (sc_tx c) pongs (sc_reader c) true (sc_wire c ++ [FPong d]) else stop
       | _, [], [] => if negb (sc_tx c) && (match sc_reader c with RDone => true | _ => false end) then stop else c   (* else => break, 147 *)
       | _, _, _ => c
       end.
(** The transport drops its ends of a connection's channels, 106-107, 235-236 *)
Definition dropped (c : sconn) : sconn :=
  SConn [] false (sc_out c) false (sc_pongs c) (sc_reader c) (sc_writer c) (sc_wire c).

(** WebSocketServerTransport, 39-45: [st_cur] is the connection whose ends the transport has *)
Record stransport := STransport { st_bound : bool; st_conns : list sconn; st_cur : option nat }.
(** new, 49-56 *)
Definition st_new : stransport := STransport false [] None.
Definition on_conn (k : nat) (f : sconn → sconn) (s : stransport) : stransport := STransport (st_bound s) (alter f k (st_conns s)) (st_cur s).
Definition drop_cur (s : stransport) : stransport := match st_cur s with Some k => on_conn k dropped s | None => s end.

(** Calls of the API and rounds of the tasks of a connection.  [SBind]'s and [SAccept]'s argument is whether
    the listener, and the handshake, succeed. *)
(** drives websocket.rs 64-240 *)
Inductive sop := SBind (ok : bool) | SAccept (ok : bool) | SSend (m : message) | SReceive | SClose
  | SRead (k : nat) (f : frame) | SAgain (k : nat) | SWrite (k : nat) (pong ok : bool).
(** [Waits]: the call does not return now (it is tried again) (websocket.rs 64-240) *)
Inductive sres := SOk | SErr | SGot (m : message) | SWaits.
Definition s_step (s : stransport) (o : sop) : stransport * sres :=
  match o with
  | SBind ok => if ok then (STransport true (st_conns s) (st_cur s), SOk) else (s, SErr)       (* 64-76 *)
  | SAccept ok =>                                                                             (* 82-198 *)
    if st_bound s && ok
    then let s := drop_cur s in (STransport true (st_conns s ++ [conn_new]) (Some (length (st_conns s))), SOk)
    else (s, SErr)
  | SSend m =>                                                                                (* 203-217 *)
    match st_cur s ≫= λ k, (k,.) <$> st_conns s !! k with
    | None => (s, SErr)
    | Some (k, c) =>
      if negb (sc_writer c) then (s, SErr)
      else if length (sc_out c) <? out_cap
      then (on_conn k (λ c, SConn (sc_in c) (sc_rx c) (sc_out c ++ [m]) (sc_tx c) (sc_pongs c) (sc_reader c) (sc_writer c) (sc_wire c)) s, SOk)
      else (s, SWaits)
    end
  | SReceive =>                                                                               (* 219-231 *)
    match st_cur s ≫= λ k, (k,.) <$> st_conns s !! k with
    | None => (s, SErr)
    | Some (k, c) =>
      match sc_in c, sc_reader c with
      | m :: q, _ => (on_conn k (λ c, SConn q (sc_rx c) (sc_out c) (sc_tx c) (sc_pongs c) (sc_reader c) (sc_writer c) (sc_wire c)) s, SGot m)
      | [], RDone => (s, SErr)
      | [], _ => (s, SWaits)
      end
    end
  | SClose => (let s := drop_cur s in STransport (st_bound s) (st_conns s) None, SOk)             (* 233-240 *)
  | SRead k f => (on_conn k (read_frame f) s, SOk)
  | SAgain k => (on_conn k read_again s, SOk)
  | SWrite k p ok => (on_conn k (write_frame p ok) s, SOk)
  end.
Definition s_run (s : stransport) (os : list sop) : stransport := foldl (λ s o, (s_step s o).1) s os.
(** is_connected, 242-245 *)
Definition s_connected (s : stransport) : bool := match st_cur s with Some _ => true | None => false end.

(** *** Client, src/shared/websocket.rs *)
(** The reader task of a connection, 150-199; [cc_stopped]: it has left its loop; [cc_holds]: what it waits
    with for room in the channel *)
Record cconn := CConn { cc_holds : option message; cc_stopped : bool; cc_wire : list frame }.
(** ConnectionState 58-64 *)
Inductive cstate := CDisconnected | CConnecting | CConnected.
(** WebSocketTransport, 51-56.  In the channel of 100 (78) messages are tagged with the connection
    they came from, for the specification.  The transport keeps a sender of the channel for itself, so it is never closed. *)
Record ctransport := CTransport { ct_state : cstate; ct_queue : list (nat * message); ct_conns : list cconn }.
Definition ct_new : ctransport := CTransport CDisconnected [] [].
Definition chan_cap : nat := 100.
(** message_tx.send, 162 *)
Definition put_chan (k : nat) (m : message) (s : ctransport) : ctransport :=
  if length (ct_queue s) <? chan_cap
  then CTransport (ct_state s) (ct_queue s ++ [(k, m)]) (alter (λ c, CConn None (cc_stopped c) (cc_wire c)) k (ct_conns s))
  else CTransport (ct_state s) (ct_queue s) (alter (λ c, CConn (Some m) (cc_stopped c) (cc_wire c)) k (ct_conns s)).
Definition on_cconn (k : nat) (f : cconn → cconn) (s : ctransport) : ctransport := CTransport (ct_state s) (ct_queue s) (alter f k (ct_conns s)).
(** Calls and rounds of the tasks.  [COnce]: connect_once, 128-230, with whether the handshake succeeds.
    [CPing]: a tick of the ping task, 214-223, whose ping the writer task, 203-211, hands to the socket. *)
Inductive cop := COnce (ok : bool) | CSend (m : message) | CReceive | CClose | CRead (k : nat) (f : frame) | CAgain (k : nat) | CPing (k : nat).
Inductive cres := COk | CErr | CGot (m : message) | CWaits.
Definition c_step (s : ctransport) (o : cop) : ctransport * cres :=
  match o with
  | COnce ok =>
    if ok then (CTransport CConnected (ct_queue s) (ct_conns s ++ [CConn None false []]), COk)
    else (CTransport CConnecting (ct_queue s) (ct_conns s), CErr)
  | CSend m => (s, match ct_state s with CConnected => COk | _ => CErr end)                        (* 235-255 *)
  | CReceive =>                                                                               (* 257-262 *)
    match ct_queue s with
    | (k, m) :: q => (CTransport (ct_state s) q (ct_conns s), CGot m)
    | [] => (s, CWaits)
    end
  | CClose => (CTransport CDisconnected (ct_queue s) (ct_conns s), COk)                 (* 264-278 *)
  | CRead k f =>
    (match ct_conns s !! k with
     | Some c =>
       if cc_stopped c then s else
       match cc_holds c with
       | Some _ => s
       | None =>
         match f with
         | FText bs => match of_bytes bs with Some _ => match parse_message bs with Some m => put_chan k m s | None => s end | None => s end
         | FClose | FError | FEnd => on_cconn k (λ c, CConn None true (cc_wire c)) s
         | FBinary | FPing _ | FPong _ => s
         end
       end
     | None => s
     end, COk)
  | CAgain k => (match ct_conns s !! k with Some (CConn (Some m) _ _) => put_chan k m s | _ => s end, COk)
  | CPing k => (on_cconn k (λ c, CConn (cc_holds c) (cc_stopped c) (cc_wire c ++ [FPing []])) s, COk)
  end.
Definition c_run (s : ctransport) (os : list cop) : ctransport := foldl (λ s o, (c_step s o).1) s os.
(** is_connected, 280-282 *)
Definition c_connected (s : ctransport) : bool := match ct_state s with CConnected => true | _ => false end.

(** connect_with_retry, 100-126.  [outcome i] is whether the i-th attempt succeeds, durations are
    nanoseconds, [dur_max] is Duration::MAX, [limit] is max_reconnect_attempts.  [ws] are the waits so far,
    latest last.  None: still trying after [fuel] attempts.  (The counter of attempts is not bounded here.) *)
Definition dur_max : N := 18446744073709551615999999999.
Inductive retried := Connected | GaveUp | RetryPanic.
Fixpoint connect_loop (fuel : nat) (outcome : nat → bool) (limit : option nat) (cap delay : N) (attempts : nat) (ws : list N) : option (retried * nat * list N) :=
  match fuel with
  | O => None
  | S fuel =>
    if outcome attempts then Some (Connected, S attempts, ws)
    else
      let attempts := S attempts in
      if match limit with Some max => max <=? attempts | None => false end then Some (GaveUp, attempts, ws)
      else if (dur_max <? delay * 2)%N then Some (RetryPanic, attempts, ws ++ [delay])
      else connect_loop fuel outcome limit cap (N.min (delay * 2) cap) attempts (ws ++ [delay])
  end.
Definition connect (fuel : nat) (outcome : nat → bool) (limit : option nat) (delay cap : N) : option (retried * nat * list N) :=
  connect_loop fuel outcome limit cap delay 0 [].
