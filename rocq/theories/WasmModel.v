(** The WebSocket transport for browsers, src/shared/wasm_websocket.rs.  The browser is the other party:
    it changes the socket's state and fires events between any two steps of the program (one thread, so
    every interleaving is a sequence of steps).  Not modelled: the console output of the error and close
    handlers (85-98), WasmWebSocketConfig (219-241), which nothing reads.  The file is only compiled for
    wasm32, and names two variants, Error::TransportError and Error::ParseError, that src/error/mod.rs
    does not declare; here they are just failures. *)
From stdpp Require Import list strings.
From Verif Require Import ListLib TextLib Utf8Lib JsonLib SerdeLib TypesModel RpcModel HttpModel.

(** *** Messages as documents *)
(** serialize_transport_message, 207-217: the derived Serialize of the untagged Request (and Notification),
    src/types/protocol.rs:526-592, 766-787; the id is put last (serde_json keeps the order of keys) *)
Definition request_doc (r : request) : list (list N * json) :=
  match r with
  | RClient c p => tagged_doc (creq_tag c) (creq_body c) p
  | RServer c p => tagged_doc (sreq_tag c) (sreq_body c) p
  end.
Definition wasm_doc (m : message) : json :=
  match m with
  | MsgRequest id r => JObj (request_doc r ++ [(lit "id", rid_json id)])
  | MsgResponse x => response_json x
  | MsgNotification (NClient c p) => JObj (tagged_doc (cnot_tag c) (cnot_body c) p)
  | MsgNotification (NServer c p) => JObj (tagged_doc (snot_tag c) (snot_body c) p)
  | MsgNotification (NProgress p) | MsgNotification (NCancelled p) => p
  end.
(** parse_transport_message, 185-204; None is any of its errors *)
Definition wasm_of_doc (v : json) : option message :=
  if has_key "method" v && has_key "id" v then
    match v with
    | JObj l => match assoc (lit "id") l ≫= rid_of_json, request_of_doc v with Some id, Some r => Some (MsgRequest id r) | _, _ => None end
    | _ => None
    end
  else if has_key "result" v || has_key "error" v then MsgResponse <$> response_of_json v
  else if has_key "method" v then MsgNotification <$> notification_of_doc v
  else None.

(** *** The transport *)
(** WebSocket.readyState (src/shared/wasm_websocket.rs 119, 163, 175) *)
Inductive sockstate := Connecting | Open | Closing | Closed.
Global Instance sockstate_eq_dec : EqDecision sockstate. Proof. solve_decision. Defined.
Definition sock_open (s : sockstate) : bool := bool_decide (s = Open).
(** wait_for_open, 159-182: [seen n] is the state at the n-th look, 100 ms apart *)
Fixpoint await (tries : nat) (n : nat) (seen : nat → sockstate) : bool * nat :=
  match seen n with
  | Connecting => match tries with O => (false, n) | S tries => await tries (S n) seen end
  | Open => (true, n)
  | _ => (false, n)
  end.
Definition MAX_ATTEMPTS : nat := 100.
Definition wait_for_open (seen : nat → sockstate) : bool * nat := await MAX_ATTEMPTS 0 seen.

(** [wt_out]: the texts given to the browser.  The transport itself holds a sender of the channel (35,
    108), so the channel is never closed. *)
Record wtransport := MkWT { wt_sock : sockstate; wt_queue : list message; wt_out : list (list N) }.
(** A message event carries text or binary data (70-83) *)
Inductive wdata := WText (t : list N) | WBinary.
Inductive wop :=
| WSend (m : message) (accepts : bool)        (* [accepts]: WebSocket.send does not throw *)
| WReceive
| WShut (accepts : bool)                      (* close; WebSocket.close throws or not *)
| WEvent (d : wdata)                          (* onmessage fires *)
| WBecomes (s : sockstate).                   (* the browser changes readyState *)
(** wasm_websocket.rs 125-156; on_message: 72-84; w_step drives 118-156 *)
Inductive wres := WOk | WGot (m : message) | WFailed | WPends | WNone.
Definition on_message (d : wdata) (w : wtransport) : wtransport :=
  match d with
  | WText t => match parse_value t ≫= wasm_of_doc with Some m => MkWT (wt_sock w) (wt_queue w ++ [m]) (wt_out w) | None => w end
  | WBinary => w
  end.
Definition w_step (w : wtransport) (o : wop) : wtransport * wres :=
  match o with
  | WSend m accepts =>                         (* 125-140 *)
    if sock_open (wt_sock w) then
      if accepts then (MkWT (wt_sock w) (wt_queue w) (wt_out w ++ [show (wasm_doc m)]), WOk) else (w, WFailed)
    else (w, WFailed)
  | WReceive =>                                (* 142-148 *)
    match wt_queue w with
    | [] => (w, WPends)
    | m :: q => (MkWT (wt_sock w) q (wt_out w), WGot m)
    end
  | WShut accepts => if accepts then (MkWT (match wt_sock w with Closed => Closed | _ => Closing end) (wt_queue w) (wt_out w), WOk) else (w, WFailed)  (* 150-156 *)
  | WEvent d => (on_message d w, WNone)
  | WBecomes s => (MkWT s (wt_queue w) (wt_out w), WNone)
  end.
Definition w_run (w : wtransport) (os : list wop) : wtransport := fold_left (λ w o, (w_step w o).1) os w.
(** connect, 59-115: handlers are registered before waiting; messages that come before it returns are queued *)
Definition w_connected : wtransport := MkWT Open [] [].
