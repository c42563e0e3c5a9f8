(** A client whose calls may be given up by the caller (a timeout or a select drops the future): send_request, src/client/mod.rs
    1315-1348.  Definitions only.  One call at a time; the transport hands over whole messages, and giving up its receive takes
    none (the in-memory and WebSocket transports; for stdio see StdioDropModel.v).  Sending does not fail. *)
From stdpp Require Import list strings.
From Verif Require Import TextLib JsonLib SerdeLib TypesModel RpcModel ServerModel ClientModel.

(** Where a call waits: for the transport to take its request (1333), or for the next message (1337) *)
Inductive phase := KSending (id : rid) (r : request) | KWaiting (id : rid).
Record caller := MkCaller { u_client : client; u_cur : option phase }.
(** A call begins (1321-1325); its request is sent (1327-1333); a message arrives; the call looks for a message (1337-1347); the
    caller drops the call: the entry in active_requests and a message sent stay as they are *)
Inductive uop := UCall (id : rid) (r : request) | USent | UArrive (m : message) | UPoll | UDrop.
(** 1342-1347 *)
Definition outcome (m : message) : rpc_response + api_error :=
  match m with MsgResponse x => inl x | _ => inr (EProtocol (-32603) (lit "Expected response, got different message type") None) end.
(** src/client/mod.rs 1321-1347, step by step *)
Definition u_step (s : caller) (o : uop) : option (rid * (rpc_response + api_error)) * caller :=
  match o, u_cur s with
  | UCall id r, None => (None, MkCaller (track id (u_client s)) (Some (KSending id r)))
  | USent, Some (KSending id r) => (None, MkCaller (send (MsgRequest id r) (u_client s)) (Some (KWaiting id)))
  | UArrive m, _ => (None, MkCaller (deliver [m] (u_client s)) (u_cur s))
  | UPoll, Some (KWaiting id) =>
    match cl_in (u_client s) with
    | [] => (None, s)
    | m :: rest => (Some (id, outcome m), MkCaller (untrack id (took id m rest (u_client s))) None)
    end
  | UDrop, _ => (None, MkCaller (u_client s) None)
  | _, _ => (None, s)
  end.
(** Histories (they drive src/client/mod.rs 1315-1348): what the calls returned, and the state *)
Fixpoint u_run (s : caller) (os : list uop) : list (rid * (rpc_response + api_error)) * caller :=
  match os with
  | [] => ([], s)
  | o :: os => let '(r, s) := u_step s o in let '(rs, s) := u_run s os in (option_list r ++ rs, s)
  end.
Definition u_new (c : client) : caller := MkCaller c None.
