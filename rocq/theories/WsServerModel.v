(** A server of src/server/mod.rs on a WebSocketServerTransport (src/server/transport/websocket.rs) that has accepted a
    connection: the message task and the tasks of the connection, in any order.  Definitions only.
    Simplified: nothing sends notifications meanwhile and no other task calls the server. *)
From stdpp Require Import gmap strings list.
From Verif Require Import TextLib JsonLib SerdeLib TypesModel RpcModel ManagersModel ServerModel WsModel.

(** [wv_reply]: a response the message task waits with in send (mod.rs:483-485) *)
Record wserver := MkWServer { wv_tp : stransport; wv_server : server; wv_reply : option rpc_response }.
(** bind and accept, websocket.rs:64-198, then Server::run, mod.rs:365-396 *)
Definition wserver_new : wserver := MkWServer (s_run st_new [SBind true; SAccept true]) server_new None.
(** The rounds of the connection's tasks (websocket.rs 115-195) and one await of the message task (mod.rs 415-436) *)
Inductive wop := WRead (f : frame) | WAgain | WWrite (pong ok : bool) | WLoop.

Section wserver.
  Context (cf : config) (behave : list invocation → hresult) (key : list N → string).
  Definition on_tp (o : sop) (x : wserver) : wserver := MkWServer (s_step (wv_tp x) o).1 (wv_server x) (wv_reply x).
  (** the message task up to its next await that waits, mod.rs:415-436, 458-486: a panic of a handler and an error of the
      transport end it *)
  Definition w_loop (x : wserver) : wserver :=
    if sv_listening (wv_server x) then
      match wv_reply x with
      | Some r =>
        match s_step (wv_tp x) (SSend (MsgResponse r)) with
        | (t, SOk) => MkWServer t (sent r (wv_server x)) None
        | (t, SErr) => MkWServer t (stop (wv_server x)) None
        | (t, _) => MkWServer t (wv_server x) (wv_reply x)
        end
      | None =>
        match s_step (wv_tp x) SReceive with
        | (t, SGot (MsgRequest id q)) =>
          match handle_request cf behave key id q (wv_server x) with
          | (s, Some r) => MkWServer t s (Some r)
          | (s, None) => MkWServer t (stop s) None
          end
        | (t, SGot _) => MkWServer t (wv_server x) None
        | (t, SErr) => MkWServer t (stop (wv_server x)) None
        | (t, _) => MkWServer t (wv_server x) None
        end
      end
    else x.
  (** No code of its own: one step of one task *)
  Definition w_step (x : wserver) (o : wop) : wserver :=
    match o with
    | WRead f => on_tp (SRead 0 f) x
    | WAgain => on_tp (SAgain 0) x
    | WWrite p ok => on_tp (SWrite 0 p ok) x
    | WLoop => w_loop x
    end.
  Definition w_run (os : list wop) : wserver := fold_left w_step os wserver_new.
End wserver.
