(** Specification vocabulary for the browser's WebSocket transport. *)
From stdpp Require Import list strings.
From Verif Require Import ListLib TextLib Utf8Lib JsonLib SerdeLib TypesModel RpcModel RpcSpec WasmModel.

(** Messages whose document names them unambiguously: requests of the client and those of the server the
    client has no namesake for, responses, and likewise notifications. *)
Definition unambiguous (m : message) : Prop :=
  match m with
  | MsgRequest i (RClient c p) => rid_ok i ∧ holds (creq_body c) p
  | MsgRequest i (RServer c p) => rid_ok i ∧ holds (sreq_body c) p ∧ c ≠ SCreateMessage
  | MsgResponse r => good_response r
  | MsgNotification (NClient c p) => holds (cnot_body c) p
  | MsgNotification (NServer c p) => holds (snot_body c) p ∧ c ∉ [SProgress; SRootsListChanged]
  | MsgNotification _ => False
  end.
(** Where two variants have the same name, the browser reads the client's *)
Definition browser_sees (m : message) : message :=
  match m with
  | MsgRequest i (RServer SCreateMessage p) => MsgRequest i (RClient CCreateMessage p)
  | MsgNotification (NServer SProgress p) | MsgNotification (NProgress p) => MsgNotification (NClient CProgress p)
  | MsgNotification (NCancelled p) => MsgNotification (NClient CCancelled p)
  | MsgNotification (NServer SRootsListChanged p) => MsgNotification (NClient CRootsListChanged p)
  | m => m
  end.
(** What receive returned in a history *)
Fixpoint w_got (w : wtransport) (os : list wop) : list message :=
  match os with
  | [] => []
  | o :: os => match (w_step w o).2 with WGot m => [m] | _ => [] end ++ w_got (w_step w o).1 os
  end.
(** The texts that arrived *)
Definition arrived (os : list wop) : list (list N) := omap (λ o, match o with WEvent (WText t) => Some t | _ => None end) os.
(** The browser does not open the socket again *)
Definition stays_shut (os : list wop) : Prop := WBecomes Open ∉ os.

(** The state of the socket after a history, and the messages sent in it while the socket was open and
    the browser took them. *)
Fixpoint sock_after (s : sockstate) (os : list wop) : sockstate :=
  match os with
  | [] => s
  | WBecomes s' :: os => sock_after s' os
  | WShut true :: os => sock_after (match s with Closed => Closed | _ => Closing end) os
  | _ :: os => sock_after s os
  end.
Fixpoint written (s : sockstate) (os : list wop) : list message :=
  match os with
  | [] => []
  | WSend m true :: os => (if decide (s = Open) then [m] else []) ++ written s os
  | o :: os => written (sock_after s [o]) os
  end.
