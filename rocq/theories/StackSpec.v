(** Specification vocabulary for a client and a server connected over stdio. *)
From stdpp Require Import gmap strings list.
From Verif Require Import TextLib JsonLib SerdeLib TypesModel RpcModel RpcSpec ManagersModel ServerModel ServerSpec ClientModel ClientSpec StdioModel StdioSpec StackModel.

(** Everything either side has sent so far can travel (C37). *)
Definition travels (y : stack) : Prop :=
  Forall sendable (cl_sent (y_client y)) ∧ Forall (λ x, sendable (MsgResponse x)) (sv_sent (y_server y)).
(** The requests among messages. *)
Definition requests (ms : list message) : list request := omap (λ m, match m with MsgRequest _ r => Some r | _ => None end) ms.
(** What a caller gets to see of the value a handler returned: a tool's as JSON text. *)
Definition shown_as (k : hkind) (v : json) : json :=
  match k with
  | KTool => JObj [(lit "content", JArr [JObj [(lit "type", JStr (lit "text")); (lit "text", JStr (show v))]]); (lit "isError", JBool false)]
  | _ => v
  end.
