(** Specification vocabulary for a client and a server connected over HTTP. *)
From stdpp Require Import gmap strings list.
From Verif Require Import ListLib TextLib JsonLib SerdeLib TypesModel ManagersModel SseModel SseSpec HttpModel HttpClientModel HttpClientSpec RpcModel RpcSpec ServerModel ClientModel HttpStackModel.

(** A call whose request can be posted (C117).  Left out: the two methods that need no handshake (cancel_request,
    send_progress); see C222. *)
Definition postable (o : cop) (id : rid) : Prop :=
  match o with
  | OInitialize caps info => sendable (MsgRequest id (RClient CInitialize (initialize_params caps info)))
  | OCall k p => sendable (MsgRequest id (RClient k p))
  | ORootsChanged => True
  | OCancel _ | OProgress _ => False
  end.
(** What an exchange is given can be used: there is a token if one is needed, and the event id can stand in
    an event stream. *)
Definition usable (tcf : tconfig) (u : supply) : Prop := authorized tcf (u_token u) ∧ no_break (u_event u) ∧ 0%N ∉ u_event u.
Definition usable_call (tcf : tconfig) (x : cop * rid * (supply * supply)) : Prop :=
  postable x.1.1 x.1.2 ∧ usable tcf x.2.1 ∧ usable tcf x.2.2.
(** Every answer of the server so far can be written and read back. *)
Definition answers_travel (cf : config) (behave : list invocation → hresult) (key : list N → string) (y : web) : Prop :=
  ∀ l1 sid id r l2, sx_log (g_http y) = l1 ++ LProcessed sid id r :: l2 → sendable (MsgResponse (answer cf behave key l1 id r)).
(** The server behind HTTP, after what it has been asked so far. *)
Definition behind (cf : config) (behave : list invocation → hresult) (key : list N → string) (y : web) : server :=
  mcp cf behave key (sx_log (g_http y)).
