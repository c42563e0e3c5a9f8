(** Clients of the streamable HTTP server that go away while their request waits for the MCP server's lock: the connection closes
    and hyper drops the future of the handler, src/server/streamable_http_server.rs 546-612, 679-745.  Definitions only.  Handlers
    that have got the lock are not dropped here (a handler that panics is the same for the HTTP server: C219). *)
From stdpp Require Import gmap strings list.
From Verif Require Import ListLib TextLib JsonLib SerdeLib TypesModel RpcModel ServerModel HttpModel.

(** An operation of HttpModel; the client of the i-th waiting request goes away (src/server/streamable_http_server.rs 612) *)
Inductive gop := GOp (o : hop) | GGone (i : nat).
Section drop.
  Context (cf : hconfig) (answer : list logged → rid → request → rpc_response).
  (** src/server/streamable_http_server.rs 546-833, and 612 dropped: nothing is undone *)
  Definition g_step (s : hserver) (o : gop) : hserver * option hresponse :=
    match o with
    | GOp o => h_step cf answer s o
    | GGone i => (drop_pending i s, None)
    end.
  (** Histories (they drive src/server/streamable_http_server.rs 546-833): the state, and the responses sent *)
  Fixpoint g_run (s : hserver) (os : list gop) : hserver * list hresponse :=
    match os with
    | [] => (s, [])
    | o :: os => let '(s, x) := g_step s o in let '(s, xs) := g_run s os in (s, option_list x ++ xs)
    end.
End drop.
