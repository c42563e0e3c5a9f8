(** A client of this library on a StreamableHttpTransport and a server of this library behind the
    streamable HTTP server: src/client/mod.rs, src/shared/streamable_http.rs,
    src/server/streamable_http_server.rs and the request handling of src/server/mod.rs put together.
    One call at a time; each HTTP exchange is completed before the client goes on, and HTTP neither loses
    nor changes anything. *)
From stdpp Require Import gmap strings list.
From Verif Require Import ListLib TextLib JsonLib SerdeLib TypesModel ManagersModel SseModel HttpModel HttpClientModel HttpClientSpec RpcModel ServerModel ClientModel.

(** No code of its own: one client (src/client/mod.rs), its transport (src/shared/streamable_http.rs 120-140) and the server state (src/server/streamable_http_server.rs 209-216) *)
Record web := MkWeb { g_client : client; g_tp : transport; g_http : hserver }.
(** Client::new on StreamableHttpTransport::new without a configured session, streamable_http.rs:152-163 *)
Definition web_new : web := MkWeb client_new (transport_new None) http_new.
(** What an exchange gets from its surroundings: the auth provider's token, the session id generated (if
    one is, streamable_http_server.rs:375-379), the event ids generated (636, 489) *)
Record supply := MkSupply { u_token : option (list N); u_session : list N; u_stored : list N; u_event : list N }.

Section stack.
  Context (cf : config) (behave : list invocation → hresult) (key : list N → string) (tcf : tconfig) (hcf : hconfig).
  (** The MCP server behind the HTTP server: it has handled the requests logged, one after the other under
      its lock, streamable_http_server.rs:613-617 *)
  Definition mcp_step (s : server) (l : logged) : server :=
    match l with LProcessed _ id r => (handle_request cf behave key id r s).1 | _ => s end.
  Definition mcp (log : list logged) : server := fold_left mcp_step log server_new.
  (** Server::handle_request as the HTTP server calls it, 617.  A handler's panic ends the connection and
      is not modelled: then this is an error response. *)
  Definition answer (log : list logged) (id : rid) (r : RpcModel.request) : rpc_response :=
    match (handle_request cf behave key id r (mcp log)).2 with
    | Some x => x
    | None => failure id {| er_code := -32603; er_message := []; er_data := None |}
    end.
  (** send, streamable_http.rs:318-432, with the HTTP server at the other end; whether it succeeded *)
  Definition post (m : message) (u : supply) (y : web) : bool * web :=
    let t := g_tp y in
    match tp_step tcf t (TSend m None (u_token u)) with
    | (t1, Some _) => (false, MkWeb (g_client y) t1 (g_http y))
    | (t1, None) =>
      match last (tp_sent t1) with
      | None => (false, MkWeb (g_client y) t1 (g_http y))
      | Some q =>
        let '(v1, o) := h_step hcf answer (g_http y) (HPost (seen_headers (cr_headers q)) (parsed (cr_body q)) (u_session u)) in
        let '(v2, o) := match o with Some x => (v1, Some x) | None => h_step hcf answer v1 (HContinue (length (sx_pending (g_http y))) (u_stored u) (u_event u)) end in
        match o with
        | None => (false, MkWeb (g_client y) t1 v2)
        | Some x =>
          let '(t2, r) := tp_step tcf t1 (TReply (length (tp_flight t)) (Some (reply_of x)) None) in
          let t3 := (tp_step tcf t2 (TBody (length (tp_streams t)) (stream_text x))).1 in
          (match r with Some TOk => true | _ => false end, MkWeb (g_client y) t3 v2)
        end
      end
    end.
  (** receive, streamable_http.rs:442-448, as long as there is something *)
  Fixpoint drain (n : nat) (t : transport) : list message * transport :=
    match n with
    | O => ([], t)
    | S n => match tp_step tcf t TReceive with
             | (t, Some (TMsg m)) => let '(ms, t) := drain n t in (m :: ms, t)
             | (t, _) => ([], t)
             end
    end.
  (** a message of the client, if there is one: whether sending succeeded and what arrived *)
  (** src/client/mod.rs 1315-1360 on src/shared/streamable_http.rs 437-448 *)
  Definition trip (o : option message) (u : supply) (y : web) : bool * list message * web :=
    match o with
    | None => (true, [], y)
    | Some m =>
      let '(ok, y) := post m u y in
      let '(ms, t) := drain (length (tp_queue (g_tp y))) (g_tp y) in
      (ok, ms, MkWeb (g_client y) t (g_http y))
    end.
  (** No code of its own: the difference of two client states *)
  Definition sends (c c' : client) : list message := drop (length (cl_sent c)) (cl_sent c').
  (** A method of the client, client/mod.rs: what it sends first does not depend on what arrives, and what
      it sends after that (the initialized notification, 286-290) does not depend on whether that works. *)
  Definition web_call (y : web) (o : cop) (id : rid) (u1 u2 : supply) : web * cresult :=
    let c := g_client y in
    let first := head (sends c (c_step c (MkEvent o id true [] true)).1) in
    let '(ok, got, y) := trip first u1 y in
    let second := head (drop (length (option_list first)) (sends c (c_step c (MkEvent o id ok got true)).1)) in
    let '(ok2, got2, y) := trip second u2 y in
    let '(c', r) := c_step c (MkEvent o id ok got (match second with Some _ => ok2 | None => ok end)) in
    (MkWeb (deliver got2 c') (g_tp y) (g_http y), r).
  Fixpoint web_session (y : web) (os : list (cop * rid * (supply * supply))) : web * list cresult :=
    match os with
    | [] => (y, [])
    | (o, id, (u1, u2)) :: os => let '(y, r) := web_call y o id u1 u2 in let '(y, rs) := web_session y os in (y, r :: rs)
    end.
End stack.
