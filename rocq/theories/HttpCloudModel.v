(** Several clients of this library, each on its own StreamableHttpTransport, and one streamable HTTP
    server with its MCP server: src/client/mod.rs, src/shared/streamable_http.rs,
    src/server/streamable_http_server.rs, src/server/mod.rs put together as in HttpStackModel.v, for every
    order in which the exchanges of the clients can go on.  HTTP neither loses nor changes anything. *)
From stdpp Require Import gmap strings list.
From Verif Require Import ListLib TextLib JsonLib SerdeLib TypesModel ManagersModel SseModel HttpModel HttpClientModel HttpClientSpec RpcModel ServerModel ClientModel HttpStackModel.

(** What a client is doing.  A method of the client borrows it mutably (client/mod.rs:244 and on), so a client
    makes one call at a time: its request waits for the server ([f], [n]: which exchange, which event
    stream); the answer is there ([ok]: sending succeeded; [got]: what was received) and the method goes on. *)
Inductive job := JIdle | JWaits (o : cop) (id : rid) (f n : nat) | JAnswered (o : cop) (id : rid) (ok : bool) (got : list message).
Record peer := MkPeer { pe_client : client; pe_tp : transport; pe_job : job }.
(** [cd_waiting]: whose requests wait in the HTTP server, in the order of [sx_pending].  [cd_returned]: the calls that have
    returned: which client's, what was called, the request id, the result. *)
(** No code of its own: src/server/streamable_http_server.rs 209-216 and one client (src/client/mod.rs) on one transport (src/shared/streamable_http.rs 120-140) per place of [cd_peers] *)
Record cloud := MkCloud { cd_http : hserver; cd_waiting : list nat; cd_peers : list peer; cd_returned : list (nat * cop * rid * cresult) }.
Definition cloud_new (n : nat) : cloud := MkCloud http_new [] (replicate n (MkPeer client_new (transport_new None) JIdle)) [].
(** streamable_http_server.rs 546-676: handle_post_request fails, replies at once or awaits the server *)
Inductive asked := AFailed | AReplied (x : hresponse) | AWaiting.
(** No code of its own: calls of src/client/mod.rs 244-1264, replies of the server (streamable_http_server.rs 546-676) and their arrival, in any order *)
Inductive dop :=
| DCall (i : nat) (o : cop) (id : rid) (tok : option (list N)) (fresh : list N)    (* client [i] calls a method; its message reaches the HTTP server *)
| DAnswer (k : nat) (eid1 eid2 : list N)                                           (* the k-th waiting request gets the MCP server's lock; the client gets its answer *)
| DReturn (i : nat) (tok : option (list N)) (fresh : list N).                      (* the method of client [i] ends *)
(** The message a method sends first, and the one it sends after [got] was received (only initialize does, client/mod.rs:286-290);
    see [web_call] *)
Definition first_of (c : client) (o : cop) (id : rid) : option message := head (sends c (c_step c (MkEvent o id true [] true)).1).
Definition second_of (c : client) (o : cop) (id : rid) (ok : bool) (got : list message) : option message :=
  head (drop (length (option_list (first_of c o id))) (sends c (c_step c (MkEvent o id ok got true)).1)).

Section cloud.
  Context (cf : config) (behave : list invocation → hresult) (key : list N → string) (tcf : nat → tconfig) (hcf : hconfig).
  Notation answer := (answer cf behave key).
  (** send, streamable_http.rs:318-341, and the HTTP server up to the MCP server's lock, streamable_http_server.rs:546-612 *)
  Definition ask (i : nat) (m : message) (tok : option (list N)) (fresh : list N) (t : transport) (v : hserver) : transport * hserver * asked :=
    match tp_step (tcf i) t (TSend m None tok) with
    | (t1, Some _) => (t1, v, AFailed)
    | (t1, None) =>
      match last (tp_sent t1) with
      | None => (t1, v, AFailed)
      | Some q => match h_step hcf answer v (HPost (seen_headers (cr_headers q)) (parsed (cr_body q)) fresh) with
                  | (v1, Some x) => (t1, v1, AReplied x)
                  | (v1, None) => (t1, v1, AWaiting)
                  end
      end
    end.
  (** the reply, streamable_http.rs:342-432, the body of an event stream, 399-418, and receive, 442-448, as long as there is
      something *)
  Definition take_reply (i f n : nat) (x : hresponse) (t : transport) : bool * list message * transport :=
    let '(t1, r) := tp_step (tcf i) t (TReply f (Some (reply_of x)) None) in
    let t2 := (tp_step (tcf i) t1 (TBody n (stream_text x))).1 in
    let '(ms, t3) := drain (tcf i) (length (tp_queue t2)) t2 in
    (match r with Some TOk => true | _ => false end, ms, t3).
  Definition put (i : nat) (p : peer) (v : hserver) (w : list nat) (y : cloud) : cloud :=
    MkCloud v w (<[i := p]> (cd_peers y)) (cd_returned y).
  Definition d_call (i : nat) (o : cop) (id : rid) (tok : option (list N)) (fresh : list N) (y : cloud) : cloud :=
    match cd_peers y !! i with
    | Some (MkPeer c t JIdle) =>
      match first_of c o id with
      | None => put i (MkPeer c t (JAnswered o id true [])) (cd_http y) (cd_waiting y) y
      | Some m =>
        let '(t1, v, a) := ask i m tok fresh t (cd_http y) in
        match a with
        | AFailed => put i (MkPeer c t1 (JAnswered o id false [])) v (cd_waiting y) y
        | AReplied x => let '(ok, got, t2) := take_reply i (length (tp_flight t)) (length (tp_streams t)) x t1 in
                        put i (MkPeer c t2 (JAnswered o id ok got)) v (cd_waiting y) y
        | AWaiting => put i (MkPeer c t1 (JWaits o id (length (tp_flight t)) (length (tp_streams t)))) v (cd_waiting y ++ [i]) y
        end
      end
    | _ => y
    end.
  (** handle_post_request with the lock, streamable_http_server.rs:614-669.  A handler's panic (617) unwinds the task of
      the connection: nothing after 617 happens, the lock is free again (tokio's Mutex, 210, is not poisoned), the
      connection closes without a reply and the client's send fails (streamable_http.rs:335-341).  Simplified: a
      connection carries one request at a time (HTTP/1). *)
  Definition d_answer (k : nat) (eid1 eid2 : list N) (y : cloud) : cloud :=
    match cd_waiting y !! k, sx_pending (cd_http y) !! k with
    | Some i, Some (PPost hdr rsid qid r) =>
      match cd_peers y !! i with
      | Some (MkPeer c t (JWaits o id f n)) =>
        match (handle_request cf behave key qid r (mcp cf behave key (sx_log (cd_http y)))).2 with
        | None => put i (MkPeer c (tp_step (tcf i) t (TReply f None None)).1 (JAnswered o id false [])) (note (LProcessed rsid qid r) (drop_pending k (cd_http y))) (delete k (cd_waiting y)) y
        | Some _ =>
          match h_step hcf answer (cd_http y) (HContinue k eid1 eid2) with
          | (v, Some x) => let '(ok, got, t1) := take_reply i f n x t in
                           put i (MkPeer c t1 (JAnswered o id ok got)) v (delete k (cd_waiting y)) y
          | _ => y
          end
        end
      | _ => y
      end
    | _, _ => y
    end.
  Definition give (i : nat) (o : cop) (id : rid) (r : cresult) (y : cloud) : cloud :=
    MkCloud (cd_http y) (cd_waiting y) (cd_peers y) (cd_returned y ++ [(i, o, id, r)]).
  (** The initialized notification is answered at once, streamable_http_server.rs:670-674. *)
  Definition d_return (i : nat) (tok : option (list N)) (fresh : list N) (y : cloud) : cloud :=
    match cd_peers y !! i with
    | Some (MkPeer c t (JAnswered o id ok got)) =>
      match second_of c o id ok got with
      | None => let '(c', r) := c_step c (MkEvent o id ok got ok) in
                give i o id r (put i (MkPeer c' t JIdle) (cd_http y) (cd_waiting y) y)
      | Some m =>
        let '(t1, v, a) := ask i m tok fresh t (cd_http y) in
        let '(ok2, got2, t2) := match a with AReplied x => take_reply i (length (tp_flight t)) (length (tp_streams t)) x t1 | _ => (false, [], t1) end in
        let '(c', r) := c_step c (MkEvent o id ok got ok2) in
        give i o id r (put i (MkPeer (deliver got2 c') t2 JIdle) v (cd_waiting y) y)
      end
    | _ => y
    end.
  Definition d_step (y : cloud) (d : dop) : cloud :=
    match d with
    | DCall i o id tok fresh => d_call i o id tok fresh y
    | DAnswer k eid1 eid2 => d_answer k eid1 eid2 y
    | DReturn i tok fresh => d_return i tok fresh y
    end.
  Definition d_run (n : nat) (ds : list dop) : cloud := fold_left d_step ds (cloud_new n).
End cloud.
