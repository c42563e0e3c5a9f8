(** The streamable HTTP server: src/server/streamable_http_server.rs.  Definitions only. *)
From stdpp Require Import gmap strings list.
From Verif Require Import ListLib TextLib JsonLib SerdeLib TypesModel RpcModel ServerModel.

(** *** The headers a handler looks at.  A value that is not visible ASCII counts as "" for
    Content-Type and Accept (292, 311, 331) and as absent for the others (569-578, 740). *)
Record headers := MkHeaders {
  h_content_type : option text; h_accept : option text; h_session : option text; h_version : option text; h_last : option text }.
(** src/shared/http_constants.rs (src/shared/http_constants.rs 21, 24) *)
Definition application_json : text := lit "application/json".
Definition text_event_stream : text := lit "text/event-stream".
(** src/server/streamable_http_server.rs 270-285: the routes *)
Inductive verb := Post | Get | Delete.
(** validate_headers, 288-351: the status if the request is refused *)
Definition validate_headers (h : headers) (v : verb) : option Z :=
  match v with
  | Post =>
    match h_content_type h with
    | Some ct => if contains application_json ct then
        match h_accept h with
        | Some a => if contains application_json a || contains text_event_stream a then None else Some 406%Z
        | None => Some 406%Z
        end
      else Some 415%Z
    | None => Some 415%Z
    end
  | Get =>
    match h_accept h with
    | Some a => if contains text_event_stream a then None else Some 406%Z
    | None => Some 406%Z
    end
  | Delete => None
  end.

(** *** InMemoryEventStore, 56-123 *)
Record store := MkStore { es_events : gmap text (list (text * message)); es_stream : gmap text text; es_order : list text }.
Definition store_new : store := MkStore ∅ ∅ [].
(** store_event, 69-86 *)
Definition store_event (sid eid : text) (m : message) (s : store) : store :=
  MkStore (<[sid := default [] (es_events s !! sid) ++ [(eid, m)]]> (es_events s)) (<[eid := sid]> (es_stream s)) (es_order s ++ [eid]).
Fixpoint first_event (eid : text) (l : list (text * message)) : option (text * message) :=
  match l with [] => None | (e, m) :: l => if decide (e = eid) then Some (e, m) else first_event eid l end.
Definition event_of (s : store) (eid : text) : option (text * message) :=
  match es_stream s !! eid with
  | Some sid => match es_events s !! sid with Some l => first_event eid l | None => None end
  | None => None
  end.
Fixpoint after (x : text) (l : list text) : option (list text) :=
  match l with [] => None | y :: l => if decide (y = x) then Some l else after x l end.
(** replay_events_after, 88-118 *)
Definition replay_events_after (x : text) (s : store) : list (text * message) :=
  omap (event_of s) (match after x (es_order s) with Some l => l | None => es_order s end).

(** *** SessionInfo and ServerState, 200-216.  [sx_log] are the calls of the two callbacks and of the
    MCP server, in order. *)
Record hsession := MkSession { ss_initialized : bool; ss_version : option text }.
Inductive logged := LOpened (sid : text) | LClosed (sid : text) | LProcessed (sid : option text) (id : rid) (r : request).
(** one SSE stream: its session, the messages waiting, the events written, whether the client still
    reads *)
(** streamable_http_server.rs 213, 732-795 *)
Record stream := MkStream { st_session : text; st_queue : list message; st_events : list (text * message); st_open : bool }.
(** a POST waiting for the MCP server's lock (616), a GET between its check and its insertion
    (724-736) *)
Inductive pending := PPost (hdr rsid : option text) (id : rid) (r : request) | PGet (sid : text) (last : option text).
Record hserver := MkHttp {
  sx_sessions : gmap text hsession; sx_streams : gmap text nat; sx_opened : list stream; sx_store : store; sx_pending : list pending; sx_log : list logged }.
Definition http_new : hserver := MkHttp ∅ ∅ [] store_new [] [].
Record hconfig := MkHConfig { hc_stateful : bool; hc_json : bool; hc_store : bool }.
Inductive hbody := BNone | BError | BJson (m : message) | BEvent (eid : text) (m : message) | BStream (n : nat) | BOk.
Record hresponse := MkResp { hr_status : Z; hr_session : option text; hr_version : option text; hr_body : hbody }.
Definition refuse (status : Z) : hresponse := MkResp status None None BError.
Definition default_version : text := lit "2025-03-26".
Definition supported : list text := [lit "2025-06-18"; lit "2025-03-26"; lit "2024-11-05"; lit "2024-10-07"].

Definition set_session (sid : text) (x : hsession) (s : hserver) : hserver :=
  MkHttp (<[sid := x]> (sx_sessions s)) (sx_streams s) (sx_opened s) (sx_store s) (sx_pending s) (sx_log s).
Definition note (l : logged) (s : hserver) : hserver :=
  MkHttp (sx_sessions s) (sx_streams s) (sx_opened s) (sx_store s) (sx_pending s) (sx_log s ++ [l]).
Definition wait (p : pending) (s : hserver) : hserver :=
  MkHttp (sx_sessions s) (sx_streams s) (sx_opened s) (sx_store s) (sx_pending s ++ [p]) (sx_log s).
Definition keep (sid eid : text) (m : message) (s : hserver) : hserver :=
  MkHttp (sx_sessions s) (sx_streams s) (sx_opened s) (store_event sid eid m (sx_store s)) (sx_pending s) (sx_log s).
Definition at_stream (n : nat) (f : stream → stream) (s : hserver) : hserver :=
  MkHttp (sx_sessions s) (sx_streams s) (alter f n (sx_opened s)) (sx_store s) (sx_pending s) (sx_log s).
Definition queue (m : message) (x : stream) : stream :=
  if st_open x then MkStream (st_session x) (st_queue x ++ [m]) (st_events x) true else x.

Section http.
  Context (cf : hconfig) (answer : list logged → rid → request → rpc_response).
  Definition is_init (m : message) : bool := match m with MsgRequest _ (RClient CInitialize _) => true | _ => false end.
  (** process_init_session, 354-395; [fresh] is what the generator would return *)
  Definition process_init_session (sid ver : option text) (fresh : text) (s : hserver) : hserver * (option text + Z) :=
    if hc_stateful cf then
      match sid with
      | Some sid =>
        match sx_sessions s !! sid with
        | Some (MkSession true _) => (s, inr 400%Z)
        | _ => (s, inl (Some sid))
        end
      | None => (note (LOpened fresh) (set_session fresh (MkSession false ver) s), inl (Some fresh))
      end
    else (s, inl None).
  (** validate_non_init_session, 398-431 *)
  Definition validate_non_init_session (sid : option text) (s : hserver) : option text + Z :=
    if hc_stateful cf then
      match sid with
      | None => inr 400%Z
      | Some sid => match sx_sessions s !! sid with Some _ => inl (Some sid) | None => inr 404%Z end
      end
    else inl None.
  (** validate_protocol_version, 504-543 *)
  Definition validate_protocol_version (sid ver : option text) (s : hserver) : option Z :=
    match ver with
    | None => None
    | Some v =>
      if decide (v ∈ supported) then
        if hc_stateful cf then
          match sid ≫= (sx_sessions s !!.) with
          | Some (MkSession _ (Some w)) => if decide (v = w) then None else Some 400%Z
          | _ => None
          end
        else None
      else Some 400%Z
    end.
  (** handle_post_request up to the lock, 546-612, and the answers that need no lock, 670-674; [body]
      is None when it does not parse *)
  Definition post_start (h : headers) (body : option message) (fresh : text) (s : hserver) : hserver * option hresponse :=
    match validate_headers h Post with
    | Some z => (s, Some (refuse z))
    | None =>
      match body with
      | None => (s, Some (refuse 400))
      | Some m =>
        let '(s, r) := if is_init m then process_init_session (h_session h) (h_version h) fresh s else (s, validate_non_init_session (h_session h) s) in
        match r with
        | inr z => (s, Some (refuse z))
        | inl rsid =>
          match (if is_init m then None else validate_protocol_version (h_session h) (h_version h) s) with
          | Some z => (s, Some (refuse z))
          | None =>
            match m with
            | MsgRequest id r => (wait (PPost (h_session h) rsid id r) s, None)
            | _ => (s, Some (MkResp 202 None None BNone))
            end
          end
        end
      end
    end.
  (** extract_negotiated_version, 434-445 *)
  Definition negotiated (x : rpc_response) : option text :=
    match rs_payload x with
    | PResult v => match decode t_initialize_result v with Some w => Some (text_of (field "protocolVersion" w)) | None => None end
    | PError _ => None
    end.
  (** update_session_after_init, 448-460 *)
  Definition update_session (sid : option text) (ver : option text) (s : hserver) : hserver :=
    match sid with
    | Some sid => match sx_sessions s !! sid with
                  | Some _ => set_session sid (MkSession true (Some (default default_version ver))) s
                  | None => s end
    | None => s
    end.
  (** build_response, 463-501 *)
  Definition build_response (hdr : option text) (m : message) (eid : text) (s : hserver) : hserver * (Z * hbody) :=
    if hc_json cf then (s, (200%Z, BJson m))
    else match hdr with
         | Some sid => match sx_streams s !! sid with
                       | Some n => (at_stream n (queue m) s, (202%Z, BNone))
                       | None => (s, (200%Z, BEvent eid m))
                       end
         | None => (s, (200%Z, BJson m))
         end.
  (** handle_post_request with the lock, 614-669; [eid1] is the event id stored, [eid2] the one sent *)
  Definition post_run (hdr rsid : option text) (id : rid) (r : request) (eid1 eid2 : text) (s : hserver) : hserver * hresponse :=
    let resp := answer (sx_log s) id r in
    let s := note (LProcessed rsid id r) s in
    let init := is_init (MsgRequest id r) in
    let ver := negotiated resp in
    let s := if init then update_session rsid ver s else s in
    let s := match rsid with Some sid => if hc_store cf then keep sid eid1 (MsgResponse resp) s else s | None => s end in
    let '(s, (status, b)) := build_response hdr (MsgResponse resp) eid2 s in
    let send := if init then default default_version ver
                else default default_version (rsid ≫= λ sid, sx_sessions s !! sid ≫= ss_version) in
    (s, MkResp status rsid (Some send) b).
  (** handle_get_sse up to the check for a stream, 679-730 *)
  Definition get_start (h : headers) (fresh : text) (s : hserver) : hserver * option hresponse :=
    match validate_headers h Get with
    | Some z => (s, Some (refuse z))
    | None =>
      let '(s, r) := match h_session h with
                     | Some sid => if hc_stateful cf then match sx_sessions s !! sid with Some _ => (s, inl sid) | None => (s, inr 404%Z) end else (s, inl sid)
                     | None => if hc_stateful cf then (note (LOpened fresh) (set_session fresh (MkSession true None) s), inl fresh) else (s, inr 405%Z)
                     end in
      match r with
      | inr z => (s, Some (refuse z))
      | inl sid => match sx_streams s !! sid with
                   | Some _ => (s, Some (refuse 409))
                   | None => (wait (PGet sid (h_last h)) s, None)
                   end
      end
    end.
  (** the rest, 732-795: the new stream starts with the replayed messages *)
  Definition get_run (sid : text) (last : option text) (s : hserver) : hserver * hresponse :=
    let n := length (sx_opened s) in
    let replayed := match last with Some x => if hc_store cf then (replay_events_after x (sx_store s)).*2 else [] | None => [] end in
    (MkHttp (sx_sessions s) (<[sid := n]> (sx_streams s)) (sx_opened s ++ [MkStream sid replayed [] true]) (sx_store s) (sx_pending s) (sx_log s),
     MkResp 200 (Some sid) None (BStream n)).
  (** handle_delete_session, 798-833 *)
  Definition delete_session (h : headers) (s : hserver) : hserver * hresponse :=
    match h_session h with
    | None => (s, refuse 404)
    | Some sid =>
      if hc_stateful cf && negb (bool_decide (is_Some (sx_sessions s !! sid))) then (s, refuse 404)
      else (note (LClosed sid) (MkHttp (delete sid (sx_sessions s)) (delete sid (sx_streams s)) (sx_opened s) (sx_store s) (sx_pending s) (sx_log s)),
            MkResp 200 None None BOk)
    end.
  (** a stream's task, 754-775: the next message is written with a new id and stored.  Storing is a
      spawned task; here it is done at once. *)
  Definition emit (n : nat) (eid : text) (s : hserver) : hserver :=
    match sx_opened s !! n with
    | Some (MkStream sid (m :: q) out true) =>
      let s := at_stream n (λ _, MkStream sid q (out ++ [(eid, m)]) true) s in
      if hc_store cf then keep sid eid m s else s
    | _ => s
    end.
  Inductive hop :=
  | HPost (h : headers) (body : option message) (fresh : text)
  | HGet (h : headers) (fresh : text)
  | HContinue (i : nat) (eid1 eid2 : text)   (* the i-th waiting request goes on *)
  | HDelete (h : headers)
  | HEmit (n : nat) (eid : text)
  | HDisconnect (n : nat).                   (* the client of stream n goes away: nobody is told *)
  (** No code of its own: removes the request whose handler (546-676) ends *)
  Definition drop_pending (i : nat) (s : hserver) : hserver :=
    MkHttp (sx_sessions s) (sx_streams s) (sx_opened s) (sx_store s) (delete i (sx_pending s)) (sx_log s).
  (** drives streamable_http_server.rs 546-840 *)
  Definition h_step (s : hserver) (o : hop) : hserver * option hresponse :=
    match o with
    | HPost h body fresh => post_start h body fresh s
    | HGet h fresh => get_start h fresh s
    | HContinue i eid1 eid2 =>
      match sx_pending s !! i with
      | Some (PPost hdr rsid id r) => let '(s, x) := post_run hdr rsid id r eid1 eid2 (drop_pending i s) in (s, Some x)
      | Some (PGet sid last) => let '(s, x) := get_run sid last (drop_pending i s) in (s, Some x)
      | None => (s, None)
      end
    | HDelete h => let '(s, x) := delete_session h s in (s, Some x)
    | HEmit n eid => (emit n eid s, None)
    | HDisconnect n => (at_stream n (λ x, MkStream (st_session x) [] (st_events x) false) s, None)
    end.
  Definition h_run (os : list hop) : hserver := fold_left (λ s o, (h_step s o).1) os http_new.
End http.

(** *** The body of a POST: serde's untagged TransportMessage, src/shared/transport.rs:64-78, with the
    untagged Request and Notification, src/types/protocol.rs:766-787.  Simplified: structs are read from
    objects only (serde also reads them from arrays), a unit variant's params are absent or null. *)
Fixpoint variant {A} (tag : A → text) (all : list A) (m : text) : option A :=
  match all with [] => None | a :: all => if decide (m = tag a) then Some a else variant tag all m end.
Definition tagged {A} (tag : A → text) (bd : A → body) (all : list A) (l : list (text * json)) : option (A * json) :=
  match str_field "method" l ≫= variant tag all with
  | Some a => match assoc (lit "params") l with
              | Some p => pair a <$> body_of (bd a) p
              | None => match bd a with BUnit => Some (a, JNull) | BTy _ => None end
              end
  | None => None
  end.
Definition request_of_doc (v : json) : option request :=
  match v with
  | JObj l => match tagged creq_tag creq_body creqs l with
              | Some (c, b) => Some (RClient c b)
              | None => match tagged sreq_tag sreq_body sreqs l with Some (c, b) => Some (RServer c b) | None => None end
              end
  | _ => None
  end.
Definition notification_of_doc (v : json) : option notification :=
  match v with
  | JObj l => match tagged cnot_tag cnot_body cnots l with
              | Some (c, b) => Some (NClient c b)
              | None => match tagged snot_tag snot_body snots l with
                        | Some (c, b) => Some (NServer c b)
                        | None => match decode t_progress v with
                                  | Some p => Some (NProgress p)
                                  | None => NCancelled <$> decode t_cancelled v
                                  end
                        end
              end
  | _ => None
  end.
Definition message_of_doc (v : json) : option message :=
  match v with
  | JObj l =>
    match assoc (lit "id") l ≫= rid_of_json, assoc (lit "request") l ≫= request_of_doc with
    | Some id, Some r => Some (MsgRequest id r)
    | _, _ => match response_of_json v with
              | Some x => Some (MsgResponse x)
              | None => MsgNotification <$> notification_of_doc v
              end
    end
  | _ => None
  end.
(** The derived Serialize of TransportMessage, what StreamableHttpTransport posts
    (src/shared/streamable_http.rs:329) *)
Definition tagged_doc (tag : text) (b : body) (p : json) : list (text * json) :=
  (lit "method", JStr tag) :: match b with BUnit => [] | BTy _ => [(lit "params", p)] end.
Definition message_doc (m : message) : json :=
  match m with
  | MsgRequest id (RClient c p) => JObj [(lit "id", rid_json id); (lit "request", JObj (tagged_doc (creq_tag c) (creq_body c) p))]
  | MsgRequest id (RServer c p) => JObj [(lit "id", rid_json id); (lit "request", JObj (tagged_doc (sreq_tag c) (sreq_body c) p))]
  | MsgResponse x => response_json x
  | MsgNotification (NClient c p) => JObj (tagged_doc (cnot_tag c) (cnot_body c) p)
  | MsgNotification (NServer c p) => JObj (tagged_doc (snot_tag c) (snot_body c) p)
  | MsgNotification (NProgress p) | MsgNotification (NCancelled p) => p
  end.
