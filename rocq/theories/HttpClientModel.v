(** The streamable HTTP client: src/shared/streamable_http.rs.  Definitions only.  The transport can be
    cloned and its clones share everything, so calls overlap: a call is two steps, the request going out
    and the reply coming in. *)
From stdpp Require Import strings list.
From Verif Require Import ListLib TextLib Utf8Lib JsonLib SerdeLib TypesModel RpcModel SseModel HttpModel.

(** StreamableHttpTransportConfig, 89-102: enable_json_response is never looked at; the url and the
    callback are left out (the callback's calls are logged in [tp_tokens]).  Names of extra headers are
    lower case, values are legal. *)
Record tconfig := MkTConfig { tc_extra : list (text * text); tc_auth : bool }.
(** A request: headers in the order they are added (reqwest appends), and the posted document *)
(** src/shared/streamable_http.rs 199-210, 263-316, 333-340, 461 *)
Record crequest := MkRequest { cr_verb : verb; cr_headers : list (text * text); cr_body : option json }.
(** A reply's status and headers (None: absent or not visible ASCII).  [rp_body]: the whole body, used
    unless it is an event stream; None: reading it fails. *)
(** streamable_http.rs 205-233, 341-430 *)
Record reply := MkReply { rp_status : Z; rp_session : option text; rp_version : option text; rp_type : option text; rp_body : option (list N) }.
(** What a call waits for.  [XGet true]: start_sse called by send, which ignores its result (streamable_http.rs 191, 318, 451) *)
Inductive exchange := XPost (m : message) | XGet (quiet : bool) | XDelete.
(** StreamableHttpTransport, 125-137.  [tp_queue] is the channel and [tp_got] what was received from it;
    [tp_streams]: for each event stream ever opened, whether its task still waits for the body;
    [tp_sent]: the requests made. *)
Record transport := MkTransport {
  tp_session : option text; tp_version : option text; tp_last : option text; tp_queue : list message; tp_got : list message;
  tp_flight : list (option exchange); tp_streams : list bool; tp_handle : option nat; tp_tokens : list text; tp_sent : list crequest }.
(** new, 152-163; [session] is the configured one *)
Definition transport_new (session : option text) : transport := MkTransport session None None [] [] [] [] None [] [].

Definition set_session (v : option text) (s : transport) : transport :=
  MkTransport v (tp_version s) (tp_last s) (tp_queue s) (tp_got s) (tp_flight s) (tp_streams s) (tp_handle s) (tp_tokens s) (tp_sent s).
Definition set_version (v : option text) (s : transport) : transport :=
  MkTransport (tp_session s) v (tp_last s) (tp_queue s) (tp_got s) (tp_flight s) (tp_streams s) (tp_handle s) (tp_tokens s) (tp_sent s).
Definition push (ms : list message) (s : transport) : transport :=
  MkTransport (tp_session s) (tp_version s) (tp_last s) (tp_queue s ++ ms) (tp_got s) (tp_flight s) (tp_streams s) (tp_handle s) (tp_tokens s) (tp_sent s).
Definition saw_id (i : text) (s : transport) : transport :=
  MkTransport (tp_session s) (tp_version s) (Some i) (tp_queue s) (tp_got s) (tp_flight s) (tp_streams s) (tp_handle s) (tp_tokens s ++ [i]) (tp_sent s).
Definition request (q : crequest) (x : exchange) (s : transport) : transport :=
  MkTransport (tp_session s) (tp_version s) (tp_last s) (tp_queue s) (tp_got s) (tp_flight s ++ [Some x]) (tp_streams s) (tp_handle s) (tp_tokens s) (tp_sent s ++ [q]).
Definition answered (i : nat) (s : transport) : transport :=
  MkTransport (tp_session s) (tp_version s) (tp_last s) (tp_queue s) (tp_got s) (<[i := None]> (tp_flight s)) (tp_streams s) (tp_handle s) (tp_tokens s) (tp_sent s).
(** a spawned task waits for the body of a stream; [keep]: its handle is kept for abort (streamable_http.rs 235-259, 398-425) *)
Definition open_stream (keep : bool) (s : transport) : transport :=
  MkTransport (tp_session s) (tp_version s) (tp_last s) (tp_queue s) (tp_got s) (tp_flight s) (tp_streams s ++ [true])
    (if keep then Some (length (tp_streams s)) else tp_handle s) (tp_tokens s) (tp_sent s).
Definition close_stream (n : nat) (s : transport) : transport :=
  MkTransport (tp_session s) (tp_version s) (tp_last s) (tp_queue s) (tp_got s) (tp_flight s) (<[n := false]> (tp_streams s)) (tp_handle s) (tp_tokens s) (tp_sent s).
(** 193-196, 453-456: the task only waits for the body, so it is aborted before it has done anything *)
Definition abort_stream (s : transport) : transport :=
  let s' := match tp_handle s with Some n => close_stream n s | None => s end in
  MkTransport (tp_session s') (tp_version s') (tp_last s') (tp_queue s') (tp_got s') (tp_flight s') (tp_streams s') None (tp_tokens s') (tp_sent s').

(** http_constants.rs; header names in lower case (src/shared/http_constants.rs 5-27) *)
Definition SESSION : text := lit "mcp-session-id".
Definition VERSION : text := lit "mcp-protocol-version".
Definition ACCEPT : text := lit "accept".
Definition CONTENT_TYPE : text := lit "content-type".
Definition LAST_EVENT : text := lit "last-event-id".
Definition accept_streamable : text := lit "application/json, text/event-stream".
(** No code of its own: the conditional headers of streamable_http.rs 263-316; tresult: the results of 437-470 *)
Definition opt_header (n : text) (v : option text) : list (text * text) := match v with Some v => [(n, v)] | None => [] end.
Inductive tresult := TOk | TErr | TMsg (m : message).

Section client.
  Context (cf : tconfig).
  (** build_request, 263-298; [tok] is what the auth provider returns, None its error *)
  Definition build_request (tok : option text) (s : transport) : option (list (text * text)) :=
    if tc_auth cf then
      match tok with
      | Some t => Some (tc_extra cf ++ [(lit "authorization", lit "Bearer " ++ t)] ++ opt_header SESSION (tp_session s) ++ opt_header VERSION (tp_version s))
      | None => None
      end
    else Some (tc_extra cf ++ opt_header SESSION (tp_session s) ++ opt_header VERSION (tp_version s)).
  (** process_response_headers, 301-315 *)
  Definition process_headers (r : reply) (s : transport) : transport :=
    let s := match rp_session r with Some v => set_session (Some v) s | None => s end in
    match rp_version r with Some v => set_version (Some v) s | None => s end.
  (** the loop over the events of a body, 241-257 and 404-418 *)
  Definition take_event (s : transport) (e : sse_event) : transport :=
    let s := match e_id e with Some i => saw_id i s | None => s end in
    if match e_event e with Some t => bool_decide (t = lit "message") | None => true end
    then match parse_value (e_data e) ≫= message_of_doc with Some m => push [m] s | None => s end
    else s.
  (** a new parser is fed the whole body, 236-240 and 399-403; if it panics the task ends *)
  Definition take_body (body : list N) (s : transport) : transport :=
    match feed parser0 body with Some (_, es) => fold_left take_event es s | None => s end.
  (** 369-392: an array of messages, or one message *)
  Definition json_messages (bs : list N) : option (list message) :=
    match of_bytes bs with
    | Some (JArr l) => mapM message_of_doc l
    | Some v => (λ m, [m]) <$> message_of_doc v
    | None => None
    end.
  Definition is_success (z : Z) : bool := ((200 <=? z) && (z <? 300))%Z.
  (** start_sse up to its request, 191-208 *)
  Definition begin_get (token tok : option text) (quiet : bool) (s : transport) : transport * option tresult :=
    let s := abort_stream s in
    match build_request tok s with
    | None => (s, Some (if quiet then TOk else TErr))
    | Some hs => (request (MkRequest Get (hs ++ [(ACCEPT, text_event_stream)] ++ opt_header LAST_EVENT token) None) (XGet quiet) s, None)
    end.
  (** start_sse's reply, 210-260 *)
  Definition end_get (quiet : bool) (r : option reply) (s : transport) : transport * tresult :=
    let fail := if quiet then TOk else TErr in
    match r with
    | None => (s, fail)
    | Some r => if (rp_status r =? 405)%Z then (s, TOk)
                else if is_success (rp_status r) then (open_stream true (process_headers r s), TOk) else (s, fail)
    end.
  (** send_with_options up to its request, 318-341 *)
  Definition begin_send (m : message) (token tok : option text) (s : transport) : transport * option tresult :=
    match token with
    | Some t => begin_get (Some t) tok false s
    | None =>
      match build_request tok s with
      | None => (s, Some TErr)
      | Some hs => (request (MkRequest Post (hs ++ [(CONTENT_TYPE, application_json); (ACCEPT, accept_streamable)]) (Some (message_doc m))) (XPost m) s, None)
      end
    end.
  Definition is_note (m : message) : bool := match m with MsgNotification _ => true | _ => false end.
  (** the reply to a post, 342-432; [tok] for the request of 352.  [None]: the call waits again *)
  Definition end_send (m : message) (r : option reply) (tok : option text) (s : transport) : transport * option tresult :=
    match r with
    | None => (s, Some TErr)
    | Some r =>
      let s := process_headers r s in
      if is_success (rp_status r) then
        let ct := default [] (rp_type r) in
        if contains application_json ct then
          match rp_body r ≫= json_messages with Some ms => (push ms s, Some TOk) | None => (s, Some TErr) end
        else if contains text_event_stream ct then (open_stream false s, Some TOk)
        else if (rp_status r =? 202)%Z then (s, Some TOk)
        else (s, Some TErr)
      else if (rp_status r =? 202)%Z then
        if is_note m then begin_get None tok true s else (s, Some TOk)
      else (s, Some TErr)
    end.
  (** close, 451-477 *)
  Definition begin_close (tok : option text) (s : transport) : transport * option tresult :=
    let s := abort_stream s in
    match tp_session s with
    | None => (s, Some TOk)
    | Some _ => match build_request tok s with
                | None => (s, Some TErr)
                | Some hs => (request (MkRequest Delete hs None) XDelete s, None)
                end
    end.
  Inductive top :=
  | TSend (m : message) (token tok : option text)
  | TStart (token tok : option text)
  | TClose (tok : option text)
  | TReply (i : nat) (r : option reply) (tok : option text)   (* the reply to the i-th request, None: it failed *)
  | TBody (n : nat) (body : list N)                           (* the n-th event stream has ended; its body, as text ("" if reading failed) *)
  | TReceive
  | TSetSession (v : option text) | TSetVersion (v : option text).
  (** receive, 442-448, waits while there is nothing *)
  Definition receive (s : transport) : transport * option tresult :=
    match tp_queue s with
    | [] => (s, None)
    | m :: q => (MkTransport (tp_session s) (tp_version s) (tp_last s) q (tp_got s ++ [m]) (tp_flight s) (tp_streams s) (tp_handle s) (tp_tokens s) (tp_sent s), Some (TMsg m))
    end.
  Definition tp_step (s : transport) (o : top) : transport * option tresult :=
    match o with
    | TSend m token tok => begin_send m token tok s
    | TStart token tok => begin_get token tok false s
    | TClose tok => begin_close tok s
    | TReply i r tok =>
      match tp_flight s !! i with
      | Some (Some (XPost m)) => end_send m r tok (answered i s)
      | Some (Some (XGet quiet)) => let '(s, x) := end_get quiet r (answered i s) in (s, Some x)
      | Some (Some XDelete) => (set_session None (answered i s), Some TOk)
      | _ => (s, None)
      end
    | TBody n body =>
      match tp_streams s !! n with
      | Some true => (take_body body (close_stream n s), None)
      | _ => (s, None)
      end
    | TReceive => receive s
    | TSetSession v => (set_session v s, Some TOk)
    | TSetVersion v => (set_version v s, Some TOk)
    end.
  Definition tp_run (session : option text) (os : list top) : transport := fold_left (λ s o, (tp_step s o).1) os (transport_new session).
End client.

(** *** What the library's own server puts on the wire.  axum writes an Event as its fields in the order
    they are set (streamable_http_server.rs:489-494 and 769-774: id, event, data), like [display]; Json
    sets the content type application/json, Sse text/event-stream. *)
Definition event_for (eid : text) (m : message) : sse_event := MkSse (Some eid) (Some (lit "message")) (show (message_doc m)) None.
(** The headers a server sees: HeaderMap::get returns the first value of a name (read by src/server/streamable_http_server.rs 288-350, 354-430) *)
Definition first_header (n : text) (l : list (text * text)) : option text := snd <$> (snd <$> list_find (λ x, x.1 = n) l).
Definition seen_headers (l : list (text * text)) : headers :=
  MkHeaders (first_header CONTENT_TYPE l) (first_header ACCEPT l) (first_header SESSION l) (first_header VERSION l) (first_header LAST_EVENT l).
(** The reply of the server to a POST: the body and content type of a response *)
(** what build_response (streamable_http_server.rs 463-500) makes, as streamable_http.rs 341-430 reads it *)
Definition reply_of (x : hresponse) : reply :=
  MkReply (hr_status x) (hr_session x) (hr_version x)
    (match hr_body x with BJson _ => Some application_json | BEvent _ _ | BStream _ => Some text_event_stream | _ => None end)
    (match hr_body x with BJson m => Some (to_bytes (message_doc m)) | _ => Some [] end).
