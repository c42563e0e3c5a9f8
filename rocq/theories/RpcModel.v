(** JSON-RPC envelopes (src/types/jsonrpc.rs), errors (src/error/mod.rs), the typed request and
    notification enums (src/types/protocol.rs:526-787), the protocol helpers
    (src/shared/protocol_helpers.rs) and the stdio transport (src/shared/stdio.rs). *)
From stdpp Require Import sets list strings.
From Verif Require Import ListLib TextLib Utf8Lib JsonLib SerdeLib TypesModel.
Local Open Scope N_scope.

(** *** Request ids: src/types/jsonrpc.rs:28-70 *)
Inductive rid := IdStr (s : list N) | IdNum (z : Z).
Definition i64_max : Z := 9223372036854775807.
Definition i64_min : Z := -9223372036854775808.
(** From<i64>, 58-62 *)
Definition rid_of_i64 (z : Z) : rid := IdNum z.
(** From<u64>, 64-70: i64::try_from(n).unwrap_or(i64::MAX) *)
Definition rid_of_u64 (n : N) : rid := IdNum (if (Z.of_N n <=? i64_max)%Z then Z.of_N n else i64_max).
(** From<&str>/From<String>, 46-56 *)
Definition rid_of_str (s : list N) : rid := IdStr s.
Definition rid_json (i : rid) : json := match i with IdStr s => JStr s | IdNum z => JInt z end.
Definition rid_of_json (v : json) : option rid :=
  match decode t_request_id v with
  | Some (JStr s) => Some (IdStr s) | Some (JInt z) => Some (IdNum z) | _ => None end.
(** Display, 37-44 *)
Definition rid_show (i : rid) : list N := match i with IdStr s => s | IdNum z => show_Z z end.

(** *** Requests, 115-149 *)
Definition jsonrpc_version : list N := lit "2.0".
Record rpc_request := { rq_jsonrpc : list N; rq_id : rid; rq_method : list N; rq_params : option json }.
Definition new_request (id : rid) (m : list N) (p : option json) : rpc_request :=
  {| rq_jsonrpc := jsonrpc_version; rq_id := id; rq_method := m; rq_params := p |}.
Definition opt_field (n : string) (o : option json) : list (list N * json) :=
  match o with Some v => [(lit n, v)] | None => [] end.
(** The derived Serialize of JSONRPCRequest, 115-126 *)
Definition request_json (q : rpc_request) : json :=
  JObj ([(lit "jsonrpc", JStr (rq_jsonrpc q)); (lit "id", rid_json (rq_id q)); (lit "method", JStr (rq_method q))]
        ++ opt_field "params" (rq_params q)).
Definition t_rpc_request : ty := struct
  [req "jsonrpc" TStr; req "id" t_request_id; req "method" TStr; opt "params" TAny].
Definition str_field (n : string) (l : list (list N * json)) : option (list N) :=
  match assoc (lit n) l with Some (JStr s) => Some s | _ => None end.
(** Reading the decoded fields into the record (src/types/jsonrpc.rs 116-126) *)
Definition request_of_json (v : json) : option rpc_request :=
  match decode t_rpc_request v with
  | Some (JObj l) =>
    match str_field "jsonrpc" l, assoc (lit "id") l ≫= rid_of_json, str_field "method" l with
    | Some j, Some i, Some m => Some {| rq_jsonrpc := j; rq_id := i; rq_method := m; rq_params := assoc (lit "params") l |}
    | _, _, _ => None
    end
  | _ => None
  end.
(** JSONRPCRequest::validate, 140-148: Ok(()) exactly for this version *)
Definition request_valid (q : rpc_request) : bool := bool_decide (rq_jsonrpc q = jsonrpc_version).

(** *** Notifications, 272-292 *)
Record rpc_notification := { rn_jsonrpc : list N; rn_method : list N; rn_params : option json }.
Definition new_notification (m : list N) (p : option json) : rpc_notification :=
  {| rn_jsonrpc := jsonrpc_version; rn_method := m; rn_params := p |}.
Definition notification_json (q : rpc_notification) : json :=
  JObj ([(lit "jsonrpc", JStr (rn_jsonrpc q)); (lit "method", JStr (rn_method q))] ++ opt_field "params" (rn_params q)).
Definition t_rpc_notification : ty := struct [req "jsonrpc" TStr; req "method" TStr; opt "params" TAny].
Definition notification_of_json (v : json) : option rpc_notification :=
  match decode t_rpc_notification v with
  | Some (JObj l) =>
    match str_field "jsonrpc" l, str_field "method" l with
    | Some j, Some m => Some {| rn_jsonrpc := j; rn_method := m; rn_params := assoc (lit "params") l |}
    | _, _ => None
    end
  | _ => None
  end.

(** *** Errors on the wire, 295-304 *)
Record rpc_error := { er_code : Z; er_message : list N; er_data : option json }.
Definition error_json (e : rpc_error) : json :=
  JObj ([(lit "code", JInt (er_code e)); (lit "message", JStr (er_message e))] ++ opt_field "data" (er_data e)).
Definition t_rpc_error : ty := struct [req "code" t_i32; req "message" TStr; opt "data" TAny].
Definition error_of_json (v : json) : option rpc_error :=
  match decode t_rpc_error v with
  | Some (JObj l) =>
    match assoc (lit "code") l, str_field "message" l with
    | Some (JInt c), Some m => Some {| er_code := c; er_message := m; er_data := assoc (lit "data") l |}
    | _, _ => None
    end
  | _ => None
  end.

(** *** Responses, 204-223: payload is a flattened externally tagged enum *)
Inductive payload := PResult (v : json) | PError (e : rpc_error).
Record rpc_response := { rs_jsonrpc : list N; rs_id : rid; rs_payload : payload }.
Definition response_json (r : rpc_response) : json :=
  JObj [(lit "jsonrpc", JStr (rs_jsonrpc r)); (lit "id", rid_json (rs_id r));
        match rs_payload r with PResult v => (lit "result", v) | PError e => (lit "error", error_json e) end].
(** serde's FlatMapDeserializer::deserialize_enum: the first remaining entry named after a variant (src/types/jsonrpc.rs 211, 218-226) *)
Fixpoint find_payload (l : list (list N * json)) : option payload :=
  match l with
  | [] => None
  | (k, v) :: l =>
    if decide (k = lit "result") then Some (PResult v)
    else if decide (k = lit "error") then PError <$> error_of_json v
    else find_payload l
  end.
(** src/types/jsonrpc.rs 205-226 *)
Definition response_of_json (v : json) : option rpc_response :=
  match v with
  | JObj l =>
    match str_field "jsonrpc" l, assoc (lit "id") l ≫= rid_of_json, find_payload l with
    | Some j, Some i, Some p => Some {| rs_jsonrpc := j; rs_id := i; rs_payload := p |}
    | _, _, _ => None
    end
  | _ => None
  end.
(** success/error constructors, 227-242 *)
Definition success (id : rid) (v : json) : rpc_response := {| rs_jsonrpc := jsonrpc_version; rs_id := id; rs_payload := PResult v |}.
Definition failure (id : rid) (e : rpc_error) : rpc_response := {| rs_jsonrpc := jsonrpc_version; rs_id := id; rs_payload := PError e |}.

(** *** RawMessage and message_type, 350-397.  Every field but jsonrpc is optional, null or missing
    being None; the raw values are kept as documents. *)
Inductive message_type := MRequest | MNotification | MResponse | MErrorResponse | MInvalid.
Definition t_raw_message : ty := struct
  [req "jsonrpc" TStr; opt "id" t_request_id; opt "method" TStr; opt "params" TAny; opt "result" TAny; opt "error" t_rpc_error].
Definition classify (v : json) : option message_type :=
  match decode t_raw_message v with
  | Some (JObj l) =>
    Some (match assoc (lit "id") l, assoc (lit "method") l, assoc (lit "result") l, assoc (lit "error") l with
          | Some _, Some _, None, None => MRequest
          | None, Some _, None, None => MNotification
          | Some _, None, Some _, None => MResponse
          | Some _, None, None, Some _ => MErrorResponse
          | _, _, _, _ => MInvalid
          end)
  | _ => None
  end.

(** *** Errors in the API: src/error/mod.rs:14-75 *)
Inductive api_error :=
| EProtocol (code : Z) (msg : list N) (data : option json)
| ETransport (shown : list N) | ESerialization (shown : list N) | EValidation (s : list N) | EAuthentication (s : list N)
| ETimeout (ms : N) | EUnsupported (s : list N) | EInternal (s : list N) | ENotFound (s : list N)
| EInvalidState (s : list N) | ECancelled | EOther (shown : list N).
(** The #[error] attributes, src/error/mod.rs:14-75 *)
Definition error_display (e : api_error) : list N :=
  match e with
  | EProtocol c m _ => lit "Protocol error: " ++ show_Z c ++ lit " - " ++ m
  | ETransport s => lit "Transport error: " ++ s
  | ESerialization s => lit "Serialization error: " ++ s
  | EValidation s => lit "Validation error: " ++ s
  | EAuthentication s => lit "Authentication error: " ++ s
  | ETimeout n => lit "Request timed out after " ++ show_N n ++ lit "ms"
  | EUnsupported s => lit "Capability not supported: " ++ s
  | EInternal s => lit "Internal error: " ++ s
  | ENotFound s => lit "Resource not found: " ++ s
  | EInvalidState s => lit "Invalid state: " ++ s
  | ECancelled => lit "Operation cancelled"
  | EOther s => s
  end.
(** src/error/mod.rs:212-239 *)
Definition standard_code (c : Z) : bool :=
  (bool_decide (c = -32700) || bool_decide (c = -32600) || bool_decide (c = -32601) || bool_decide (c = -32602) || bool_decide (c = -32603))%Z.
Definition mcp_code (c : Z) : bool :=
  (bool_decide (c = -32001) || bool_decide (c = -32002) || bool_decide (c = -32003) || bool_decide (c = -32004))%Z.
Definition server_range (c : Z) : bool := ((-32099 <=? c) && (c <=? -32000))%Z.
(** ErrorCode::from_i32, src/error/mod.rs:191-209 *)
Definition code_of_i32 (c : Z) : Z :=
  if standard_code c then c else if mcp_code c then c else if server_range c then (-32603)%Z else c.
(** From<Error> for JSONRPCError, src/types/jsonrpc.rs:326-341 *)
Definition to_rpc_error (e : api_error) : rpc_error :=
  match e with
  | EProtocol c m d => {| er_code := c; er_message := m; er_data := d |}
  | e => {| er_code := -32603; er_message := error_display e; er_data := None |}
  end.
(** Error::from_jsonrpc_error, src/error/mod.rs:846-852 *)
Definition of_rpc_error (e : rpc_error) : api_error := EProtocol (code_of_i32 (er_code e)) (er_message e) (er_data e).

(** *** Typed requests: src/types/protocol.rs:526-592 *)
Inductive creq :=
| CInitialize | CListTools | CCallTool | CListPrompts | CGetPrompt | CListResources | CListResourceTemplates
| CReadResource | CSubscribe | CUnsubscribe | CComplete | CSetLoggingLevel | CPing | CCreateMessage | CElicitResponse.
Inductive sreq := SCreateMessage | SListRoots | SElicitInput.
(** What the variant carries: nothing, or a value of a type (src/types/protocol.rs 527-580, 581-600) *)
Inductive body := BUnit | BTy (t : ty).
Definition creq_body (c : creq) : body :=
  match c with
  | CInitialize => BTy t_initialize_request
  | CListTools | CListPrompts | CListResources | CListResourceTemplates => BTy t_list_request
  | CCallTool => BTy t_call_tool_request
  | CGetPrompt => BTy t_get_prompt_request
  | CReadResource | CSubscribe | CUnsubscribe => BTy t_uri_params
  | CComplete => BTy t_complete_request
  | CSetLoggingLevel => BTy (TStruct MapOnly [req "level" t_logging_level])
  | CPing => BUnit
  | CCreateMessage => BTy t_create_message
  | CElicitResponse => BTy t_elicit_response
  end.
Definition sreq_body (s : sreq) : body :=
  match s with SCreateMessage => BTy t_create_message | SListRoots => BUnit | SElicitInput => BTy t_elicit_request end.
(** The serde tags, src/types/protocol.rs:530-576, 584-591 *)
Definition creq_tag (c : creq) : list N :=
  match c with
  | CInitialize => lit "initialize" | CListTools => lit "tools/list" | CCallTool => lit "tools/call"
  | CListPrompts => lit "prompts/list" | CGetPrompt => lit "prompts/get" | CListResources => lit "resources/list"
  | CListResourceTemplates => lit "resources/templates/list" | CReadResource => lit "resources/read"
  | CSubscribe => lit "resources/subscribe" | CUnsubscribe => lit "resources/unsubscribe"
  | CComplete => lit "completion/complete" | CSetLoggingLevel => lit "logging/setLevel" | CPing => lit "ping"
  | CCreateMessage => lit "sampling/createMessage" | CElicitResponse => lit "elicitation/response"
  end.
Definition sreq_tag (s : sreq) : list N :=
  match s with
  | SCreateMessage => lit "sampling/createMessage" | SListRoots => lit "roots/list"
  | SElicitInput => lit "elicitation/elicitInput" end.
Definition creqs : list creq :=
  [CInitialize; CListTools; CCallTool; CListPrompts; CGetPrompt; CListResources; CListResourceTemplates;
   CReadResource; CSubscribe; CUnsubscribe; CComplete; CSetLoggingLevel; CPing; CCreateMessage; CElicitResponse].
Definition sreqs : list sreq := [SCreateMessage; SListRoots; SElicitInput].
Inductive request := RClient (c : creq) (p : json) | RServer (s : sreq) (p : json).

(** *** Typed notifications: src/types/protocol.rs:683-698, 715-739, 776-787 *)
Inductive cnot := CInitialized | CRootsListChanged | CCancelled | CProgress.
Inductive snot := SProgress | SToolsChanged | SPromptsChanged | SResourcesChanged | SRootsListChanged | SResourceUpdated | SLogMessage.
Definition cnot_body (c : cnot) : body :=
  match c with CInitialized | CRootsListChanged => BUnit | CCancelled => BTy t_cancelled | CProgress => BTy t_progress end.
Definition snot_body (s : snot) : body :=
  match s with
  | SProgress => BTy t_progress
  | SToolsChanged | SPromptsChanged | SResourcesChanged | SRootsListChanged => BUnit
  | SResourceUpdated => BTy t_uri_params | SLogMessage => BTy t_log_message end.
Definition cnot_tag (c : cnot) : list N :=
  match c with
  | CInitialized => lit "notifications/initialized" | CRootsListChanged => lit "notifications/roots/list_changed"
  | CCancelled => lit "notifications/cancelled" | CProgress => lit "notifications/progress" end.
Definition snot_tag (s : snot) : list N :=
  match s with
  | SProgress => lit "notifications/progress" | SToolsChanged => lit "notifications/tools/list_changed"
  | SPromptsChanged => lit "notifications/prompts/list_changed" | SResourcesChanged => lit "notifications/resources/list_changed"
  | SRootsListChanged => lit "notifications/roots/list_changed" | SResourceUpdated => lit "notifications/resources/updated"
  | SLogMessage => lit "notifications/message" end.
Definition cnots : list cnot := [CInitialized; CRootsListChanged; CCancelled; CProgress].
Definition snots : list snot := [SProgress; SToolsChanged; SPromptsChanged; SResourcesChanged; SRootsListChanged; SResourceUpdated; SLogMessage].
Inductive notification := NClient (c : cnot) (p : json) | NServer (s : snot) (p : json) | NProgress (p : json) | NCancelled (p : json).

(** *** Reading an adjacently tagged enum (serde derive) from {"method": m, "params": p}: a unit
    variant is read from null only. *)
(** src/types/protocol.rs 527, 581 *)
Definition body_of (b : body) (p : json) : option json :=
  match b with BUnit => match p with JNull => Some JNull | _ => None end | BTy t => decode t p end.
Fixpoint adjacent {A} (tag : A → list N) (bd : A → body) (all : list A) (m : list N) (p : json) : option (A * json) :=
  match all with
  | [] => None
  | a :: all => if decide (m = tag a) then pair a <$> body_of (bd a) p else adjacent tag bd all m p
  end.

(** *** src/shared/protocol_helpers.rs *)
(** parse_client_request 106-114, parse_server_request 116-124 *)
Definition parse_client_request := adjacent creq_tag creq_body creqs.
Definition parse_server_request := adjacent sreq_tag sreq_body sreqs.
Definition parse_client_notification := adjacent cnot_tag cnot_body cnots.
Definition parse_server_notification := adjacent snot_tag snot_body snots.
Definition or_null (o : option json) : json := match o with Some v => v | None => JNull end.
(** parse_request 11-28; None is Err(method_not_found(method)) *)
Definition parse_request (q : rpc_request) : option (rid * request) :=
  let p := or_null (rq_params q) in
  match parse_client_request (rq_method q) p with
  | Some (c, b) => Some (rq_id q, RClient c b)
  | None =>
    match parse_server_request (rq_method q) p with
    | Some (s, b) => Some (rq_id q, RServer s b)
    | None => None
    end
  end.
(** parse_notification 31-61; None is any of its errors *)
Definition parse_notification (v : json) : option notification :=
  match notification_of_json v with
  | None => None
  | Some n =>
    let p := or_null (rn_params n) in
    if decide (rn_method n = lit "notifications/progress") then NProgress <$> decode t_progress p
    else if decide (rn_method n = lit "notifications/cancelled") then NCancelled <$> decode t_cancelled p
    else match parse_client_notification (rn_method n) p with
         | Some (c, b) => Some (NClient c b)
         | None =>
           match parse_server_notification (rn_method n) p with
           | Some (s, b) => Some (NServer s b)
           | None => None
           end
         end
  end.
(** client_request_to_jsonrpc 146-184, create_method_params 187-192 *)
Definition client_wire (c : creq) (p : json) : list N * option json :=
  match c with
  | CInitialize => (lit "initialize", Some p)
  | CPing => (lit "ping", None)
  | CSetLoggingLevel => (lit "logging/setLevel", Some p)
  | CListTools => (lit "tools/list", Some p)
  | CCallTool => (lit "tools/call", Some p)
  | CListPrompts => (lit "prompts/list", Some p)
  | CGetPrompt => (lit "prompts/get", Some p)
  | CListResources => (lit "resources/list", Some p)
  | CListResourceTemplates => (lit "resources/templates/list", Some p)
  | CReadResource => (lit "resources/read", Some p)
  | CSubscribe => (lit "resources/subscribe", Some p)
  | CUnsubscribe => (lit "resources/unsubscribe", Some p)
  | CComplete => (lit "completion/complete", Some p)
  | CCreateMessage => (lit "sampling/createMessage", Some p)
  | CElicitResponse => (lit "elicitation/response", Some p)
  end.
(** server_request_to_jsonrpc 194-206 *)
Definition server_wire (s : sreq) (p : json) : list N * option json :=
  match s with
  | SCreateMessage => (lit "sampling/createMessage", Some p)
  | SListRoots => (lit "roots/list", None)
  | SElicitInput => (lit "elicitation/input", Some p)
  end.
(** client_notification_to_jsonrpc 208-223, server_notification_to_jsonrpc 225-250 *)
Definition cnot_wire (c : cnot) (p : json) : list N * option json :=
  match c with
  | CInitialized => (lit "notifications/initialized", None)
  | CRootsListChanged => (lit "notifications/roots/list_changed", None)
  | CCancelled => (lit "notifications/cancelled", Some p)
  | CProgress => (lit "notifications/progress", Some p)
  end.
Definition snot_wire (s : snot) (p : json) : list N * option json :=
  match s with
  | SProgress => (lit "notifications/progress", Some p)
  | SToolsChanged => (lit "notifications/tools/list_changed", None)
  | SPromptsChanged => (lit "notifications/prompts/list_changed", None)
  | SResourcesChanged => (lit "notifications/resources/list_changed", None)
  | SRootsListChanged => (lit "notifications/roots/list_changed", None)
  | SResourceUpdated => (lit "notifications/resources/updated", Some p)
  | SLogMessage => (lit "notifications/message", Some p)
  end.
(** create_request 64-77 *)
Definition create_request (id : rid) (r : request) : rpc_request :=
  let '(m, p) := match r with RClient c p => client_wire c p | RServer s p => server_wire s p end in
  new_request id m p.
(** create_notification 84-102 *)
Definition create_notification (n : notification) : rpc_notification :=
  let '(m, p) := match n with
                 | NClient c p => cnot_wire c p
                 | NServer s p => snot_wire s p
                 | NProgress p => (lit "notifications/progress", Some p)
                 | NCancelled p => (lit "notifications/cancelled", Some p)
                 end in
  new_notification m p.

(** *** Messages on a transport: src/shared/transport.rs:64-78 *)
Inductive message := MsgRequest (id : rid) (r : request) | MsgResponse (r : rpc_response) | MsgNotification (n : notification).
(** StdioTransport::serialize_message, src/shared/stdio.rs:112-139, as a document *)
Definition message_json (m : message) : json :=
  match m with
  | MsgRequest id r => request_json (create_request id r)
  | MsgResponse r => response_json r
  | MsgNotification n => notification_json (create_notification n)
  end.
Definition has_key (k : string) (v : json) : bool :=
  match v with JObj l => match assoc (lit k) l with Some _ => true | None => false end | _ => false end.
(** parse_message 218-233, parse_method_message 235-262, parse_response_message 264-269; None is
    Err(TransportError::InvalidMessage) *)
Definition message_of_json (v : json) : option message :=
  if has_key "method" v then
    if has_key "id" v then
      match request_of_json v with
      | Some q => match parse_request q with Some (i, r) => Some (MsgRequest i r) | None => None end
      | None => None
      end
    else MsgNotification <$> parse_notification v
  else if has_key "result" v || has_key "error" v then MsgResponse <$> response_of_json v
  else None.
(** serde_json::to_vec and from_slice: UTF-8 of the document's text (src/shared/stdio.rs 115-140, 218-222) *)
Definition serialize_message (m : message) : list N := to_bytes (message_json m).
Definition parse_message (bs : list N) : option message := of_bytes bs ≫= message_of_json.
