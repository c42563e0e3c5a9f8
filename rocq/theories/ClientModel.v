(** The client: src/client/mod.rs.  Definitions only. *)
From stdpp Require Import list strings.
From Verif Require Import TextLib JsonLib SerdeLib TypesModel RpcModel ServerModel.

(** *** Client, mod.rs:84-96.  [cl_sent] are the messages sent, [cl_in] those delivered by the transport
    and not yet received, [cl_got] which call received which message.  Values are documents of their
    types. *)
Record client := MkClient {
  cl_caps : option json; cl_server : option json; cl_version : option json; cl_initialized : bool; cl_active : list rid;
  cl_sent : list message; cl_in : list message; cl_got : list (rid * message) }.
(** with_info, 154-167 *)
Definition client_new : client := MkClient None None None false [] [] [] [].
Inductive cresult := COk (v : json) | CErr (e : api_error).
Definition set_caps (v : json) (c : client) : client :=
  MkClient (Some v) (cl_server c) (cl_version c) (cl_initialized c) (cl_active c) (cl_sent c) (cl_in c) (cl_got c).
Definition set_server (caps ver : json) (c : client) : client :=
  MkClient (cl_caps c) (Some caps) (Some ver) true (cl_active c) (cl_sent c) (cl_in c) (cl_got c).
Definition send (m : message) (c : client) : client :=
  MkClient (cl_caps c) (cl_server c) (cl_version c) (cl_initialized c) (cl_active c) (cl_sent c ++ [m]) (cl_in c) (cl_got c).
Definition deliver (ms : list message) (c : client) : client :=
  MkClient (cl_caps c) (cl_server c) (cl_version c) (cl_initialized c) (cl_active c) (cl_sent c) (cl_in c ++ ms) (cl_got c).
Definition track (id : rid) (c : client) : client :=
  MkClient (cl_caps c) (cl_server c) (cl_version c) (cl_initialized c) (cl_active c ++ [id]) (cl_sent c) (cl_in c) (cl_got c).
Global Instance rid_eq_dec : EqDecision rid. Proof. solve_decision. Defined.
Definition untrack (id : rid) (c : client) : client :=
  MkClient (cl_caps c) (cl_server c) (cl_version c) (cl_initialized c) (filter (λ i, i ≠ id) (cl_active c)) (cl_sent c) (cl_in c) (cl_got c).
Definition took (id : rid) (m : message) (rest : list message) (c : client) : client :=
  MkClient (cl_caps c) (cl_server c) (cl_version c) (cl_initialized c) (cl_active c) (cl_sent c) rest (cl_got c ++ [(id, m)]).

(** ensure_initialized, 1270-1276 *)
Definition not_initialized : api_error := EInvalidState (lit "Client not initialized").
(** assert_capability, 1279-1312: the capabilities it knows *)
Definition has_capability (c : client) (cap : string) : bool :=
  match cl_server c with
  | Some caps => bool_decide (cap ∈ ["tools"; "prompts"; "resources"; "logging"; "completions"]) && has_key cap caps
  | None => false
  end.
(** The capability a method asks for: ping 314, set_logging_level 329, list_tools 374, call_tool 451,
    list_prompts 522, get_prompt 598, list_resources 663, list_resource_templates 720, read_resource
    787, subscribe_resource 842, unsubscribe_resource 906, complete 969, create_message 1047 *)
Definition needed (k : creq) : option string :=
  match k with
  | CPing | CInitialize | CElicitResponse => None
  | CSetLoggingLevel => Some "logging"
  | CListTools | CCallTool => Some "tools"
  | CListPrompts | CGetPrompt => Some "prompts"
  | CListResources | CListResourceTemplates | CReadResource | CSubscribe | CUnsubscribe => Some "resources"
  | CComplete => Some "completions"
  | CCreateMessage => Some "sampling"
  end.
(** The type of a method's result; None: any result is Ok(()) (src/client/mod.rs 314-1100: the from_value at the end of each method) *)
Definition result_ty (k : creq) : option ty :=
  match k with
  | CListTools => Some t_list_tools_result
  | CCallTool => Some t_call_tool_result
  | CListPrompts => Some t_list_prompts_result
  | CGetPrompt => Some t_get_prompt_result
  | CListResources => Some t_list_resources_result
  | CListResourceTemplates => Some t_list_resource_templates_result
  | CReadResource => Some t_read_resource_result
  | CComplete => Some t_complete_result
  | CCreateMessage => Some t_create_message_result
  | _ => None
  end.
(** 848-860: the subscribe flag, if the server has resources *)
Definition subscribable (c : client) : bool :=
  match cl_server c with
  | Some caps => if has_key "resources" caps then match field "subscribe" (field "resources" caps) with JBool true => true | _ => false end else true
  | None => true
  end.
(** The checks at the start of each method (src/client/mod.rs 1270-1312, called at the beginning of 314-1150) *)
Definition refused (k : creq) (c : client) : option api_error :=
  if cl_initialized c then
    match needed k with
    | Some cap => if has_capability c cap then
        match k with
        | CSubscribe => if subscribable c then None else Some (EUnsupported (lit "Server does not support resource subscriptions"))
        | _ => None
        end
      else Some (EUnsupported (lit "Server does not support " ++ lit cap ++ lit " (required for " ++ creq_tag k ++ lit ")"))
    | None => None
    end
  else Some not_initialized.
Definition send_failed : api_error := ETransport [].
(** send_request, 1315-1348: sending may fail; [ms] are the messages that arrive meanwhile; without any
    message receiving fails. *)
Definition send_request (id : rid) (r : request) (ok : bool) (ms : list message) (c : client) : client * (rpc_response + api_error) :=
  let c := track id c in
  if ok then
    let c := deliver ms (send (MsgRequest id r) c) in
    match cl_in c with
    | [] => (c, inr send_failed)
    | m :: rest =>
      let c := untrack id (took id m rest c) in
      (c, match m with MsgResponse x => inl x | _ => inr (EProtocol (-32603) (lit "Expected response, got different message type") None) end)
    end
  else (c, inr send_failed).
Definition parse_failed : api_error := EProtocol (-32700) (lit "parse error") None.
(** The end of each method, e.g. 384-391 *)
Definition finish (k : creq) (r : rpc_response + api_error) : cresult :=
  match r with
  | inr e => CErr e
  | inl x =>
    match rs_payload x with
    | PError e => CErr (of_rpc_error e)
    | PResult v => match result_ty k with
                   | None => COk JNull
                   | Some t => match decode t v with Some w => COk w | None => CErr parse_failed end
                   end
    end
  end.
(** src/lib.rs: LATEST_PROTOCOL_VERSION, SUPPORTED_PROTOCOL_VERSIONS (src/lib.rs 135, 178-183; initialize_params: src/client/mod.rs 244-275) *)
Definition latest_version : list N := lit "2025-06-18".
Definition supported_versions : list (list N) := [lit "2025-06-18"; lit "2025-03-26"; lit "2024-11-05"; lit "2024-10-07"].
Definition initialize_params (caps info : json) : json :=
  JObj [(lit "protocolVersion", JStr latest_version); (lit "capabilities", caps); (lit "clientInfo", info)].
(** initialize, 244-296: [nok]: the initialized notification could be sent *)
Definition initialize (caps info : json) (id : rid) (ok : bool) (ms : list message) (nok : bool) (c : client) : client * cresult :=
  if cl_initialized c then (c, CErr (EInvalidState (lit "Client already initialized")))
  else
    let '(c, r) := send_request id (RClient CInitialize (initialize_params caps info)) ok ms (set_caps caps c) in
    match r with
    | inr e => (c, CErr e)
    | inl x =>
      match rs_payload x with
      | PError e => (c, CErr (of_rpc_error e))
      | PResult v =>
        match decode t_initialize_result v with
        | None => (c, CErr parse_failed)
        | Some w =>
          if decide (text_of (field "protocolVersion" w) ∈ supported_versions) then
            let c := set_server (field "capabilities" w) (field "serverInfo" w) c in
            if nok then (send (MsgNotification (NClient CInitialized JNull)) c, COk w) else (c, CErr send_failed)
          else (c, CErr (EProtocol (-32603) (lit "Server protocol version " ++ text_of (field "protocolVersion" w) ++ lit " not supported") None))
        end
      end
    end.
(** send_notification, 1351-1354 *)
Definition send_notification (n : notification) (nok : bool) (c : client) : client * cresult :=
  if nok then (send (MsgNotification n) c, COk JNull) else (c, CErr send_failed).
Inductive cop :=
| OInitialize (caps info : json)
| OCall (k : creq) (p : json)          (* the methods of [needed] *)
| ORootsChanged                        (* send_roots_list_changed, 1101-1115 *)
| OCancel (id : rid)                   (* cancel_request, 1212-1227 *)
| OProgress (p : json).                (* send_progress, 1264-1267 *)
(** A method is called with a fresh id; what the transport does meanwhile *)
(** drives the methods of src/client/mod.rs 244-1264 by histories; cancel_params: 1212-1222 *)
Record cevent := MkEvent { e_op : cop; e_id : rid; e_ok : bool; e_arrived : list message; e_nok : bool }.
Definition is_method (k : creq) : bool := match k with CInitialize | CElicitResponse => false | _ => true end.
Definition cancel_params (id : rid) : json := JObj [(lit "requestId", rid_json id); (lit "reason", JStr (lit "User requested cancellation"))].
Definition c_step (c : client) (e : cevent) : client * cresult :=
  match e_op e with
  | OInitialize caps info => initialize caps info (e_id e) (e_ok e) (e_arrived e) (e_nok e) c
  | OCall k p =>
    if is_method k then
      match refused k c with
      | Some err => (c, CErr err)
      | None => let '(c, r) := send_request (e_id e) (RClient k p) (e_ok e) (e_arrived e) c in (c, finish k r)
      end
    else (c, CErr not_initialized)
  | ORootsChanged =>
    if cl_initialized c then
      match cl_caps c with
      | Some caps => if has_key "roots" caps then
          match field "listChanged" (field "roots" caps) with
          | JBool true => send_notification (NClient CRootsListChanged JNull) (e_nok e) c
          | _ => (c, CErr (EUnsupported (lit "Client does not support roots list changed notifications")))
          end
        else send_notification (NClient CRootsListChanged JNull) (e_nok e) c
      | None => send_notification (NClient CRootsListChanged JNull) (e_nok e) c
      end
    else (c, CErr not_initialized)
  | OCancel id => let '(c, r) := send_notification (NCancelled (cancel_params id)) (e_nok e) c in
                  match r with COk _ => (untrack id c, r) | CErr _ => (c, r) end
  | OProgress p => send_notification (NProgress p) (e_nok e) c
  end.
Fixpoint c_run (c : client) (es : list cevent) : client * list cresult :=
  match es with
  | [] => (c, [])
  | e :: es => let '(c, r) := c_step c e in let '(c, rs) := c_run c es in (c, r :: rs)
  end.

(** *** Concurrent calls (clones share the transport and its lock): each call sends under the lock,
    then receives under the lock, 1333-1337. *)
Record calls := MkCalls { x_waiting : list (nat * rid); x_sent : list rid; x_in : list message; x_got : list (nat * rid * message) }.
Definition calls_new : calls := MkCalls [] [] [] [].
Inductive xstep := XSend (w : nat) (id : rid) | XArrive (m : message) | XReceive (i : nat).
Definition x_step (s : calls) (o : xstep) : calls :=
  match o with
  | XSend w id => MkCalls (x_waiting s ++ [(w, id)]) (x_sent s ++ [id]) (x_in s) (x_got s)
  | XArrive m => MkCalls (x_waiting s) (x_sent s) (x_in s ++ [m]) (x_got s)
  | XReceive i =>   (* the i-th waiting call gets the lock *)
    match x_waiting s !! i, x_in s with
    | Some (w, id), m :: rest => MkCalls (delete i (x_waiting s)) (x_sent s) rest (x_got s ++ [(w, id, m)])
    | _, _ => s
    end
  end.
(** No code of its own: runs histories of the steps above *)
Definition x_run (os : list xstep) : calls := fold_left x_step os calls_new.
