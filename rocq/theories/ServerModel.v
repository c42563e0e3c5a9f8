(** The server: src/server/mod.rs, src/server/batch.rs.  Definitions only.  Requests, responses and
    errors are those of RpcModel; handlers are numbers. *)
From stdpp Require Import gmap strings list.
From Verif Require Import TextLib JsonLib SerdeLib TypesModel RpcModel ManagersModel.
Notation text := (list N) (only parsing).

(** *** ServerCapabilities, src/types/capabilities.rs:56-86: what each field serialises to *)
Record scaps := MkScaps {
  sc_tools : option json; sc_prompts : option json; sc_resources : option json; sc_logging : option json;
  sc_completions : option json; sc_sampling : option json; sc_experimental : option json }.
Definition scaps_default : scaps := MkScaps None None None None None None None.
Definition scaps_json (c : scaps) : json :=
  JObj (put (lit "tools") (sc_tools c) (put (lit "prompts") (sc_prompts c) (put (lit "resources") (sc_resources c)
    (put (lit "logging") (sc_logging c) (put (lit "completions") (sc_completions c) (put (lit "sampling") (sc_sampling c)
    (put (lit "experimental") (sc_experimental c) []))))))).

(** *** ServerBuilder, mod.rs:1008-1418 *)
Record builder := MkBuilder {
  b_name : option text; b_version : option text; b_caps : scaps; b_tools : gmap text nat; b_prompts : gmap text nat;
  b_resources : option nat; b_sampling : option nat }.
(** new, 1056-1068 *)
Definition builder_new : builder := MkBuilder None None scaps_default ∅ ∅ None None.
Inductive bop :=
| BName (s : text) | BVersion (s : text) | BCaps (c : scaps) | BTool (n : text) (h : nat) | BPrompt (n : text) (h : nat)
| BResources (h : nat) | BSampling (h : nat).
(** name, version, capabilities, tool, prompt, resources, sampling, 1083-1380 *)
Definition b_step (b : builder) (o : bop) : builder :=
  match o with
  | BName s => MkBuilder (Some s) (b_version b) (b_caps b) (b_tools b) (b_prompts b) (b_resources b) (b_sampling b)
  | BVersion s => MkBuilder (b_name b) (Some s) (b_caps b) (b_tools b) (b_prompts b) (b_resources b) (b_sampling b)
  | BCaps c => MkBuilder (b_name b) (b_version b) c (b_tools b) (b_prompts b) (b_resources b) (b_sampling b)
  | BTool n h => MkBuilder (b_name b) (b_version b) (b_caps b) (<[n := h]> (b_tools b)) (b_prompts b) (b_resources b) (b_sampling b)
  | BPrompt n h => MkBuilder (b_name b) (b_version b) (b_caps b) (b_tools b) (<[n := h]> (b_prompts b)) (b_resources b) (b_sampling b)
  | BResources h => MkBuilder (b_name b) (b_version b) (b_caps b) (b_tools b) (b_prompts b) (Some h) (b_sampling b)
  | BSampling h =>
    let c := b_caps b in
    MkBuilder (b_name b) (b_version b)
      (MkScaps (sc_tools c) (sc_prompts c) (sc_resources c) (sc_logging c) (sc_completions c) (Some (JObj [])) (sc_experimental c))
      (b_tools b) (b_prompts b) (b_resources b) (Some h)
  end.
Record config := MkConfig {
  cf_name : text; cf_version : text; cf_caps : scaps; cf_tools : gmap text nat; cf_prompts : gmap text nat;
  cf_resources : option nat; cf_sampling : option nat }.
(** build, 1388-1411 *)
Definition build (os : list bop) : config + api_error :=
  let b := fold_left b_step os builder_new in
  match b_name b, b_version b with
  | None, _ => inr (EValidation (lit "Server name is required"))
  | _, None => inr (EValidation (lit "Server version is required"))
  | Some n, Some v => inl (MkConfig n v (b_caps b) (b_tools b) (b_prompts b) (b_resources b) (b_sampling b))
  end.

(** *** Handlers, mod.rs:32-85.  What a call of a handler does may depend on all calls so far; its
    successful result is given as the value it serialises to. *)
Inductive hkind := KTool | KPrompt | KResources | KRead | KSampling.
Record invocation := MkInvocation { i_kind : hkind; i_handler : nat; i_args : json; i_request : text; i_token : option nat }.
Inductive hresult := HOk (v : json) | HErr (e : api_error) | HPanic.

(** *** Server, mod.rs:109-130.  [sv_calls] and [sv_sent] record what the server did: the calls of
    handlers, and the responses sent.  The managers' model has strings for identifiers. *)
Record server := MkServer {
  sv_client : option json; sv_initialized : bool; sv_canceller : canceller; sv_subs : gmap string (gset string);
  sv_calls : list invocation; sv_sent : list rpc_response; sv_listening : bool }.
Definition server_new : server := MkServer None false canceller_new ∅ [] [] true.
Definition field (n : string) (p : json) : json :=
  match p with JObj l => match assoc (lit n) l with Some v => v | None => JNull end | _ => JNull end.
Definition text_of (v : json) : text := match v with JStr s => s | _ => [] end.
Inductive result := Ok (v : json) | Err (e : api_error) | Panicked.

Section server.
  Context (cf : config) (behave : list invocation → hresult) (key : text → string).
  (** a handler's call, e.g. 641-650: its token is the one registered for the request, else a new one
      (None) *)
  Definition invoke (k : hkind) (h : nat) (args : json) (id : rid) (wrap : json → json) (s : server) : server * result :=
    let calls := sv_calls s ++ [MkInvocation k h args (rid_show id) (get_token (sv_canceller s) (key (rid_show id)))] in
    (MkServer (sv_client s) (sv_initialized s) (sv_canceller s) (sv_subs s) calls (sv_sent s) (sv_listening s),
     match behave calls with HOk v => Ok (wrap v) | HErr e => Err e | HPanic => Panicked end).
  (** handle_list_tools, 618-633 *)
  Definition tool_info (n : text) : json := JObj [(lit "name", JStr n); (lit "inputSchema", JObj [])].
  Definition handle_list_tools : json := JObj [(lit "tools", JArr (tool_info <$> (map_to_list (cf_tools cf)).*1))].
  (** handle_list_prompts, 659-674 *)
  Definition prompt_info (n : text) : json := JObj [(lit "name", JStr n)].
  Definition handle_list_prompts : json := JObj [(lit "prompts", JArr (prompt_info <$> (map_to_list (cf_prompts cf)).*1))].
  (** the result of a tool call, 651-656; Value's to_string is its JSON text *)
  Definition call_result (v : json) : json :=
    JObj [(lit "content", JArr [JObj [(lit "type", JStr (lit "text")); (lit "text", JStr (show v))]]); (lit "isError", JBool false)].
  Definition not_found (what name : text) : api_error := ENotFound (what ++ lit " '" ++ name ++ lit "' not found").
  (** process_client_request, 561-594, with the handle_* functions, 635-776.  The server has no
      elicitation manager: nothing sets it. *)
  Definition process_client_request (id : rid) (c : creq) (p : json) (s : server) : server * result :=
    match c with
    | CInitialize => (s, Panicked)
    | CListTools => (s, Ok handle_list_tools)
    | CCallTool =>
      match cf_tools cf !! text_of (field "name" p) with
      | None => (s, Err (not_found (lit "Tool") (text_of (field "name" p))))
      | Some h => invoke KTool h (field "arguments" p) id call_result s
      end
    | CListPrompts => (s, Ok handle_list_prompts)
    | CGetPrompt =>
      match cf_prompts cf !! text_of (field "name" p) with
      | None => (s, Err (not_found (lit "Prompt") (text_of (field "name" p))))
      | Some h => invoke KPrompt h (field "arguments" p) id (λ v, v) s
      end
    | CListResources =>
      match cf_resources cf with
      | Some h => invoke KResources h (field "cursor" p) id (λ v, v) s
      | None => (s, Ok (JObj [(lit "resources", JArr [])]))
      end
    | CReadResource =>
      match cf_resources cf with
      | Some h => invoke KRead h (field "uri" p) id (λ v, v) s
      | None => (s, Err (ENotFound (lit "No resource handler configured")))
      end
    | CListResourceTemplates => (s, Ok (JObj [(lit "resourceTemplates", JArr [])]))
    | CSubscribe | CUnsubscribe | CComplete | CSetLoggingLevel | CPing | CElicitResponse => (s, Ok (JObj []))
    | CCreateMessage =>
      match cf_sampling cf with
      | Some h => invoke KSampling h p id (λ v, v) s
      | None => (s, Err (ENotFound (lit "No sampling handler configured")))
      end
    end.
  (** create_response, 597-616 *)
  Definition create_response (id : rid) (r : json + api_error) : rpc_response :=
    match r with
    | inl v => success id v
    | inr e => failure id {| er_code := -32603; er_message := error_display e; er_data := None |}
    end.
  (** the InitializeResult, 521-526 *)
  Definition answered_version : text := lit "2024-11-05".
  Definition initialize_result : json :=
    JObj [(lit "protocolVersion", JStr answered_version); (lit "capabilities", scaps_json (cf_caps cf));
          (lit "serverInfo", JObj [(lit "name", JStr (cf_name cf)); (lit "version", JStr (cf_version cf))])].
  Definition not_supported : rpc_error :=
    {| er_code := -32601; er_message := lit "Server requests not supported by server"; er_data := None |}.
  (** handle_request, 509-549, with handle_client_request, 551-558.  No response: the handler
      panicked. *)
  Definition handle_request (id : rid) (r : request) (s : server) : server * option rpc_response :=
    match r with
    | RClient CInitialize p =>
      (MkServer (Some (field "capabilities" p)) true (sv_canceller s) (sv_subs s) (sv_calls s) (sv_sent s) (sv_listening s),
       Some (success id initialize_result))
    | RClient c p =>
      let '(s, r) := process_client_request id c p s in
      (s, match r with Ok v => Some (create_response id (inl v)) | Err e => Some (create_response id (inr e)) | Panicked => None end)
    | RServer _ _ => (s, Some (failure id not_supported))
    end.
  Definition stop (s : server) : server :=
    MkServer (sv_client s) (sv_initialized s) (sv_canceller s) (sv_subs s) (sv_calls s) (sv_sent s) false.
  Definition sent (r : rpc_response) (s : server) : server :=
    MkServer (sv_client s) (sv_initialized s) (sv_canceller s) (sv_subs s) (sv_calls s) (sv_sent s ++ [r]) (sv_listening s).
  (** The message task, 410-438, 458-486: a message arrives (and sending its response, if any, fails
      or not), or receiving fails; and the methods of the server that other tasks call: cancel_request
      946-954, subscribe_resource 893-909, unsubscribe_resource 987-994.  A handler's panic ends the
      task. *)
  Inductive event :=
  | EMessage (m : message) (ok : bool) | EReceiveError
  | ECancel (id : string) (r : option string) | ESubscribe (u c : string) | EUnsubscribe (u c : string).
  Definition handle_message (m : message) (ok : bool) (s : server) : server :=
    match m with
    | MsgRequest id r =>
      match handle_request id r s with
      | (s, Some resp) => if ok then sent resp s else stop s
      | (s, None) => stop s
      end
    | MsgResponse _ | MsgNotification _ => s
    end.
  Definition set_canceller (k : canceller) (s : server) : server :=
    MkServer (sv_client s) (sv_initialized s) k (sv_subs s) (sv_calls s) (sv_sent s) (sv_listening s).
  Definition set_subs (x : gmap string (gset string)) (s : server) : server :=
    MkServer (sv_client s) (sv_initialized s) (sv_canceller s) x (sv_calls s) (sv_sent s) (sv_listening s).
  Definition nonempty (x : string) : bool := bool_decide (x ≠ EmptyString).
  Definition v_step (s : server) (e : event) : server :=
    match e with
    | EMessage m ok => if sv_listening s then handle_message m ok s else s
    | EReceiveError => stop s
    | ECancel id r =>
      if nonempty id then
        let k := k_step (sv_canceller s) (KTake id r) in
        set_canceller (k_step k (KAct (length (k_taken (sv_canceller s))))) s
      else s
    | ESubscribe u c => if nonempty u && nonempty c then set_subs (subscribe (sv_subs s) u c) s else s
    | EUnsubscribe u c => if nonempty u && nonempty c then set_subs (unsubscribe (sv_subs s) u c) s else s
    end.
  Definition v_run (es : list event) : server := fold_left v_step es server_new.
  (** notify_resource_updated, 1003-1014: the notifications and the count returned *)
  Definition resource_updated (u : string) (s : server) : list string * nat := notify_updated (sv_subs s) u.

  (** handle_batch_request's handler, batch.rs:18-41 *)
  Definition batch_handler (q : rpc_request) (s : server) : server * option rpc_response :=
    match parse_request q with
    | Some (id, r) => handle_request id r s
    | None =>
      (s, Some (failure (rq_id q) {| er_code := -32700;
        er_message := lit "Parse error: " ++ error_display (EProtocol (-32601) (lit "Method not found: " ++ rq_method q) None); er_data := None |}))
    end.
End server.

(** *** The two tasks of a running server and the transport's lock, mod.rs:383-455, 474-486.  The lock
    is tokio's: waiting tasks get it in the order they asked.  Neither sending nor receiving fails. *)
Section tasks.
  Context {M R P : Type} (needs : M → bool).
  Inductive task := Messages | Notifications.
  Global Instance task_eq_dec : EqDecision task. Proof. solve_decision. Defined.
  (** the message task: wants to receive, is receiving, runs a handler, wants to send *)
  (** src/server/mod.rs 415-436; nplace: 399-412; sending: 439-447, 477-487; channel_size: 384 *)
  Inductive mplace := MToReceive | MReceiving | MHandling (m : M) | MToSend (r : R).
  Inductive nplace := NIdle | NToSend (n : P).
  Inductive sending := SResponse (r : R) | SNotification (n : P).
  Record tasks := MkTasks {
    t_message : mplace; t_notify : nplace; t_channel : list P; t_holder : option task; t_queue : list task; t_wire : list sending }.
  Definition channel_size : nat := 100.
  (** run, 383-398: the channel is empty, both tasks are spawned and the message task asks for the lock first thing *)
  Definition tasks_new : tasks := MkTasks MToReceive NIdle [] (Some Messages) [] [].
  Definition acquire (t : task) (s : tasks) : tasks :=
    match t_holder s with
    | None => MkTasks (t_message s) (t_notify s) (t_channel s) (Some t) (t_queue s) (t_wire s)
    | Some _ => MkTasks (t_message s) (t_notify s) (t_channel s) (t_holder s) (t_queue s ++ [t]) (t_wire s)
    end.
  Definition release (s : tasks) : tasks :=
    MkTasks (t_message s) (t_notify s) (t_channel s) (head (t_queue s)) (tail (t_queue s)) (t_wire s).
  Definition set_message (p : mplace) (s : tasks) : tasks := MkTasks p (t_notify s) (t_channel s) (t_holder s) (t_queue s) (t_wire s).
  Definition set_notify (p : nplace) (c : list P) (s : tasks) : tasks := MkTasks (t_message s) p c (t_holder s) (t_queue s) (t_wire s).
  Definition put_wire (x : sending) (s : tasks) : tasks :=
    MkTasks (t_message s) (t_notify s) (t_channel s) (t_holder s) (t_queue s) (t_wire s ++ [x]).
  Inductive tstep :=
  | TPost (n : P)         (* try_send of a notification, e.g. 823, 903 *)
  | TListen               (* the message task has the lock and starts receiving, 454-455 *)
  | TArrive (m : M)       (* a message arrives *)
  | THandled (r : R)      (* the handler has returned, 483-484 *)
  | TRespond              (* the response is sent, 485 *)
  | TTake                 (* the notification task takes a notification, 406, 445 *)
  | TNotify.              (* and sends it, 446 *)
  Definition t_step (s : tasks) (o : tstep) : tasks :=
    match o, t_message s, t_notify s, t_holder s with
    | TPost n, _, _, _ => if decide (length (t_channel s) < channel_size)%nat then set_notify (t_notify s) (t_channel s ++ [n]) s else s
    | TListen, MToReceive, _, Some Messages => set_message MReceiving s
    | TArrive m, MReceiving, _, Some Messages =>
      if needs m then set_message (MHandling m) (release s) else acquire Messages (set_message MToReceive (release s))
    | THandled r, MHandling _, _, _ => acquire Messages (set_message (MToSend r) s)
    | TRespond, MToSend r, _, Some Messages => acquire Messages (set_message MToReceive (release (put_wire (SResponse r) s)))
    | TTake, _, NIdle, _ =>
      match t_channel s with
      | [] => s
      | n :: c => acquire Notifications (set_notify (NToSend n) c s)
      end
    | TNotify, _, NToSend n, Some Notifications => set_notify NIdle (t_channel s) (release (put_wire (SNotification n) s))
    | _, _, _, _ => s
    end.
  Definition t_run (s : tasks) (os : list tstep) : tasks := fold_left t_step os s.
End tasks.
Arguments MToReceive {_ _}. Arguments MReceiving {_ _}. Arguments MHandling {_ _}. Arguments MToSend {_ _}.
Arguments NIdle {_}. Arguments NToSend {_}. Arguments SResponse {_ _}. Arguments SNotification {_ _}.
Arguments TPost {_ _ _}. Arguments TListen {_ _ _}. Arguments TArrive {_ _ _}. Arguments THandled {_ _ _}. Arguments TRespond {_ _ _}.
Arguments TTake {_ _ _}. Arguments TNotify {_ _ _}.
