(** Specification vocabulary for the client. *)
From stdpp Require Import gmap strings list.
From Verif Require Import TextLib JsonLib SerdeLib TypesModel RpcModel ServerModel ClientModel.

(** The capability a server must have advertised before a request may be sent to it, by MCP. *)
Definition wants (k : creq) : option string :=
  match k with
  | CListTools | CCallTool => Some "tools"
  | CListPrompts | CGetPrompt => Some "prompts"
  | CListResources | CListResourceTemplates | CReadResource | CSubscribe | CUnsubscribe => Some "resources"
  | CSetLoggingLevel => Some "logging"
  | CComplete => Some "completions"
  | CCreateMessage => Some "sampling"
  | CInitialize | CPing | CElicitResponse => None
  end.
(** [caps], a server's capabilities, allow requests of kind [k]. *)
Definition allows (caps : json) (k : creq) : Prop :=
  (∀ cap, wants k = Some cap → has_key cap caps = true) ∧ (k = CSubscribe → field "subscribe" (field "resources" caps) = JBool true).
(** The client may send requests of kind [k]: it is initialized and its server's capabilities allow them.  (The
    client of this library sends no sampling requests at all, see C92.) *)
Definition open_to (k : creq) (c : client) : Prop :=
  k ∉ [CInitialize; CElicitResponse; CCreateMessage] ∧ cl_initialized c = true ∧ ∃ caps, cl_server c = Some caps ∧ allows caps k.
(** The client asked for an initialization and received the result [w], in a version it supports. *)
Definition handshake (c : client) (w : json) : Prop :=
  ∃ id p x v, MsgRequest id (RClient CInitialize p) ∈ cl_sent c ∧ (id, MsgResponse x) ∈ cl_got c ∧ rs_payload x = PResult v ∧
    decode t_initialize_result v = Some w ∧
    text_of (field "protocolVersion" w) ∈ [lit "2025-06-18"; lit "2025-03-26"; lit "2024-11-05"; lit "2024-10-07"].
(** The messages a step added. *)
Definition news (c c' : client) : list message := drop (length (cl_sent c)) (cl_sent c').
Definition is_request (m : message) : bool := match m with MsgRequest _ _ => true | _ => false end.

(** The methods that return whatever success. *)
Definition calls_initialize (e : cevent) : bool := match e_op e with OInitialize _ _ => true | _ => false end.
Definition calls_method (k : creq) (e : cevent) : Prop := ∃ p, e_op e = OCall k p.
Definition cancels (id : rid) (e : cevent) : Prop := e_op e = OCancel id.
(** The transport answers every request with one response to it and delivers nothing else. *)
Definition answered_only (es : list cevent) : Prop := Forall (λ e, e_ok e = true ∧ ∃ x, e_arrived e = [MsgResponse x] ∧ rs_id x = e_id e) es.
(** Something arrives for every request. *)
Definition works (es : list cevent) : Prop := Forall (λ e, e_ok e = true ∧ e_arrived e ≠ []) es.

(** The type of what a handler of a kind returns (tools return any JSON). *)
Definition handler_ty (k : hkind) : ty :=
  match k with
  | KTool => TAny | KPrompt => t_get_prompt_result | KResources => t_list_resources_result
  | KRead => t_read_resource_result | KSampling => t_create_message_result
  end.
Definition typed (behave : list invocation → hresult) : Prop :=
  ∀ is i v, behave (is ++ [i]) = HOk v → is_of (handler_ty (i_kind i)) v.
(** Capabilities as the Rust type has them. *)
Definition scaps_ok (c : scaps) : Prop := is_of t_server_caps (scaps_json c).

(** Concurrent calls. *)
Definition arrivals (os : list xstep) : list message := omap (λ o, match o with XArrive m => Some m | _ => None end) os.
Definition sends (os : list xstep) : list (nat * rid) := omap (λ o, match o with XSend w id => Some (w, id) | _ => None end) os.
(** The calls get the transport's lock in the order in which they sent. *)
Definition in_turn (os : list xstep) : Prop := Forall (λ o, ∀ i, o = XReceive i → i = 0%nat) os.
Definition response_to (id : rid) (m : message) : Prop := ∃ x, m = MsgResponse x ∧ rs_id x = id.
