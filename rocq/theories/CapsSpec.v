(** Specification vocabulary for capabilities. *)
From stdpp Require Import strings list.
From Verif Require Import TextLib JsonLib SerdeLib TypesModel RpcModel ServerModel ClientModel ClientSpec CapsModel.

(** The query a client's author would ask before calling a method: None if the method needs no leave. *)
Definition question (k : creq) : option (scaps → bool) :=
  match k with
  | CListTools | CCallTool => Some provides_tools
  | CListPrompts | CGetPrompt => Some provides_prompts
  | CListResources | CListResourceTemplates | CReadResource | CUnsubscribe => Some provides_resources
  | CSubscribe => Some (λ c, match field "subscribe" (default JNull (sc_resources c)) with JBool b => b | _ => false end)
  | CPing => Some (λ _, true)
  | _ => None
  end.
(** The methods each preset of a server leaves open. *)
Inductive preset := Minimal | ToolsOnly | PromptsOnly | ResourcesOnly.
Definition preset_caps (p : preset) : scaps :=
  match p with Minimal => server_minimal | ToolsOnly => server_tools_only | PromptsOnly => server_prompts_only | ResourcesOnly => server_resources_only end.
Definition open_methods (p : preset) : list creq :=
  CPing :: match p with
  | Minimal => []
  | ToolsOnly => [CListTools; CCallTool]
  | PromptsOnly => [CListPrompts; CGetPrompt]
  | ResourcesOnly => [CListResources; CListResourceTemplates; CReadResource; CSubscribe; CUnsubscribe]
  end.
(** Capabilities as the Rust type has them. *)
Definition ccaps_ok (c : ccaps) : Prop := is_of t_client_caps (ccaps_json c).
(** The queries on a client's capabilities, and the member of the initialize request each asks about. *)
Definition client_questions : list ((ccaps → bool) * string) :=
  [(supports_tools, "tools"); (supports_prompts, "prompts"); (supports_resources, "resources"); (supports_sampling, "sampling")].
(** Every feature a client can declare, but for experimental ones. *)
Definition features : list string := ["tools"; "prompts"; "resources"; "logging"; "sampling"; "roots"].
