(** Runtime configuration: src/server/dynamic.rs.  Definitions only. *)
From stdpp Require Import gmap strings list.
From Verif Require Import TextLib JsonLib SerdeLib TypesModel RpcModel ServerModel.

(** *** DynamicServerManager, 42-61: its registries and listeners over a server of configuration [cf].
    [mg_told] are the calls of listeners: which, with what. *)
Record manager := MkManager { mg_tools : gmap text nat; mg_prompts : gmap text nat; mg_resources : option nat; mg_sampling : option nat;
  mg_listeners : nat; mg_told : list (nat * scaps) }.
(** new, 84-93 *)
Definition manager_new : manager := MkManager ∅ ∅ None None 0 [].
(** The calls of the manager, and the two steps of a reload that are not calls.  Each is one step:
    simplified, a registry and the listeners are updated under different locks. *)
(** src/server/dynamic.rs 98-290 *)
Inductive dop :=
| DAddTool (n : text) (h : nat) | DRemoveTool (n : text) | DAddPrompt (n : text) (h : nat) | DRemovePrompt (n : text)
| DResources (h : option nat) | DSampling (h : option nat) | DListen | DClearTools | DClearPrompts.
Inductive dresult := DOk | DNotFound (what : text).
Section dyn.
  Context (cf : config).
  (** update_capabilities, 316-330 *)
  Definition announce (f : scaps → scaps) (m : manager) : manager :=
    MkManager (mg_tools m) (mg_prompts m) (mg_resources m) (mg_sampling m) (mg_listeners m)
      (mg_told m ++ ((λ l, (l, f (cf_caps cf))) <$> seq 0 (mg_listeners m))).
  Definition changed : json := JObj [(lit "listChanged", JBool true)].
  Definition with_tools (c : scaps) : scaps := MkScaps (Some changed) (sc_prompts c) (sc_resources c) (sc_logging c) (sc_completions c) (sc_sampling c) (sc_experimental c).
  Definition with_prompts (c : scaps) : scaps := MkScaps (sc_tools c) (Some changed) (sc_resources c) (sc_logging c) (sc_completions c) (sc_sampling c) (sc_experimental c).
  Definition with_resources (v : option json) (c : scaps) : scaps := MkScaps (sc_tools c) (sc_prompts c) v (sc_logging c) (sc_completions c) (sc_sampling c) (sc_experimental c).
  Definition with_sampling (v : option json) (c : scaps) : scaps := MkScaps (sc_tools c) (sc_prompts c) (sc_resources c) (sc_logging c) (sc_completions c) v (sc_experimental c).
  Definition watched : json := JObj [(lit "subscribe", JBool true); (lit "listChanged", JBool true)].
  Definition set_tools (x : gmap text nat) (m : manager) : manager := MkManager x (mg_prompts m) (mg_resources m) (mg_sampling m) (mg_listeners m) (mg_told m).
  Definition set_prompts (x : gmap text nat) (m : manager) : manager := MkManager (mg_tools m) x (mg_resources m) (mg_sampling m) (mg_listeners m) (mg_told m).
  (** add_tool 98-122, remove_tool 125-143, add_prompt 146-170, remove_prompt 173-191, set_resource_handler
      194-209, remove_resource_handler 212-224, set_sampling_handler 227-239, remove_sampling_handler
      242-254, add_capability_listener 257-265 *)
  Definition d_step (m : manager) (o : dop) : manager * dresult :=
    match o with
    | DAddTool n h => (announce with_tools (set_tools (<[n := h]> (mg_tools m)) m), DOk)
    | DRemoveTool n => match mg_tools m !! n with
                       | None => (m, DNotFound (lit "Tool '" ++ n ++ lit "' not found"))
                       | Some _ => (announce (λ c, c) (set_tools (delete n (mg_tools m)) m), DOk)
                       end
    | DAddPrompt n h => (announce with_prompts (set_prompts (<[n := h]> (mg_prompts m)) m), DOk)
    | DRemovePrompt n => match mg_prompts m !! n with
                         | None => (m, DNotFound (lit "Prompt '" ++ n ++ lit "' not found"))
                         | Some _ => (announce (λ c, c) (set_prompts (delete n (mg_prompts m)) m), DOk)
                         end
    | DResources h => (announce (with_resources (match h with Some _ => Some watched | None => None end))
                         (MkManager (mg_tools m) (mg_prompts m) h (mg_sampling m) (mg_listeners m) (mg_told m)), DOk)
    | DSampling h => (announce (with_sampling (match h with Some _ => Some (JObj []) | None => None end))
                        (MkManager (mg_tools m) (mg_prompts m) (mg_resources m) h (mg_listeners m) (mg_told m)), DOk)
    | DListen => (MkManager (mg_tools m) (mg_prompts m) (mg_resources m) (mg_sampling m) (S (mg_listeners m)) (mg_told m), DOk)
    | DClearTools => (set_tools ∅ m, DOk)
    | DClearPrompts => (set_prompts ∅ m, DOk)
    end.
  Definition d_run (os : list dop) (m : manager) : manager := fold_left (λ m o, (d_step m o).1) os m.
  (** has_tool, has_prompt, 278-285 *)
  Definition dyn_has_tool (m : manager) (n : text) : bool := bool_decide (is_Some (mg_tools m !! n)) || bool_decide (is_Some (cf_tools cf !! n)).
  Definition dyn_has_prompt (m : manager) (n : text) : bool := bool_decide (is_Some (mg_prompts m !! n)) || bool_decide (is_Some (cf_prompts cf !! n)).
End dyn.
(** *** DynamicConfig, 348-360, and reload_configuration, 288-313: its steps, other calls may come in
    between *)
Record dconfig := MkDconfig { dc_tools : gmap text nat; dc_prompts : gmap text nat; dc_resources : option nat; dc_sampling : option nat }.
Definition reload (c : dconfig) : list dop :=
  [DClearTools; DClearPrompts] ++ ((λ x, DAddTool x.1 x.2) <$> map_to_list (dc_tools c)) ++ ((λ x, DAddPrompt x.1 x.2) <$> map_to_list (dc_prompts c)) ++
  match dc_resources c with Some h => [DResources (Some h)] | None => [] end ++ match dc_sampling c with Some h => [DSampling (Some h)] | None => [] end.
