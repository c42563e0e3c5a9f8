(** The ready-made capabilities and the queries of src/types/capabilities.rs.  Definitions only. *)
From stdpp Require Import strings list.
From Verif Require Import TextLib JsonLib SerdeLib TypesModel RpcModel ServerModel.

(** What the fields of the presets serialise to: ToolCapabilities and PromptCapabilities (89-103),
    ResourceCapabilities (106-115) and LoggingCapabilities (118-124) *)
Definition changing : json := JObj [(lit "listChanged", JBool true)].
Definition subscribing : json := JObj [(lit "subscribe", JBool true); (lit "listChanged", JBool true)].
Definition levels : json := JObj [(lit "levels", JArr [JStr (lit "debug"); JStr (lit "info"); JStr (lit "warning"); JStr (lit "error")])].

(** *** ServerCapabilities *)
(** minimal, 399-401; tools_only, 436-443; prompts_only, 485-492; resources_only, 541-549 *)
Definition server_minimal : scaps := scaps_default.
Definition server_tools_only : scaps := MkScaps (Some changing) None None None None None None.
Definition server_prompts_only : scaps := MkScaps None (Some changing) None None None None None.
Definition server_resources_only : scaps := MkScaps None None (Some subscribing) None None None None.
(** provides_tools, 584-586; provides_prompts, 614-616; provides_resources, 653-655 *)
Definition some {A} (o : option A) : bool := match o with Some _ => true | None => false end.
Definition provides_tools (c : scaps) : bool := some (sc_tools c).
Definition provides_prompts (c : scaps) : bool := some (sc_prompts c).
Definition provides_resources (c : scaps) : bool := some (sc_resources c).

(** *** ClientCapabilities, 23-53: what each field serialises to *)
Record ccaps := MkCcaps {
  cc_tools : option json; cc_prompts : option json; cc_resources : option json; cc_logging : option json;
  cc_sampling : option json; cc_roots : option json; cc_experimental : option json }.
Definition ccaps_json (c : ccaps) : json :=
  JObj (put (lit "tools") (cc_tools c) (put (lit "prompts") (cc_prompts c) (put (lit "resources") (cc_resources c)
    (put (lit "logging") (cc_logging c) (put (lit "sampling") (cc_sampling c) (put (lit "roots") (cc_roots c)
    (put (lit "experimental") (cc_experimental c) []))))))).
(** The derived Deserialize, 20-53, from the decoded document *)
Definition ccaps_of (v : json) : option ccaps :=
  match decode t_client_caps v with
  | Some (JObj l) => Some (MkCcaps (assoc (lit "tools") l) (assoc (lit "prompts") l) (assoc (lit "resources") l) (assoc (lit "logging") l)
                                   (assoc (lit "sampling") l) (assoc (lit "roots") l) (assoc (lit "experimental") l))
  | _ => None
  end.
(** minimal, 179-181; full, 210-237 *)
Definition client_minimal : ccaps := MkCcaps None None None None None None None.
Definition client_full : ccaps := MkCcaps (Some changing) (Some changing) (Some subscribing) (Some levels) (Some (JObj [])) (Some changing) None.
(** supports_tools, 267-269; supports_prompts, 303-305; supports_resources, 334-336; supports_sampling, 369-371 *)
Definition supports_tools (c : ccaps) : bool := some (cc_tools c).
Definition supports_prompts (c : ccaps) : bool := some (cc_prompts c).
Definition supports_resources (c : ccaps) : bool := some (cc_resources c).
Definition supports_sampling (c : ccaps) : bool := some (cc_sampling c).
