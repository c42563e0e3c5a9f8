(** What a server says about itself, and the builder of runtime configurations.  Definitions only. *)
From stdpp Require Import gmap strings list.
From Verif Require Import TextLib JsonLib SerdeLib TypesModel RpcModel ManagersModel ServerModel DynModel.

(** Server::has_tool, has_prompt, src/server/mod.rs:146-153 *)
Definition has_tool (cf : config) (n : text) : bool := match cf_tools cf !! n with Some _ => true | None => false end.
Definition has_prompt (cf : config) (n : text) : bool := match cf_prompts cf !! n with Some _ => true | None => false end.
(** get_client_capabilities, mod.rs:224-226, and is_initialized, 252-254 *)
Definition get_client_capabilities (s : server) : option json := sv_client s.
Definition is_initialized (s : server) : bool := sv_initialized s.

(** *** DynamicConfigBuilder, src/server/dynamic.rs:409-466.  A handler stands for itself and its info,
    which are put in together. *)
Inductive cbop := CbTool (n : text) (h : nat) | CbPrompt (n : text) (h : nat) | CbResources (h : nat) | CbSampling (h : nat).
(** new, 416-420: DynamicConfig::default, 348-360 *)
Definition dconfig_default : dconfig := MkDconfig ∅ ∅ None None.
(** tool 423-433, prompt 436-446, resources 449-452, sampling 455-458 *)
Definition cb_step (c : dconfig) (o : cbop) : dconfig :=
  match o with
  | CbTool n h => MkDconfig (<[n := h]> (dc_tools c)) (dc_prompts c) (dc_resources c) (dc_sampling c)
  | CbPrompt n h => MkDconfig (dc_tools c) (<[n := h]> (dc_prompts c)) (dc_resources c) (dc_sampling c)
  | CbResources h => MkDconfig (dc_tools c) (dc_prompts c) (Some h) (dc_sampling c)
  | CbSampling h => MkDconfig (dc_tools c) (dc_prompts c) (dc_resources c) (Some h)
  end.
(** build, 461-463 *)
Definition cb_build (os : list cbop) : dconfig := fold_left cb_step os dconfig_default.
