(** Overlapping calls of a DynamicServerManager: src/server/dynamic.rs 98-330, cut between the change of a registry and the
    announcement, which are made under different locks.  Definitions only. *)
From stdpp Require Import gmap strings list.
From Verif Require Import TextLib JsonLib SerdeLib TypesModel RpcModel ServerModel DynModel.

(** What a call changes: the first half of each, dynamic.rs 107-111, 129, 155-159, 177, 197, 215,
    230, 245, 261-264, 292-293 *)
Definition registered (m : manager) (o : dop) : manager :=
  match o with
  | DAddTool n h => set_tools (<[n := h]> (mg_tools m)) m
  | DRemoveTool n => set_tools (delete n (mg_tools m)) m
  | DAddPrompt n h => set_prompts (<[n := h]> (mg_prompts m)) m
  | DRemovePrompt n => set_prompts (delete n (mg_prompts m)) m
  | DResources h => MkManager (mg_tools m) (mg_prompts m) h (mg_sampling m) (mg_listeners m) (mg_told m)
  | DSampling h => MkManager (mg_tools m) (mg_prompts m) (mg_resources m) h (mg_listeners m) (mg_told m)
  | DListen => MkManager (mg_tools m) (mg_prompts m) (mg_resources m) (mg_sampling m) (S (mg_listeners m)) (mg_told m)
  | DClearTools => set_tools ∅ m
  | DClearPrompts => set_prompts ∅ m
  end.
(** Whether it goes on to announce, and with which change of the static capabilities: the second half, dynamic.rs 114-120,
    137-140, 162-168, 185-188, 200-207, 218-221, 233-236, 248-251; removing what is not there fails, 129-134, 177-182 *)
Definition to_tell (m : manager) (o : dop) : option (scaps → scaps) :=
  match o with
  | DAddTool _ _ => Some with_tools
  | DRemoveTool n => match mg_tools m !! n with Some _ => Some (λ c, c) | None => None end
  | DAddPrompt _ _ => Some with_prompts
  | DRemovePrompt n => match mg_prompts m !! n with Some _ => Some (λ c, c) | None => None end
  | DResources h => Some (with_resources (match h with Some _ => Some watched | None => None end))
  | DSampling h => Some (with_sampling (match h with Some _ => Some (JObj []) | None => None end))
  | DListen | DClearTools | DClearPrompts => None
  end.
(** Calls under way: changed, not yet announced (dynamic.rs 98-252: the registry's lock is dropped before 316-330 takes the
    listeners' lock); [t] names a call *)
Record racing := MkRacing { rc_manager : manager; rc_calls : gmap nat (scaps → scaps) }.
(** dynamic.rs 84-93 *)
Definition racing_new : racing := MkRacing manager_new ∅.
(** The two halves *)
Inductive rop := RChange (t : nat) (o : dop) | RTell (t : nat).
(** One half of a call, with the calls of other tasks between the halves: dynamic.rs 98-264, 316-330.  Simplified: telling the
    listeners is one step (they are called under the read lock). *)
Definition rc_step (cf : config) (s : racing) (r : rop) : racing :=
  match r with
  | RChange t o =>
    match rc_calls s !! t with
    | Some _ => s
    | None => MkRacing (registered (rc_manager s) o) (match to_tell (rc_manager s) o with Some f => <[t := f]> (rc_calls s) | None => rc_calls s end)
    end
  | RTell t =>
    match rc_calls s !! t with
    | Some f => MkRacing (announce cf f (rc_manager s)) (delete t (rc_calls s))
    | None => s
    end
  end.
(** A history of halves *)
Definition rc_run (cf : config) (rs : list rop) : racing := fold_left (rc_step cf) rs racing_new.
