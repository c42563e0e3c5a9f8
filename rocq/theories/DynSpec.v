(** Specification vocabulary for runtime configuration. *)
From stdpp Require Import gmap strings list.
From Verif Require Import TextLib JsonLib SerdeLib TypesModel RpcModel ServerModel DynModel.

(** The operation decides about tool (prompt) [n]. *)
Definition about_tool (n : text) (o : dop) : Prop := (∃ h, o = DAddTool n h) ∨ o = DRemoveTool n ∨ o = DClearTools.
Definition about_prompt (n : text) (o : dop) : Prop := (∃ h, o = DAddPrompt n h) ∨ o = DRemovePrompt n ∨ o = DClearPrompts.
(** The last operation about [n] added handler [h]. *)
Definition last_added_tool (n : text) (h : nat) (os : list dop) : Prop := ∃ l1 l2, os = l1 ++ DAddTool n h :: l2 ∧ ∀ o, o ∈ l2 → ¬ about_tool n o.
Definition last_added_prompt (n : text) (h : nat) (os : list dop) : Prop := ∃ l1 l2, os = l1 ++ DAddPrompt n h :: l2 ∧ ∀ o, o ∈ l2 → ¬ about_prompt n o.
(** The capabilities listener [l] was told last. *)
Definition last_told (m : manager) (l : nat) : option scaps := snd <$> last (filter (λ x, x.1 = l) (mg_told m)).
(** An operation that announces capabilities when it succeeds. *)
Definition configures (o : dop) : Prop := match o with DListen | DClearTools | DClearPrompts => False | _ => True end.
(** The listeners added by a history. *)
Fixpoint listeners (os : list dop) : nat := match os with [] => 0 | DListen :: os => S (listeners os) | _ :: os => listeners os end.
