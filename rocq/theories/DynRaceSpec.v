(** What overlapping changes at runtime are to do. *)
From stdpp Require Import gmap strings list.
From Verif Require Import TextLib JsonLib SerdeLib TypesModel RpcModel ServerModel DynModel DynRaceModel.

(** The changes of a history, in the order in which they were made: those of calls not under way already. *)
Fixpoint changes (cf : config) (s : racing) (rs : list rop) : list dop :=
  match rs with
  | [] => []
  | r :: rs => match r with RChange t o => match rc_calls s !! t with None => [o] | Some _ => [] end | RTell _ => [] end ++ changes cf (rc_step cf s r) rs
  end.
(** What two managers have in common but for the announcements made. *)
Definition same_registries (m m' : manager) : Prop :=
  mg_tools m = mg_tools m' ∧ mg_prompts m = mg_prompts m' ∧ mg_resources m = mg_resources m' ∧ mg_sampling m = mg_sampling m' ∧ mg_listeners m = mg_listeners m'.
(** What listener [l] was told, in order. *)
Definition told_to (l : nat) (m : manager) : list scaps := snd <$> filter (λ x, x.1 = l) (mg_told m).
(** Calls one after the other. *)
Definition one_by_one (os : list dop) : list rop := os ≫= λ o, [RChange 0 o; RTell 0].
