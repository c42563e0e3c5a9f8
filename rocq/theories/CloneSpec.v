(** What clones and options are to be. *)
From stdpp Require Import list strings.
From Verif Require Import TextLib JsonLib SerdeLib TypesModel RpcModel ServerModel ClientModel CloneModel.

(** What call [e] on client [i] gives and sends. *)
Definition gives (s : clones) (i : nat) (e : cevent) : option cresult := (n_step s (NCall i e)).2.
Definition sends (s : clones) (i : nat) (e : cevent) : list message := drop (length (k_sent (ns_link s))) (k_sent (ns_link (n_step s (NCall i e)).1)).
(** Client [i] has been initialized. *)
Definition is_ready (s : clones) (i : nat) : Prop := ∃ w, ns_own s !! i = Some w ∧ o_initialized w = true.
Definition not_ready (s : clones) (i : nat) : Prop := ∃ w, ns_own s !! i = Some w ∧ o_initialized w = false.
(** [i] is not asked to initialize. *)
Definition no_handshake (i : nat) (o : nop) : Prop := match o with NCall j e => j = i → ∀ caps info, e_op e ≠ OInitialize caps info | _ => True end.
Definition strict_call (b : bcall) : option bool := match b with BStrict x => Some x | _ => None end.
Definition debounced_call (b : bcall) : option (list (list N)) := match b with BDebounced x => Some x | _ => None end.
