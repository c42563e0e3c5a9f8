(** Specification vocabulary for the middlewares that come with the library. *)
From stdpp Require Import strings list.
From Verif Require Import TextLib JsonLib SerdeLib TypesModel RpcModel LogModel ReconnectModel BuiltinModel.

(** The user's own middlewares of a chain. *)
Definition own (c : list link) : list (middleware rpc_request rpc_response message api_error) :=
  omap (λ x, match x with inr u => Some u | inl _ => None end) c.
(** What the user's own middlewares of a chain got to see, of what all of them did. *)
Definition own_saw {M} (c : list link) (seen : list M) : list M :=
  omap (λ xm : link * M, match xm.1 with inr _ => Some xm.2 | inl _ => None end) (zip c seen).
(** The same chain with other secrets in it. *)
Definition same_but_tokens (c c' : list link) : Prop :=
  Forall2 (λ x x', match x, x' with inl (BAuth _), inl (BAuth _) => True | _, _ => x = x' end) c c'.
(** A chain of the library's middlewares only. *)
Definition all_builtin (c : list link) : Prop := own c = [].
(** The level at which a middleware writes. *)
Definition level_of (b : builtin) : level := match b with BLogging l => l | _ => Debug end.
Definition is_logging (b : builtin) : bool := match b with BLogging _ => true | _ => false end.
(** [m] occurs in [t]. *)
Definition mentions (t m : list N) : Prop := ∃ a b, t = a ++ m ++ b.
