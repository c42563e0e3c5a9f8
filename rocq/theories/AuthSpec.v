(** Specification vocabulary for authentication. *)
From stdpp Require Import strings list.
From Verif Require Import TextLib JsonLib SerdeLib OAuthModel AuthModel.

(** The request presents a bearer token the provider validates; the context is that token's. *)
Definition by_token (o : oracle) (a : option auth_info) (x : context) : Prop :=
  ∃ u t i, a = Some u ∧ u_scheme u = SBearer ∧ u_token u = Some t ∧ or_validate o t = Some i ∧ x = MkContext (i_client i) (i_user i) (i_scopes i).
(** The request presents the id and the secret of a client the provider knows. *)
Definition by_secret (o : oracle) (a : option auth_info) (x : context) : Prop :=
  ∃ u id s c, a = Some u ∧ param "client_id" u = Some id ∧ param "client_secret" u = Some s ∧ or_client o id = Some (Some c) ∧ o_secret c = Some s ∧
    x = MkContext (o_id c) (o_id c) (o_scopes c).
(** Members of a tree, and whether some member lets anonymous requests in. *)
Fixpoint members (m : middleware) : list middleware :=
  m :: match m with MScope inner _ _ => members inner | MComposite l _ => concat (map members l) | _ => [] end.
Definition lets_anonymous (m : middleware) : Prop := MBearer false ∈ members m ∨ ∃ l, MComposite l false ∈ members m.
Definition foreign (m : middleware) : Prop := ∃ f r, MOther f r ∈ members m.
Definition succeeds (r : context + denial) : Prop := ∃ x, r = inl x.
(** A parameter map holds a key once. *)
Definition proper_params (a : auth_info) : Prop := NoDup (u_params a).*1.
(** The provider fails to look up the client the request names. *)
Definition lookup_failed (o : oracle) (a : option auth_info) : Prop :=
  ∃ u id s, a = Some u ∧ param "client_id" u = Some id ∧ param "client_secret" u = Some s ∧ or_client o id = None.
(** The context lacks a scope that is asked for: one of all, or every one. *)
Definition lacks (x : context) (scopes : list text) (all : bool) : Prop :=
  if all then ∃ s, s ∈ scopes ∧ s ∉ x_scopes x else ∀ s, s ∈ scopes → s ∉ x_scopes x.
