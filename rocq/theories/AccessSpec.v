(** Specification vocabulary for authentication in front of the library's own provider. *)
From stdpp Require Import gmap strings list.
From Verif Require Import TextLib SerdeLib OAuthModel OAuthSpec AuthModel AuthSpec.
Local Open Scope Z_scope.

(** Somebody asked the provider, in this history, for an authorization code or an access token for
    this client, user and scopes. *)
Definition authorised (os : list oop) (client user : text) (scopes : list text) : Prop :=
  (∃ redirect challenge method g1 g2 t, OStart (CCode client user redirect scopes challenge method) g1 g2 t ∈ os) ∨
  (∃ g1 g2 t, OStart (CCreate client user scopes) g1 g2 t ∈ os).

(** Whenever the middleware's question about a token is answered with its information, that is the
    answer of a validate_token call of this history, the [k]th call or a later one. *)
Definition backed (s256 : text → text) (os : list oop) (k : nat) (o : oracle) : Prop :=
  ∀ t i, or_validate o t = Some i → ∃ n, (k <= n)%nat ∧ returned (o_run s256 os) n (CValidate t) (RInfo i).

(** A tree of middlewares that lets nobody in but with a bearer token. *)
Definition tokens_only (m : middleware) : Prop := ¬ foreign m ∧ MClient ∉ members m ∧ ¬ lets_anonymous m.

(** How many calls were started. *)
Definition calls_of (s256 : text → text) (os : list oop) : nat := length (pv_calls (o_run s256 os)).
