(** What a client and a provider of this library are to do together. *)
From stdpp Require Import gmap strings list.
From Verif Require Import ListLib TextLib JsonLib SerdeLib WhiteSpec OAuthModel OAuthSpec OidcModel OidcSpec FlowModel.
Local Open Scope Z_scope.

(** What the endpoint reads of a request of the client. *)
Definition received (q : areq) : option token_req := match form_fields (rq_body q) with Some fs => token_req_of fs | None => None end.
(** In this history only the [n]-th call exchanges the code. *)
Definition only_exchange (s : provider) (n : nat) (code : text) : Prop := ∀ k q p, pv_calls s !! k = Some (CExchange q, p) → q_code q = Some code → k = n.
(** The steps of the [n]-th call in a history happen within ten minutes of the creation of the code. *)
Definition in_time (os os' : list oop) (c : call) (n : nat) (code : text) : Prop := ∀ t g1 g2 g t0, ORun n t g1 g2 ∈ os' → OStart c code g t0 ∈ os → t <= t0 + 600.
(** Scopes as OAuth has them: words. *)
Definition scope_words (l : list text) : Prop := Forall (λ w, w ≠ [] ∧ ∀ c, c ∈ w → c ∉ white_space) l.
