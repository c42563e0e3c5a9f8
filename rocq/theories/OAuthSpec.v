(** Specification vocabulary for the OAuth provider. *)
From stdpp Require Import gmap strings list.
From Verif Require Import ListLib TextLib SerdeLib OAuthModel.
Local Open Scope Z_scope.

(** Every generated value (a random UUID) is new. *)
Definition gens (o : oop) : list text := match o with OStart _ g1 g2 _ | ORun _ _ g1 g2 => [g1; g2] end.
Definition fresh_gens (os : list oop) : Prop := NoDup (os ≫= gens).
(** The n-th call was [c] and has returned [r]. *)
Definition returned (s : provider) (n : nat) (c : call) (r : oresult) : Prop := pv_calls s !! n = Some (c, PDone r).
Definition unfinished (x : call * pc) : Prop := ∀ r, x.2 ≠ PDone r.
(** The verifier is the one the code was issued for: none needed without a challenge. *)
Definition pkce_ok (s256 : text → text) (challenge method verifier : option text) : Prop :=
  match challenge with
  | None => True
  | Some ch => ∃ v, verifier = Some v ∧ (((method = None ∨ method = Some (lit "plain")) ∧ v = ch) ∨ (method = Some (lit "S256") ∧ s256 v = ch))
  end.
(** A call that is neither refresh_token nor revoke_token. *)
Definition grants_only (c : call) : Prop := match c with CRefresh _ | CRevoke _ => False | _ => True end.
Definition quiet (s : provider) : Prop := Forall (λ x, ∃ r, x.2 = PDone r) (pv_calls s).
(** When something happened. *)
Definition clock (o : oop) : Z := match o with OStart _ _ _ t | ORun _ t _ _ => t end.
(** The same history with other client secrets in the exchange requests. *)
Definition resecret_req (f : option text → option text) (q : treq) : treq := MkReq (q_grant q) (q_code q) (q_redirect q) (q_client q) (f (q_secret q)) (q_verifier q).
Definition resecret_call (f : option text → option text) (c : call) : call := match c with CExchange q => CExchange (resecret_req f q) | _ => c end.
Definition resecret (f : option text → option text) (o : oop) : oop := match o with OStart c g1 g2 t => OStart (resecret_call f c) g1 g2 t | ORun _ _ _ _ => o end.
