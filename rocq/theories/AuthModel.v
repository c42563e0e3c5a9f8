(** Authentication middleware: src/server/auth/middleware.rs and AuthInfo of src/types/auth.rs.
    Definitions only. *)
From stdpp Require Import strings list.
From Verif Require Import TextLib JsonLib SerdeLib OAuthModel.

(** AuthScheme and AuthInfo, types/auth.rs:29-38, 9-24 (the oauth field is not looked at) *)
Inductive scheme := SNone | SBearer | SOAuth2 | SCustom (s : text).
Global Instance scheme_eq_dec : EqDecision scheme. Proof. solve_decision. Defined.
Record auth_info := MkAuth { u_scheme : scheme; u_token : option text; u_params : list (text * json) }.
(** bearer, 217-224 *)
Definition auth_bearer (t : text) : auth_info := MkAuth SBearer (Some t) [].
(** HashMap::get, then Value::as_str (src/server/auth/middleware.rs 177-187) *)
Definition param (k : string) (a : auth_info) : option text :=
  match list_find (λ x, x.1 = lit k) (u_params a) with Some (_, (_, JStr s)) => Some s | _ => None end.

(** AuthContext, middleware.rs:12-24 (its metadata is always empty) *)
Record context := MkContext { x_client : text; x_user : text; x_scopes : list text }.
Definition anonymous : context := MkContext (lit "anonymous") (lit "anonymous") [].   (* 101-106, 344-349 *)
(** has_scope, has_all_scopes, has_any_scope, 28-40 *)
Definition has_scope (x : context) (s : text) : bool := existsb (λ y, bool_decide (y = s)) (x_scopes x).
Definition has_all_scopes (x : context) (l : list text) : bool := forallb (has_scope x) l.
Definition has_any_scope (x : context) (l : list text) : bool := existsb (has_scope x) l.
(** What the provider answers while a request is authenticated: validate_token, and get_client (which
    may fail).  Simplified: these do not change during one authentication. *)
(** src/server/auth/oauth2.rs 318, 352 (the trait); asked in middleware.rs 90-140, 166-212 *)
Record oracle := MkOracle { or_validate : text → option tinfo; or_client : text → option (option oclient) }.
(** the errors of middleware.rs 90-345, by kind *)
Inductive denial := DRequired (why : string) | DDenied | DProvider | DOther.
(** A tree of middlewares.  [MOther] is any other implementation of the trait (middleware.rs 56, 145, 217, 288) *)
Inductive middleware :=
| MBearer (required : bool)
| MClient
| MScope (inner : middleware) (scopes : list text) (all : bool)
| MComposite (l : list middleware) (require_any : bool)
| MOther (f : option auth_info → context + denial) (required : bool).
Section auth.
  Context (o : oracle).
  (** BearerTokenMiddleware::authenticate, 91-137 *)
  Definition bearer (required : bool) (a : option auth_info) : context + denial :=
    match a with
    | None => if required then inr (DRequired "Authentication required") else inl anonymous
    | Some a =>
      if decide (u_scheme a = SBearer) then
        match u_token a with
        | None => inr (DRequired "Missing token")
        | Some t => match or_validate o t with
                    | None => inr (DRequired "Invalid token")
                    | Some i => inl (MkContext (i_client i) (i_user i) (i_scopes i))
                    end
        end
      else inr (DRequired "Invalid authentication scheme")
    end.
  (** ClientCredentialsMiddleware::authenticate, 167-213 *)
  Definition client_credentials (a : option auth_info) : context + denial :=
    match a with
    | None => inr (DRequired "Authentication required")
    | Some a =>
      match param "client_id" a with
      | None => inr (DRequired "Missing client_id")
      | Some id =>
        match param "client_secret" a with
        | None => inr (DRequired "Missing client_secret")
        | Some secret =>
          match or_client o id with
          | None => inr DProvider
          | Some None => inr (DRequired "Invalid client")
          | Some (Some c) => if decide (o_secret c = Some secret) then inl (MkContext (o_id c) (o_id c) (o_scopes c)) else inr (DRequired "Invalid client credentials")
          end
        end
      end
    end.
  (** ScopeMiddleware::authenticate, 259-280 *)
  Definition scope_check (r : context + denial) (scopes : list text) (all : bool) : context + denial :=
    match r with
    | inl x => if (if all then has_all_scopes x scopes else has_any_scope x scopes) then inl x else inr DDenied
    | inr e => inr e
    end.
  (** CompositeMiddleware::authenticate, 326-351: the loop, given the results of the members (only
      computed up to the first success, which does not matter for the result) *)
  Fixpoint try_each (rs : list (context + denial)) (last : option denial) (require_any : bool) : context + denial :=
    match rs with
    | [] => if require_any then inr (default (DRequired "Authentication failed") last) else inl anonymous
    | inl x :: _ => inl x
    | inr e :: rs => try_each rs (Some e) require_any
    end.
  Fixpoint authenticate (m : middleware) (a : option auth_info) : context + denial :=
    match m with
    | MBearer r => bearer r a
    | MClient => client_credentials a
    | MScope inner scopes all => scope_check (authenticate inner a) scopes all
    | MComposite l any => try_each (map (λ m, authenticate m a) l) None any
    | MOther f _ => f a
    end.
End auth.
(** is_required, 50-52, 139-141, 282-284, 353-355 *)
Fixpoint is_required (m : middleware) : bool :=
  match m with
  | MBearer r => r
  | MClient => true
  | MScope inner _ _ => is_required inner
  | MComposite l any => any && existsb is_required l
  | MOther _ r => r
  end.
