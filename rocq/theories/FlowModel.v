(** A token endpoint between the helpers of clients (src/client/auth.rs, OidcModel.v) and the provider
    (src/server/auth/oauth2.rs, OAuthModel.v).  Definitions only. *)
From stdpp Require Import gmap strings list.
From Verif Require Import ListLib TextLib JsonLib SerdeLib OAuthModel.

(** The names of TokenRequest's fields, oauth2.rs 250-290 *)
Definition token_fields : list text :=
  [lit "grant_type"; lit "code"; lit "redirect_uri"; lit "client_id"; lit "client_secret"; lit "refresh_token"; lit "username"; lit "password"; lit "scope"; lit "code_verifier"].
(** GrantType, oauth2.rs 12-27 *)
Definition grant_of (t : text) : option grant :=
  if decide (t = lit "authorization_code") then Some GCode else if decide (t = lit "refresh_token") then Some GRefresh
  else if decide (t = lit "client_credentials") then Some GClient else if decide (t = lit "password") then Some GPassword else None.
(** TokenRequest, oauth2.rs 250-290; username and password are not looked at by anything *)
Record token_req := MkTokenReq { tr_core : treq; tr_refresh : option text; tr_scope : option text }.
(** Its derived Deserialize on the fields of a form, oauth2.rs 250-290: all values are strings, a field given twice is an error,
    unknown ones are ignored *)
Definition token_req_of (fs : list (text * text)) : option token_req :=
  if bool_decide (NoDup (filter (λ k, k ∈ token_fields) fs.*1)) then
    match assoc (lit "grant_type") fs ≫= grant_of with
    | Some g =>
      Some (MkTokenReq (MkReq g (assoc (lit "code") fs) (assoc (lit "redirect_uri") fs) (assoc (lit "client_id") fs) (assoc (lit "client_secret") fs) (assoc (lit "code_verifier") fs))
                       (assoc (lit "refresh_token") fs) (assoc (lit "scope") fs))
    | None => None
    end
  else None.
(** The provider's method for a request: exchange_code, oauth2.rs 531, takes the request; refresh_token, 642, the refresh token *)
Definition provider_call (r : token_req) : option call :=
  match q_grant (tr_core r) with
  | GCode => Some (CExchange (tr_core r))
  | GRefresh => CRefresh <$> tr_refresh r
  | _ => None
  end.
(** The AccessToken that create_access_token returns, oauth2.rs 631-638, as JSON (105-129) *)
Definition access_token_json (tok rt : text) (scopes : list text) : json :=
  JObj [(lit "access_token", JStr tok); (lit "token_type", JStr (lit "bearer")); (lit "expires_in", JInt token_expiration);
        (lit "refresh_token", JStr rt); (lit "scope", JStr (join_with [32%N] scopes))].
