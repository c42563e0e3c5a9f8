(** AuthInfo of src/types/auth.rs, as JSON and as a header.  Definitions only. *)
From stdpp Require Import strings list.
From Verif Require Import TextLib JsonLib SerdeLib TypesModel OAuthModel AuthModel.

(** AuthInfo, 9-24, with the oauth field that AuthModel leaves out (as the document it serialises to); [cr_params] is a HashMap:
    its entries in the order in which it is iterated *)
Record creds := MkCreds { cr_scheme : scheme; cr_token : option text; cr_oauth : option json; cr_params : list (text * json) }.
(** AuthScheme, 27-38: rename_all = "camelCase" *)
Definition t_scheme : ty := TEnum [lit "none"; lit "bearer"; lit "oAuth2"] [(lit "custom", TStr)].
Definition scheme_json (s : scheme) : json :=
  match s with
  | SNone => JStr (lit "none")
  | SBearer => JStr (lit "bearer")
  | SOAuth2 => JStr (lit "oAuth2")
  | SCustom c => JObj [(lit "custom", JStr c)]
  end.
Definition scheme_of (v : json) : option scheme :=
  match v with
  | JStr s => if decide (s = lit "none") then Some SNone else if decide (s = lit "bearer") then Some SBearer
              else if decide (s = lit "oAuth2") then Some SOAuth2 else None
  | JObj [(_, JStr c)] => Some (SCustom c)
  | _ => None
  end.
(** OAuthInfo, 103-127, and PkceMethod, 142-149 *)
Definition t_oauth_info : ty := struct
  [req "authUrl" TStr; req "tokenUrl" TStr; req "clientId" TStr; opt "scopes" (TVec TStr); opt "redirectUri" TStr;
   opt "pkceMethod" (TEnum [lit "plain"; lit "S256"] [])].
(** The named fields of AuthInfo, 9-19; params is flattened, 21-23 *)
Definition auth_fields : list (text * (fkind * ty)) := [req "scheme" t_scheme; opt "token" TStr; opt "oauth" t_oauth_info].
Definition t_auth_info : ty := TStruct Flatten auth_fields.
(** serde_json::to_value of the derived Serialize, 7-24: the fields and then the params are inserted into one map *)
Definition creds_json (a : creds) : json :=
  JObj (obj_of (((lit "scheme", scheme_json (cr_scheme a)) :: put (lit "token") (JStr <$> cr_token a) (put (lit "oauth") (cr_oauth a) [])) ++ cr_params a)).
(** serde_json::from_value, 7-24 *)
Definition creds_of (v : json) : option creds :=
  match decode t_auth_info v with
  | Some (JObj l) =>
    match assoc (lit "scheme") l ≫= scheme_of with
    | Some s => Some (MkCreds s (match assoc (lit "token") l with Some (JStr t) => Some t | _ => None end) (assoc (lit "oauth") l) (rest_of Flatten auth_fields l))
    | None => None
    end
  | _ => None
  end.
(** authorization_header, 337-342 *)
Definition authorization_header (a : creds) : option text :=
  match cr_scheme a, cr_token a with SBearer, Some t => Some (lit "Bearer " ++ t) | _, _ => None end.
(** none, 187-194; bearer, 217-224; oauth2, 258-265; is_required, 296-298 *)
Definition creds_none : creds := MkCreds SNone None None [].
Definition creds_bearer (t : text) : creds := MkCreds SBearer (Some t) None [].
Definition creds_oauth2 (o : json) : creds := MkCreds SOAuth2 None (Some o) [].
Definition creds_required (a : creds) : bool := match cr_scheme a with SNone => false | _ => true end.
