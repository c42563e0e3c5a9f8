(** Registering OAuth clients with JSON documents: OAuthClient of src/server/auth/oauth2.rs, 47-75, and register_client, 447-461,
    with all fields of a client.  Definitions only. *)
From stdpp Require Import gmap strings list.
From Verif Require Import ListLib TextLib JsonLib SerdeLib OAuthModel FlowModel.

(** OAuthClient, 47-75: [rg_client] has the fields that the provider looks at (OAuthModel.v); [rg_meta] is a HashMap: its entries
    in the order in which it is iterated *)
Record reg := MkReg { rg_client : oclient; rg_name : text; rg_grants : list grant; rg_meta : list (text * json) }.
(** The names of the fields, 50-70; metadata is flattened, 72-74 *)
Definition reg_fields : list text :=
  [lit "client_id"; lit "client_secret"; lit "client_name"; lit "redirect_uris"; lit "grant_types"; lit "response_types"; lit "scopes"].
(** GrantType, 11-27, and ResponseType, 28-37 *)
Definition grant_name (g : grant) : text :=
  match g with GCode => lit "authorization_code" | GRefresh => lit "refresh_token" | GClient => lit "client_credentials" | GPassword => lit "password" end.
Definition rtype_name (t : rtype) : text := match t with TCode => lit "code" | TToken => lit "token" end.
Definition rtype_of (t : text) : option rtype :=
  if decide (t = lit "code") then Some TCode else if decide (t = lit "token") then Some TToken else None.
(** The derived Serialize, 48, with serde_json::to_value: the fields and then the metadata are inserted into one map *)
Definition reg_named (r : reg) : list (text * json) :=
  (lit "client_id", JStr (o_id (rg_client r))) :: put (lit "client_secret") (JStr <$> o_secret (rg_client r))
  [(lit "client_name", JStr (rg_name r)); (lit "redirect_uris", JArr (JStr <$> o_redirects (rg_client r)));
   (lit "grant_types", JArr ((λ g, JStr (grant_name g)) <$> rg_grants r)); (lit "response_types", JArr ((λ t, JStr (rtype_name t)) <$> o_types (rg_client r)));
   (lit "scopes", JArr (JStr <$> o_scopes (rg_client r)))].
Definition reg_json (r : reg) : json := JObj (obj_of (reg_named r ++ rg_meta r)).
(** The derived Deserialize, 48, with serde_json::from_value (the keys of a Value are different): a String; an Option<String>, for
    which absent and null are the same; a Vec; a unit variant, which may also be written as a map to null *)
Definition str_of (v : json) : option text := match v with JStr s => Some s | _ => None end.
Definition ostr_of (o : option json) : option (option text) :=
  match o with None | Some JNull => Some None | Some v => Some <$> str_of v end.
Definition list_of {A} (f : json → option A) (v : json) : option (list A) := match v with JArr l => mapM f l | _ => None end.
Definition variant_of {A} (f : text → option A) (v : json) : option A :=
  match v with JStr s => f s | JObj [(k, JNull)] => f k | _ => None end.
Definition reg_of (v : json) : option reg :=
  match v with
  | JObj l =>
    id ← assoc (lit "client_id") l ≫= str_of; secret ← ostr_of (assoc (lit "client_secret") l); name ← assoc (lit "client_name") l ≫= str_of;
    redirects ← assoc (lit "redirect_uris") l ≫= list_of str_of; grants ← assoc (lit "grant_types") l ≫= list_of (variant_of grant_of);
    types ← assoc (lit "response_types") l ≫= list_of (variant_of rtype_of); scopes ← assoc (lit "scopes") l ≫= list_of str_of;
    Some (MkReg (MkClient id secret redirects types scopes) name grants (filter (λ kv, kv.1 ∉ reg_fields) l))
  | _ => None
  end.
(** register_client, 447-461; [g1], [g2] are what generate_token returns *)
Definition register (r : reg) (g1 g2 : text) (m : gmap text reg) : gmap text reg * reg :=
  let c := rg_client r in
  let id := match o_id c with [] => g1 | _ => o_id c end in
  let r := MkReg (MkClient id (Some (default g2 (o_secret c))) (o_redirects c) (o_types c) (o_scopes c)) (rg_name r) (rg_grants r) (rg_meta r) in
  (<[id := r]> m, r).
(** A registration endpoint, which users write: read the document, register (447-461), answer with the client that is returned *)
Definition endpoint (v : json) (g1 g2 : text) (m : gmap text reg) : gmap text reg * option json :=
  match reg_of v with
  | Some r => let '(m, r) := register r g1 g2 m in (m, Some (reg_json r))
  | None => (m, None)
  end.
