(** The OAuth helpers of clients: src/client/auth.rs, with the discovery document of
    src/server/auth/oauth2.rs.  Definitions only.  reqwest is not in /repo: what it sends for form(..)
    (application/x-www-form-urlencoded) and basic_auth(..) is written down here, and replies are inputs. *)
From stdpp Require Import sets list strings.
From Verif Require Import ListLib TextLib Utf8Lib JsonLib SerdeLib TypesModel RpcModel UriModel SimdModel HttpSseModel.
Local Open Scope N_scope.

(** src/server/auth/oauth2.rs:12-36 *)
Definition t_grant_type : ty := TEnum [lit "authorization_code"; lit "refresh_token"; lit "client_credentials"; lit "password"] [].
Definition t_response_type : ty := TEnum [lit "code"; lit "token"] [].
(** OidcDiscoveryMetadata, src/server/auth/oauth2.rs:170-215 *)
Definition t_metadata : ty := struct
  [req "issuer" TStr; req "authorization_endpoint" TStr; req "token_endpoint" TStr; opt "jwks_uri" TStr; opt "userinfo_endpoint" TStr;
   opt "registration_endpoint" TStr; opt "revocation_endpoint" TStr; opt "introspection_endpoint" TStr;
   req "response_types_supported" (TVec t_response_type); req "grant_types_supported" (TVec t_grant_type); req "scopes_supported" (TVec TStr);
   req "token_endpoint_auth_methods_supported" (TVec TStr); req "code_challenge_methods_supported" (TVec TStr)].
(** InMemoryOAuthProvider::metadata, src/server/auth/oauth2.rs:708-728; the supported scopes are those of
    new (400-411) *)
Definition provider_metadata (base : list N) : json :=
  let at_ s := JStr (base ++ lit s) in let strs l := JArr ((λ s, JStr (lit s)) <$> l) in
  JObj [(lit "issuer", JStr base); (lit "authorization_endpoint", at_ "/oauth2/authorize"); (lit "token_endpoint", at_ "/oauth2/token");
        (lit "jwks_uri", at_ "/oauth2/jwks"); (lit "userinfo_endpoint", at_ "/oauth2/userinfo"); (lit "registration_endpoint", at_ "/oauth2/register");
        (lit "revocation_endpoint", at_ "/oauth2/revoke"); (lit "introspection_endpoint", at_ "/oauth2/introspect");
        (lit "response_types_supported", strs ["code"]); (lit "grant_types_supported", strs ["authorization_code"; "refresh_token"]);
        (lit "scopes_supported", strs ["read"; "write"]); (lit "token_endpoint_auth_methods_supported", strs ["client_secret_basic"; "client_secret_post"]);
        (lit "code_challenge_methods_supported", strs ["plain"; "S256"])].
(** u64 *)
Definition t_u64 : ty := TInt 0 18446744073709551615.
(** TokenResponse, src/client/auth.rs:246-265 *)
Definition t_token_response : ty := struct
  [req "access_token" TStr; req "token_type" TStr; opt "expires_in" t_u64; opt "refresh_token" TStr; opt "scope" TStr].
(** AccessToken and TokenType, src/server/auth/oauth2.rs:38-44, 105-129: what a server answers *)
Definition t_access_token : ty := TStruct Flatten
  [req "access_token" TStr; req "token_type" (TEnum [lit "bearer"] []); opt "expires_in" t_u64; opt "refresh_token" TStr; opt "scope" TStr].

(** The result of a request: it fails, described by [why]; or a reply with its status, the standard
    reason for that status, and the body ([None]: reading it fails).  [why] then is what serde or
    reqwest say of a body that cannot be used. *)
(** src/client/auth.rs 170-197, 353-375 *)
Inductive areply := AFailed (why : list N) | AReply (status : N) (reason : list N) (body : option (list N)) (why : list N).
(** StatusCode::is_success (src/client/auth.rs 184, 361, 413; json_body: 191, 369, 421) *)
Definition success_status (z : N) : bool := (200 <=? z) && (z <? 300).
Definition json_body (t : ty) (body : option (list N)) : option json := (body ≫= of_bytes) ≫= decode t.

(** *** Discovery (src/client/auth.rs 139) *)
Definition trim_end (c : N) (l : list N) : list N := reverse (drop_while (N.eqb c) (reverse l)).
(** 137-140 *)
Definition discovery_url (issuer : list N) : list N := trim_end 47 issuer ++ lit "/.well-known/openid-configuration".
(** fetch_discovery, 170-197 *)
Definition fetch_discovery (r : areply) : api_error + json :=
  match r with
  | AFailed why => inl (EProtocol (-32603) (lit "Failed to fetch discovery document: " ++ why) None)
  | AReply z reason body why =>
    if success_status z then
      match json_body t_metadata body with
      | Some v => inr v
      | None => inl (EProtocol (-32700) (lit "Failed to parse discovery document: " ++ why) None)
      end
    else inl (EProtocol (-32603) (lit "Discovery endpoint returned status: " ++ show_N z ++ lit " " ++ reason) None)
  end.
(** should_retry, 200-214 *)
Definition should_retry (e : api_error) : bool :=
  match e with
  | ETimeout _ => true
  | _ => let s := error_display e in contains (lit "CORS") s || contains (lit "network") s || contains (lit "timeout") s || contains (lit "connection") s
  end.
Inductive daction := DFetch (url : list N) | DSleep.
(** discover, 136-167, as a loop over the attempts left; [replies i] is the result of the i-th request.
    "attempts + 1 < max_retries" is: more than this attempt is left. *)
Fixpoint discover_loop (url : list N) (replies : nat → areply) (attempts_left i : nat) : (api_error + json) * list daction :=
  match attempts_left with
  | O => (inl (EProtocol (-32603) (lit "Failed to discover OIDC configuration") None), [])
  | S rest =>
    match fetch_discovery (replies i) with
    | inr m => (inr m, [DFetch url])
    | inl e =>
      if should_retry e && (0 <? rest)%nat then
        let (r, l) := discover_loop url replies rest (S i) in (r, DFetch url :: DSleep :: l)
      else (inl e, [DFetch url])
    end
  end.
Definition discover (max_retries : nat) (issuer : list N) (replies : nat → areply) : (api_error + json) * list daction :=
  discover_loop (discovery_url issuer) replies max_retries 0.

(** *** Token requests *)
(** application/x-www-form-urlencoded, as serde_urlencoded writes it (src/client/auth.rs 347, 399) *)
Definition form_plain (b : N) : bool := is_alpha b || is_digit b || existsb (N.eqb b) [42; 45; 46; 95].
Definition form_byte (b : N) : list N := if b =? 32 then [43] else if form_plain b then [b] else [37; hex_digit (b / 16); hex_digit (b mod 16)].
Definition form_text (t : list N) : list N := concat (form_byte <$> utf8 t).
Definition form_pair (p : list N * list N) : list N := form_text p.1 ++ [61] ++ form_text p.2.
Definition form_encode (ps : list (list N * list N)) : list N := join_with [38] (form_pair <$> ps).
(** A token request: where, the authorization header if any, the body (src/client/auth.rs 340-352, 392-404) *)
Record areq := MkAReq { rq_url : list N; rq_auth : option (list N); rq_body : list N }.
(** reqwest's basic_auth (src/client/auth.rs 351, 403) *)
Definition basic_auth (id secret : list N) : list N := lit "Basic " ++ base64_encode (utf8 id ++ [58] ++ utf8 secret).
Definition token_request (url id : list N) (secret : option (list N)) (ps : list (list N * list N)) : areq :=
  MkAReq url (basic_auth id <$> secret) (form_encode ps).
(** exchange_code, 333-352 *)
Definition exchange_request (url code id : list N) (secret : option (list N)) (redirect : list N) (verifier : option (list N)) : areq :=
  token_request url id secret
    ([(lit "grant_type", lit "authorization_code"); (lit "code", code); (lit "client_id", id); (lit "redirect_uri", redirect)] ++
     match verifier with Some v => [(lit "code_verifier", v)] | None => [] end).
(** refresh_token, 386-403 *)
Definition refresh_request (url token id : list N) (secret scope : option (list N)) : areq :=
  token_request url id secret
    ([(lit "grant_type", lit "refresh_token"); (lit "refresh_token", token); (lit "client_id", id)] ++
     match scope with Some s => [(lit "scope", s)] | None => [] end).
(** 354-374, 406-425: [sending] and [refused] begin the messages.  text() decodes as UTF-8 (no other
    charset is modelled); a body that cannot be read counts as empty. *)
Definition token_reply (sending refused : string) (r : areply) : api_error + json :=
  match r with
  | AFailed why => inl (EProtocol (-32603) (lit sending ++ why) None)
  | AReply z _ body why =>
    if success_status z then
      match json_body t_token_response body with
      | Some v => inr v
      | None => inl (EProtocol (-32700) (lit "Failed to parse token response: " ++ why) None)
      end
    else inl (EProtocol (-32600) (lit refused ++ lossy (default [] body)) None)
  end.
Definition exchange_reply : areply → api_error + json := token_reply "Failed to exchange authorization code: " "Token exchange failed: ".
Definition refresh_reply : areply → api_error + json := token_reply "Failed to refresh token: " "Token refresh failed: ".
