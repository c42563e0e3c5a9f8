(** C134-C138: discovery and token requests of clients. *)
From stdpp Require Import sets list strings.
From Verif Require Import ListLib TextLib Utf8Lib JsonLib SerdeLib TypesModel RpcModel HttpClientProofs UriModel UriSpec UriProofs SimdModel SimdSpec SimdProofs
  HttpSseModel HttpSseProofs2 OidcModel OidcSpec OidcProofs.
Local Open Scope N_scope.

(** ** C134: discovery retries what may be temporary, and nothing else *)
(** With a positive number of attempts: the result is the outcome of the first request that succeeds, fails
    for good, or is the last one allowed; exactly the requests up to it are made, all to the same place,
    with one pause between two. *)
Theorem C134_retries_partial : ∀ max issuer replies, (0 < max)%nat →
  ∃ n, decisive temporary max (λ i, fetch_discovery (replies i)) n ∧
    discover max issuer replies = (fetch_discovery (replies n), DFetch (discovery_url issuer) :: concat (replicate n [DSleep; DFetch (discovery_url issuer)])).
Proof.
  intros max issuer replies Hm. assert (∀ x, Decision (temporary x)) as D.
  { intros [e|v]; [|right; by intros (? & ? & _)]. destruct (should_retry e) eqn:R; [left; by apply retry_temporary|right; rewrite <- retry_temporary; congruence]. }
  destruct (decisive_exists temporary max (λ i, fetch_discovery (replies i)) Hm) as [n Hn]. exists n. split; [done|].
  unfold discover. by rewrite (loop_decisive _ _ _ 0 n).
Qed.
Print Assumptions C134_retries_partial.
(** The outcome of one request: without a reply, or with a status that is not one of success, an internal
    error with the description or the status in it; a successful reply is a document or a parse error. *)
Theorem C134_outcome : ∀ r,
  match r with
  | AFailed why => ∃ p, fetch_discovery r = inl (EProtocol (-32603) (p ++ why) None)
  | AReply z reason body why =>
    (¬ success z → ∃ p, fetch_discovery r = inl (EProtocol (-32603) (p ++ show_N z ++ lit " " ++ reason) None)) ∧
    (success z → (∃ v, fetch_discovery r = inr v) ∨ ∃ p, fetch_discovery r = inl (EProtocol (-32700) (p ++ why) None))
  end.
Proof.
  intros [why|z reason body why]; cbn [fetch_discovery]; [by eexists|]. destruct (success_status z) eqn:Ez.
  - split; [intros H%success_false; congruence|]. intros _. destruct (json_body t_metadata body) as [v|]; [left|right]; by eexists.
  - split; [|intros H%success_true; congruence]. intros _. by eexists.
Qed.
Print Assumptions C134_outcome.
(** What counts as temporary: the description of the failure has one of four words in it. *)
Theorem C134_temporary : ∀ r, temporary (fetch_discovery r) ↔ (∃ e, fetch_discovery r = inl e) ∧ sounds_temporary (reason_of r).
Proof.
  intros r. split.
  - intros Ht. destruct (fetch_discovery r) as [e|v] eqn:E; [|by destruct Ht as (? & ? & _)]. split; [by exists e|]. apply (fetch_retry r e E). by apply retry_temporary.
  - intros [[e E] H]. rewrite E. apply retry_temporary. by apply (fetch_retry r e).
Qed.
Print Assumptions C134_temporary.
(** False: with 0 ("No retries" in the documentation) no request is made at all and discovery always fails. *)
Theorem C134_zero_refuted : ∀ issuer replies, ∃ m, discover 0 issuer replies = (inl (EProtocol (-32603) m None), []).
Proof. intros issuer replies. by eexists. Qed.
Print Assumptions C134_zero_refuted.
(** False: "Automatically retries on CORS or network errors".  A failure to reach the server, described without
    one of the words, is final: one request is made.  (reqwest 0.12 describes it like this: "error sending
    request for url (...)".) *)
Theorem C134_failed_refuted : ∀ max issuer replies why, (0 < max)%nat → replies 0%nat = AFailed why → ¬ sounds_temporary why →
  ∃ e, discover max issuer replies = (inl e, [DFetch (discovery_url issuer)]).
Proof.
  intros max issuer replies why Hm H0 Hw. unfold discover. rewrite (loop_decisive _ _ _ 0 0); [cbn [Nat.add]; rewrite H0; by eexists|].
  split; [done|]. split; [lia|]. left. cbn [Nat.add]. rewrite C134_temporary, H0. by intros [_ H].
Qed.
Print Assumptions C134_failed_refuted.
(** A server's answer that it is overloaded is final as well; an issuer with "connection" in its name, when
    the description quotes its url, is asked again whatever went wrong. *)
Definition reached (n : nat) : areply := match n with 0%nat => AFailed (lit "connection refused") | 1%nat => AReply 503 (lit "Service Unavailable") None [] | _ => AFailed [] end.
Definition plain_why : list N := lit "error sending request for url (https://auth.example.com/.well-known/openid-configuration)".
Example C134_example :
  (discover 3 (lit "https://a/") reached).2 = [DFetch (lit "https://a/.well-known/openid-configuration"); DSleep; DFetch (lit "https://a/.well-known/openid-configuration")] ∧
  existsb (λ w, contains w plain_why) temporary_words = false ∧
  length (discover 3 (lit "https://connection.example.com") (λ _, AFailed (lit "error sending request for url (https://connection.example.com/.well-known/openid-configuration)"))).2 = 5%nat.
Proof. by vm_compute. Qed.

(** ** C135: the discovery url depends on the issuer only up to slashes at its end *)
Theorem C135_issuer : ∀ u v, discovery_url u = discovery_url v ↔ same_issuer u v.
Proof.
  intros u v. unfold discovery_url. split.
  - intros E. apply app_inv_tail in E. destruct (trim_end_shape 47 u) as [a Ha], (trim_end_shape 47 v) as [b Hb]. exists (trim_end 47 u), a, b. split; [done|]. by rewrite E.
  - intros (w & a & b & -> & ->). by rewrite !trim_end_replicate.
Qed.
Print Assumptions C135_issuer.
(** It is the well-known path below the issuer, without a double slash. *)
Theorem C135_url : ∀ u, (last u ≠ Some 47 → discovery_url u = u ++ lit "/.well-known/openid-configuration") ∧ ∀ n, discovery_url (u ++ replicate n 47) = discovery_url u.
Proof.
  intros u. split; [|intros n; apply C135_issuer; exists u, n, 0%nat; by rewrite app_nil_r]. intros Hl. unfold discovery_url. f_equal.
  destruct (trim_end_shape 47 u) as [[|n] E]; [by rewrite app_nil_r in E|]. exfalso. apply Hl. rewrite E, replicate_S_end, app_assoc. by rewrite last_snoc.
Qed.
Print Assumptions C135_url.
Example C135_example : discovery_url (lit "https://auth.example.com/oauth//") = lit "https://auth.example.com/oauth/.well-known/openid-configuration" ∧ last (lit "https://auth.example.com/oauth") ≠ Some 47.
Proof. by vm_compute. Qed.

(** ** C136: discovery returns the document the issuer publishes *)
Lemma metadata_ok : ty_ok t_metadata.
Proof. by vm_compute. Qed.
Theorem C136_document : ∀ z reason why v, success z → is_of t_metadata v → storable v →
  fetch_discovery (AReply z reason (Some (to_bytes v)) why) = inr v.
Proof.
  intros z reason why v Hz%success_true Hv Hs. cbn [fetch_discovery]. rewrite Hz. unfold json_body. cbn [mbind option_bind]. rewrite of_to_bytes by done. cbn [mbind option_bind].
  by rewrite (decode_is_of _ metadata_ok).
Qed.
Print Assumptions C136_document.
Definition clean (t : list N) : bool := forallb (λ c, c <? 128) t.
(** In particular what the SDK's in-memory provider publishes, whatever its url. *)
Theorem C136_own : ∀ base z reason why, Forall scalar base → success z →
  fetch_discovery (AReply z reason (Some (to_bytes (provider_metadata base))) why) = inr (provider_metadata base).
Proof.
  intros base z reason why Hb Hz. apply C136_document; [done| |].
  - eexists _, []. split; [rewrite app_nil_r; reflexivity|]. split; [|done]. cbn [layout req opt].
    repeat first [ eexists _, _; split; [reflexivity|]; split; [eexists; reflexivity|] | right; eexists _, _; split; [reflexivity|]; split; [done|]; split; [eexists; reflexivity|] | idtac ].
    eexists _, _; split; [reflexivity|]. split. { eexists. split; [reflexivity|]. apply Forall_singleton. left. eexists. split; [reflexivity|]. by apply (bool_decide_unpack _); vm_compute. }
    eexists _, _; split; [reflexivity|]. split. { eexists. split; [reflexivity|]. repeat (apply Forall_cons; split; [left; eexists; (split; [reflexivity|]); by apply (bool_decide_unpack _); vm_compute|]). by apply Forall_nil_2. }
    do 3 (eexists _, _; split; [reflexivity|]; split; [eexists; split; [reflexivity|]; repeat constructor; eexists; reflexivity|]). done.
  - assert (∀ s, forallb (λ c, c <? 128) (lit s) = true → Forall scalar (lit s)) as Hl.
    { intros s H. apply Forall_forall. intros c Hc. rewrite forallb_forall in H. apply elem_of_list_In in Hc. apply H in Hc. apply N.ltb_lt in Hc. unfold scalar. lia. }
    split; [|split; [|split]].
    + unfold provider_metadata. rewrite wf_obj. repeat constructor; cbn [snd wf]; repeat constructor.
    + unfold provider_metadata. rewrite keys_ok_obj. split; [by apply (bool_decide_unpack _); vm_compute|]. repeat constructor.
    + unfold provider_metadata. rewrite scalars_obj.
      repeat (apply Forall_cons; split; [split; [by apply Hl|cbn [snd]; first [exact Hb|apply Forall_app; split; [exact Hb|by apply Hl]|rewrite scalars_arr; repeat (apply Forall_cons; split; [by apply Hl|]); by apply Forall_nil_2]]|]). by apply Forall_nil_2.
    + cbn. lia.
Qed.
Print Assumptions C136_own.
(** False of other issuers: OpenID Connect Discovery 1.0 requires only issuer, endpoints, response types, subject
    types and signing algorithms.  A document without one of four optional lists is rejected, whatever else
    it has. *)
Theorem C136_optional_refuted : ∀ z reason why l n,
  n ∈ [lit "grant_types_supported"; lit "scopes_supported"; lit "token_endpoint_auth_methods_supported"; lit "code_challenge_methods_supported"] →
  storable (JObj l) → n ∉ l.*1 → ∃ e, fetch_discovery (AReply z reason (Some (to_bytes (JObj l))) why) = inl e.
Proof.
  intros z reason why l n Hn Hs Hl. cbn [fetch_discovery]. destruct (success_status z); [|by eexists]. unfold json_body. cbn [mbind option_bind]. rewrite of_to_bytes by done. cbn [mbind option_bind].
  assert (decode t_metadata (JObj l) = None) as ->; [|by eexists]. unfold t_metadata, struct. cbn [decode].
  assert (∀ t fs, (n, (Req, t)) ∈ fs → dec_fields decode fs l = None) as H.
  { intros t. induction fs as [|[m [k t']] fs IH]; [intros H; by apply elem_of_nil in H|]. rewrite !elem_of_cons. intros [[= <- <- <-]|H]; cbn [dec_fields].
    - rewrite assoc_not_in by done. done.
    - rewrite (IH H). by destruct (field_dec _ _ _). }
  rewrite !elem_of_cons, elem_of_nil in Hn.
  destruct Hn as [->|[->|[->|[->|[]]]]]; [rewrite (H (TVec t_grant_type)); [done|]|rewrite (H (TVec TStr)); [done|]..]; unfold req; repeat first [apply elem_of_list_here|apply elem_of_list_further].
Qed.
Print Assumptions C136_optional_refuted.
(** Likewise a document that offers a response type besides "code" and "token", such as "id_token". *)
Theorem C136_response_refuted : ∀ z reason why l ts t,
  storable (JObj l) → assoc (lit "response_types_supported") l = Some (JArr ts) → JStr t ∈ ts → t ≠ lit "code" → t ≠ lit "token" →
  ∃ e, fetch_discovery (AReply z reason (Some (to_bytes (JObj l))) why) = inl e.
Proof.
  intros z reason why l ts t Hs Hl Ht Hc Hk. cbn [fetch_discovery]. destruct (success_status z); [|by eexists]. unfold json_body. cbn [mbind option_bind]. rewrite of_to_bytes by done. cbn [mbind option_bind].
  assert (decode t_metadata (JObj l) = None) as ->; [|by eexists]. unfold t_metadata, struct. cbn [decode].
  assert (decode (TVec t_response_type) (JArr ts) = None) as Hn.
  { cbn [decode]. assert (mapM (decode t_response_type) ts = None) as ->; [|done]. apply mapM_None. apply Exists_exists. exists (JStr t). split; [done|]. unfold t_response_type. cbn [decode].
    rewrite decide_False; [done|]. rewrite !elem_of_cons, elem_of_nil. intros [?|[?|[]]]; done. }
  assert (∀ fs, (lit "response_types_supported", (Req, TVec t_response_type)) ∈ fs → dec_fields decode fs l = None) as H.
  { induction fs as [|[m [k ty]] fs IH]; [intros H; by apply elem_of_nil in H|]. rewrite !elem_of_cons. intros [[= <- <- <-]|Hd]; cbn [dec_fields].
    - rewrite Hl. cbn [field_dec]. rewrite Hn. done.
    - rewrite (IH Hd). by destruct (field_dec _ _ _). }
  rewrite H; [done|]. unfold req; repeat first [apply elem_of_list_here|apply elem_of_list_further].
Qed.
Print Assumptions C136_response_refuted.

(** An issuer without PKCE methods and one with "id_token" *)
Definition some_metadata (extra : list (list N * json)) (types : list string) : json :=
  JObj ([(lit "issuer", JStr (lit "https://a")); (lit "authorization_endpoint", JStr (lit "https://a/auth")); (lit "token_endpoint", JStr (lit "https://a/token"));
         (lit "response_types_supported", JArr ((λ s, JStr (lit s)) <$> types)); (lit "grant_types_supported", JArr [JStr (lit "authorization_code")]); (lit "scopes_supported", JArr []);
         (lit "token_endpoint_auth_methods_supported", JArr [])] ++ extra).
Definition pkce : list (list N * json) := [(lit "code_challenge_methods_supported", JArr [JStr (lit "S256")])].
Example C136_example :
  storable (some_metadata [] ["code"]) ∧ storable (some_metadata pkce ["code"]) ∧ storable (some_metadata pkce ["code"; "id_token"]) ∧
  fetch_discovery (AReply 200 [] (Some (to_bytes (some_metadata pkce ["code"]))) []) = inr (some_metadata pkce ["code"]) ∧
  fetch_discovery (AReply 200 [] (Some (to_bytes (some_metadata [] ["code"]))) []) = inl (EProtocol (-32700) (lit "Failed to parse discovery document: ") None).
Proof. do 3 (split; [apply storable_check; [by vm_compute|cbn; lia]|]). split; by vm_compute. Qed.

(** ** C137: a token request carries exactly the given parameters and credentials *)
Theorem C137_exchange : ∀ url code id secret redirect verifier, Forall scalar code → Forall scalar id → Forall scalar redirect → (∀ v, verifier = Some v → Forall scalar v) →
  let q := exchange_request url code id secret redirect verifier in
  rq_url q = url ∧ form_fields (rq_body q) = Some (code_parameters code id redirect verifier) ∧ (rq_auth q = None ↔ secret = None).
Proof.
  intros url code id secret redirect verifier H1 H2 H3 H4 q. split; [done|]. split; [|by destruct secret]. unfold q, exchange_request, token_request. cbn [rq_body].
  rewrite form_round.
  - f_equal. by destruct verifier.
  - done.
  - assert (∀ s, forallb (λ c, c <? 128) (lit s) = true → Forall scalar (lit s)) as Hl.
    { intros s H. apply Forall_forall. intros c Hc. rewrite forallb_forall in H. apply elem_of_list_In in Hc. apply H in Hc. apply N.ltb_lt in Hc. unfold scalar. lia. }
    apply Forall_app. split; [|destruct verifier as [v|]; [apply Forall_singleton; cbn [fst snd]; split; [by apply Hl|by apply H4]|by apply Forall_nil_2]].
    repeat (apply Forall_cons; split; [cbn [fst snd]; split; [by apply Hl|first [done|by apply Hl]]|]). by apply Forall_nil_2.
Qed.
Print Assumptions C137_exchange.
Theorem C137_refresh : ∀ url token id secret scope, Forall scalar token → Forall scalar id → (∀ v, scope = Some v → Forall scalar v) →
  let q := refresh_request url token id secret scope in
  rq_url q = url ∧ form_fields (rq_body q) = Some (refresh_parameters token id scope) ∧ (rq_auth q = None ↔ secret = None).
Proof.
  intros url token id secret scope H1 H2 H4 q. split; [done|]. split; [|by destruct secret]. unfold q, refresh_request, token_request. cbn [rq_body].
  rewrite form_round.
  - f_equal. by destruct scope.
  - done.
  - assert (∀ s, forallb (λ c, c <? 128) (lit s) = true → Forall scalar (lit s)) as Hl.
    { intros s H. apply Forall_forall. intros c Hc. rewrite forallb_forall in H. apply elem_of_list_In in Hc. apply H in Hc. apply N.ltb_lt in Hc. unfold scalar. lia. }
    apply Forall_app. split; [|destruct scope as [v|]; [apply Forall_singleton; cbn [fst snd]; split; [by apply Hl|by apply H4]|by apply Forall_nil_2]].
    repeat (apply Forall_cons; split; [cbn [fst snd]; split; [by apply Hl|first [done|by apply Hl]]|]). by apply Forall_nil_2.
Qed.
Print Assumptions C137_refresh.
(** The credentials reach a server when the client's id has no colon. *)
Theorem C137_basic_partial : ∀ i s, Forall scalar i → Forall scalar s → 58 ∉ i → credentials (basic_auth i s) = Some (i, s).
Proof.
  intros i s Hi Hs Hn. unfold credentials. rewrite basic_split by done. cbn [both]. by rewrite !utf8_decode_encode.
Qed.
Print Assumptions C137_basic_partial.
(** False with a colon: the server sees another id and another secret. *)
Theorem C137_colon_refuted : ∀ a b s, Forall scalar a → Forall scalar b → Forall scalar s → 58 ∉ a →
  credentials (basic_auth (a ++ [58] ++ b) s) = Some (a, b ++ [58] ++ s) ∧
  basic_auth (a ++ [58] ++ b) s = basic_auth a (b ++ [58] ++ s).
Proof.
  intros a b s Ha Hb Hs Hn. assert (Forall scalar [58]) as Hc by by repeat constructor; vm_compute.
  assert (basic_auth (a ++ [58] ++ b) s = basic_auth a (b ++ [58] ++ s)) as E. { unfold basic_auth. rewrite !utf8_app. change (utf8 [58]) with [58]. by rewrite <- !app_assoc. }
  split; [|done]. rewrite E. apply C137_basic_partial; [done| |done]. by repeat (apply Forall_app; split).
Qed.
Print Assumptions C137_colon_refuted.
(** False for servers that follow RFC 6749, which form-decode both parts: a secret with "+" in it never arrives. *)
Theorem C137_encoding_refuted : ∀ i s i' s', Forall scalar i → Forall scalar s → 58 ∉ i → 43 ∈ s → oauth_credentials (basic_auth i s) = Some (i', s') → s' ≠ s.
Proof.
  intros i s i' s' Hi Hs Hn Hp. unfold oauth_credentials. rewrite basic_split by done. cbn [both]. destruct (form_value (utf8 i)); [|done]. destruct (form_value (utf8 s)) as [x|] eqn:E; [|done]. intros [= _ <-] ->.
  unfold form_value in E. destruct (form_bytes (utf8 s)) as [bs|] eqn:F; [|done]. assert (Forall (λ b, b < 256) bs) as Hb by (eapply form_bytes_range; [|exact F]; by apply utf8_bytes).
  apply utf8_decode_iff in E as [_ E]; [|done]. subst bs.
  destruct (decide (37 ∈ utf8 s)) as [Hin|Hin]; [pose proof (form_bytes_shorter _ _ F Hin); lia|]. pose proof (form_bytes_plain _ _ F Hin) as Hq.
  assert (43 ∈ utf8 s) as H43. { unfold utf8. apply SseProofs.elem_of_concat. exists (utf8_char 43). split; [by left|]. apply elem_of_list_fmap. by exists 43. }
  rewrite Hq in H43. apply elem_of_list_fmap in H43 as (y & Hy & _). destruct (N.eqb_spec y 43); [done|congruence].
Qed.
Print Assumptions C137_encoding_refuted.
(** Letters, digits and four more characters are sent as they are, a space as a plus; anything else is
    escaped byte by byte. *)
Theorem C137_plain : ∀ t, Forall (λ c, 48 <= c <= 57 ∨ 65 <= c <= 90 ∨ 97 <= c <= 122 ∨ c ∈ [42; 45; 46; 95]) t → form_text t = t.
Proof.
  intros t Ht. unfold form_text. rewrite utf8_ascii.
  - induction Ht as [|c t Hc _ IH]; [done|]. rewrite fmap_cons. cbn [concat]. rewrite IH. assert (form_byte c = [c]) as ->; [|done].
    unfold form_byte. assert ((c =? 32) = false) as ->.
    { apply N.eqb_neq. intros ->. destruct Hc as [|[|[|Hc]]]; [lia..|]. revert Hc. by apply (bool_decide_unpack _); vm_compute. }
    assert (form_plain c = true) as ->; [|done]. unfold form_plain, is_alpha, is_digit. rewrite !orb_true_iff, !andb_true_iff, !N.leb_le.
    destruct Hc as [|[|[|Hc]]]; [lia..|]. right. apply existsb_exists. exists c. split; [by apply elem_of_list_In|apply N.eqb_refl].
  - eapply Forall_impl; [exact Ht|]. intros c Hc. destruct Hc as [|[|[|Hc]]]; [cbn; lia..|]. repeat (apply elem_of_cons in Hc as [->|Hc]; [done|]). by apply elem_of_nil in Hc.
Qed.
Print Assumptions C137_plain.
Example C137_example :
  let q := exchange_request (lit "https://a/token") (lit "c&d=1") (lit "my client") (Some (lit "s+t")) (lit "https://app/cb?x=1") (Some [233]) in
  rq_body q = lit "grant_type=authorization_code&code=c%26d%3D1&client_id=my+client&redirect_uri=https%3A%2F%2Fapp%2Fcb%3Fx%3D1&code_verifier=%C3%A9" ∧
  (rq_auth q ≫= credentials) = Some (lit "my client", lit "s+t") ∧ (rq_auth q ≫= oauth_credentials) = Some (lit "my client", lit "s t").
Proof. by vm_compute. Qed.

(** ** C138: the result of a token request *)
Lemma token_ok : ty_ok t_token_response.
Proof. by vm_compute. Qed.
(** The token the server answered, with the fields of [t_token_response]; what the server answers may have
    more fields.  In particular every token of the SDK's own provider is understood. *)
Theorem C138_token : ∀ z reason why v, success z → storable v → is_of t_token_response v →
  exchange_reply (AReply z reason (Some (to_bytes v)) why) = inr v ∧ refresh_reply (AReply z reason (Some (to_bytes v)) why) = inr v.
Proof.
  intros z reason why v Hz%success_true Hs Hv. unfold exchange_reply, refresh_reply, token_reply. rewrite Hz. unfold json_body. cbn [mbind option_bind]. rewrite of_to_bytes by done. cbn [mbind option_bind].
  by rewrite (decode_is_of _ token_ok).
Qed.
Print Assumptions C138_token.
Theorem C138_own : ∀ reply z reason why v, reply = exchange_reply ∨ reply = refresh_reply → success z → storable v → is_of t_access_token v →
  ∃ l extra, v = JObj (l ++ extra) ∧ is_of t_token_response (JObj l) ∧ (∀ k, k ∈ extra.*1 → k ∉ [lit "access_token"; lit "token_type"; lit "expires_in"; lit "refresh_token"; lit "scope"]) ∧
  reply (AReply z reason (Some (to_bytes v)) why) = inr (JObj l).
Proof.
  intros reply z reason why v Hrep Hz%success_true Hs (l & extra & -> & Hl & Hn & Hk). exists l, extra. split; [done|].
  assert (layout is_of [req "access_token" TStr; req "token_type" TStr; opt "expires_in" t_u64; opt "refresh_token" TStr; opt "scope" TStr] l) as Hl'.
  { unfold req, opt in *. cbn [layout] in *. destruct Hl as (v1 & l1 & -> & H1 & v2 & l2 & -> & H2 & Hr). exists v1, ((lit "token_type", v2) :: l2). split; [done|]. split; [done|]. exists v2, l2. split; [done|]. split; [|done].
    destruct H2 as [(s & -> & _)|(k & w & -> & [])]. by exists s. }
  split; [exists l, []; by rewrite app_nil_r|]. split; [exact Hk|].
  assert (∃ s1 s2, reply = token_reply s1 s2) as (s1 & s2 & ->) by (destruct Hrep as [->| ->]; by eexists _, _).
  unfold token_reply. rewrite Hz. unfold json_body. cbn [mbind option_bind]. rewrite of_to_bytes by done. cbn [mbind option_bind].
  unfold t_token_response, struct. cbn [decode]. destruct (ty_ok_struct _ _ token_ok) as [Hnd Hok].
  rewrite (dec_fields_layout _ ltac:(apply Forall_forall; intros; apply decode_is_of) Hok Hnd l); [cbn [fmap option_fmap option_map rest_of]; by rewrite app_nil_r|exact Hl'|].
  intros n Hin. rewrite assoc_app. destruct (assoc n l) eqn:E; [done|]. apply assoc_not_in. intros Hx. by apply Hk in Hx.
Qed.
Print Assumptions C138_own.
(** Otherwise an error: of kind parse error when a successful reply is no token, of kind invalid request with
    the server's text when the server refuses, of kind internal error when there is no reply. *)
Theorem C138_errors : ∀ reply r, reply = exchange_reply ∨ reply = refresh_reply → (∃ v, reply r = inr v) ∨
  ∃ e, reply r = inl e ∧
  match r with
  | AFailed why => ∃ p, e = EProtocol (-32603) (p ++ why) None
  | AReply z _ body why => (success z → ∃ p, e = EProtocol (-32700) (p ++ why) None) ∧ (¬ success z → ∃ p, ∀ t, body = Some (utf8 t) → Forall scalar t → e = EProtocol (-32600) (p ++ t) None)
  end.
Proof.
  intros reply r Hrep. assert (∃ s1 s2, reply = token_reply s1 s2) as (s1 & s2 & ->) by (destruct Hrep as [->| ->]; by eexists _, _).
  destruct r as [why|z reason body why]; unfold token_reply; [right; eexists; split; [done|by eexists]|].
  destruct (success_status z) eqn:Ez.
  - destruct (json_body t_token_response body); [left; by eexists|]. right. eexists. split; [done|]. split; [by eexists|]. intros H%success_false. congruence.
  - right. eexists. split; [done|]. split; [intros H%success_true; congruence|]. intros _. eexists. intros t -> Ht. change (default [] (Some (utf8 t))) with (utf8 t). by rewrite lossy_utf8.
Qed.
Print Assumptions C138_errors.
Theorem C138_refused : ∀ z reason body why, ¬ success z → ∃ e1 e2, exchange_reply (AReply z reason body why) = inl e1 ∧ refresh_reply (AReply z reason body why) = inl e2.
Proof. intros z reason body why H%success_false. unfold exchange_reply, refresh_reply, token_reply. rewrite H. by eexists _, _. Qed.
Print Assumptions C138_refused.
(** Any lifetime of 64 bits is understood, and no other number. *)
Theorem C138_lifetime : ∀ a k z, is_Some (decode t_token_response (JObj [(lit "access_token", JStr a); (lit "token_type", JStr k); (lit "expires_in", JInt z)])) ↔ (0 <= z < 2 ^ 64)%Z.
Proof.
  intros a k z. unfold t_token_response. lazy beta iota zeta delta -[Z.leb Z.le Z.lt is_Some].
  repeat match goal with |- context [(?a <=? ?b)%Z] => destruct (Z.leb_spec a b) end; (split; intros H1; [|first [lia|by eexists]]); first [lia|by destruct H1].
Qed.
Print Assumptions C138_lifetime.
Definition a_token : json := JObj [(lit "access_token", JStr (lit "t")); (lit "token_type", JStr (lit "bearer")); (lit "expires_in", JInt 3600); (lit "x", JNull)].
Example C138_example : decode t_access_token a_token = Some a_token ∧ storable a_token ∧
  exchange_reply (AReply 200 [] (Some (to_bytes a_token)) []) = inr (JObj [(lit "access_token", JStr (lit "t")); (lit "token_type", JStr (lit "bearer")); (lit "expires_in", JInt 3600)]).
Proof. split; [by vm_compute|]. split; [apply storable_check; [by vm_compute|cbn; lia]|by vm_compute]. Qed.
