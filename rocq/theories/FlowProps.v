(** C239: the code flow of a client and a provider of this library. *)
From stdpp Require Import gmap strings list.
From Coq Require Import ZifyBool.
From Verif Require Import ListLib TextLib Utf8Lib JsonLib SerdeLib TypesModel WhiteSpec RpcModel OAuthModel OAuthSpec OAuthProofs OAuthProofs2 OAuthProps OidcModel OidcSpec OidcProofs OidcProps HttpClientProofs FlowModel FlowSpec.
Local Open Scope Z_scope.

(** ** A code stays until its exchange runs *)
Definition ran (s : provider) (code : text) : Prop := ∃ k q p, pv_calls s !! k = Some (CExchange q, p) ∧ q_code q = Some code ∧ p ≠ PExchange q code.
Lemma calls_kept s256 os o k c p : pv_calls (o_run s256 os) !! k = Some (c, p) → ∃ p', pv_calls (o_run s256 (os ++ [o])) !! k = Some (c, p').
Proof. intros H. rewrite run_snoc. destruct (step_calls s256 _ o _ _ _ H) as [E|(now & g1 & g2 & _ & _ & E)]; by eexists. Qed.
Lemma advance_codes s256 n now g1 g2 p m : let m' := (advance s256 n now g1 g2 p m).1 in
  match p with
  | PExchange _ _ => True
  | PCode code a => m_issued m' = <[code := a]> (m_issued m) ∧ m_codes m' = <[code := a]> (m_codes m)
  | _ => m_issued m' = m_issued m ∧ m_codes m' = m_codes m
  end.
Proof. destruct m as [co to re is bo pa ta]. destruct p; cbn [advance]; repeat case_match; done. Qed.
Lemma code_stays s256 os : fresh_gens os → ∀ code a, m_issued (pv_maps (o_run s256 os)) !! code = Some a → m_codes (pv_maps (o_run s256 os)) !! code = Some a ∨ ran (o_run s256 os) code.
Proof.
  induction os as [|o os IH] using rev_ind; intros Hf code a; [cbn; by rewrite lookup_empty|].
  apply fresh_snoc in Hf as (Hf & _). specialize (IH Hf). destruct (full_run s256 os Hf) as [W _]. rewrite run_snoc. destruct o as [c g1 g2 now|n now g1 g2]; cbn [o_step].
  - intros H. destruct (IH _ _ H) as [?|(k & q & p & H1 & H2 & H3)]; [by left|right]. exists k, q, p. cbn [pv_calls]. split; [by apply lookup_app_l_Some|done].
  - destruct (pv_calls (o_run s256 os) !! n) as [[c p]|] eqn:En; [|apply IH]. destruct (wants p) as [[l md]|]; [|apply IH]. destruct (available _ _ _ _); [|apply IH].
    specialize (W _ _ _ En). destruct (pv_maps (o_run s256 os)) as [co to re is bo pa ta] eqn:Em. cbn [m_issued m_codes] in IH.
    destruct (advance s256 n now g1 g2 p (MkMaps co to re is bo pa ta)) as [mp p'] eqn:Ea. cbn [pv_maps pv_calls].
    assert (∀ code, ran (o_run s256 os) code → p' ≠ PExchange (match c with CExchange q => q | _ => MkReq GCode None None None None None end) code → ran (MkProvider mp (<[n := (c, p')]> (pv_calls (o_run s256 os)))) code) as Hran.
    { intros code' (k & q & p0 & H1 & H2 & H3) Hp'. destruct (decide (k = n)) as [->|Hk].
      - rewrite En in H1. simplify_eq. exists n, q, p'. cbn [pv_calls]. split; [apply list_lookup_insert; by apply lookup_lt_Some in En|]. by split.
      - exists k, q, p0. cbn [pv_calls]. split; [by rewrite list_lookup_insert_ne|]. by split. }
    assert (∀ q code, p' ≠ PExchange q code) as Hp'.
    { intros q code'. destruct p; cbn [advance] in Ea; repeat case_match; by simplify_eq. }
    assert ((∃ q code', p = PExchange q code') ∨ ¬ ∃ q code', p = PExchange q code') as [(q & code' & ->)|Hn].
    { destruct p; try (right; intros (? & ? & Hx); discriminate Hx). left. by eexists _, _. }
    + cbn in W. destruct W as [-> Hq]. cbn [advance] in Ea. intros H. 
      assert (m_issued mp = is ∧ (code ≠ code' → m_codes mp !! code = co !! code)) as [E1 E2].
      { destruct (co !! code') eqn:Ec; [destruct (checks _ _ _ _)|]; injection Ea as <- <-; (split; [done|]); intros Hne; cbn [m_codes]; [by rewrite lookup_delete_ne..|done]. }
      rewrite E1 in H. destruct (decide (code = code')) as [->|Hne].
      * right. exists n, q, p'. cbn [pv_calls]. split; [apply list_lookup_insert; by apply lookup_lt_Some in En|]. by split.
      * destruct (IH _ _ H) as [H'|H']; [left; by rewrite E2|right; by apply Hran].
    + intros H. assert (m_issued mp !! code = Some a → is !! code = Some a ∧ m_codes mp !! code = co !! code ∨ m_codes mp !! code = Some a) as E.
      { intros Hi. pose proof (advance_codes s256 n now g1 g2 p (MkMaps co to re is bo pa ta)) as A. rewrite Ea in A. cbn [fst m_issued m_codes] in A.
        destruct p; try (apply proj1 in A as A1; apply proj2 in A as A2; rewrite A1 in Hi; rewrite A2; by left); [|exfalso; apply Hn; by eexists _, _].
        destruct A as [A1 A2]. rewrite A1 in Hi. rewrite A2. destruct (decide (code = code0)) as [->|Hne].
        - rewrite lookup_insert in Hi. rewrite lookup_insert. by right.
        - rewrite lookup_insert_ne in Hi by done. rewrite lookup_insert_ne by done. by left. }
      destruct (E H) as [[H1 H2]|H1]; [|by left]. destruct (IH _ _ H1) as [H'|H']; [left; by rewrite H2|right; by apply Hran].
Qed.
Lemma calls_prefix s256 os os' k c p : pv_calls (o_run s256 os) !! k = Some (c, p) → ∃ p', pv_calls (o_run s256 (os ++ os')) !! k = Some (c, p').
Proof.
  intros H. induction os' as [|o os' (p' & IH)] using rev_ind; [rewrite app_nil_r; by eexists|]. rewrite app_assoc. by eapply calls_kept.
Qed.
Lemma checks_none s256 q a t : t <= a_exp a → q_client q = Some (a_client a) → q_redirect q = Some (a_redirect a) → pkce_ok s256 (a_challenge a) (a_method a) (q_verifier q) → checks s256 q a t = None.
Proof.
  intros H1 H2 H3 H4. unfold checks. replace (a_exp a <? t) with false by lia. rewrite H2, decide_True by done. rewrite H3, decide_True by done.
  unfold pkce_ok in H4. destruct (a_challenge a) as [ch|]; [|done]. destruct H4 as (v & -> & H4). unfold verify_pkce. destruct H4 as [[[->| ->] ->]|[-> H4]]; cbn [default id from_option].
  - rewrite decide_True by done. by rewrite bool_decide_true.
  - rewrite decide_True by done. by rewrite bool_decide_true.
  - rewrite decide_False by (intros E; vm_compute in E; discriminate E). rewrite decide_True by done. by rewrite bool_decide_true.
Qed.
(** Following the exchange. *)
Definition good (cl u : text) (scopes : list text) (q : treq) (code : text) (p : pc) : Prop :=
  p = PExchange q code ∨ (∃ b i tok rt, (p = PCreate b i tok rt ∨ p = PCreate2 b i tok rt) ∧ i_client i = cl ∧ i_user i = u ∧ i_scopes i = scopes) ∨ ∃ tok rt, p = PDone (RToken tok rt scopes).
Lemma exchange_follow s256 os os' k cl u redirect scopes ch me code q h1 h2 at0 :
  let c := CCode cl u redirect scopes ch me in let n := length (pv_calls (o_run s256 os)) in let all := os ++ OStart (CExchange q) h1 h2 at0 :: os' in
  fresh_gens all → returned (o_run s256 os) k c (RCode code) → only_exchange (o_run s256 all) n code → in_time os os' c n code →
  q_grant q = GCode → q_code q = Some code → q_client q = Some cl → q_redirect q = Some redirect → pkce_ok s256 ch me (q_verifier q) →
  ∃ p, pv_calls (o_run s256 all) !! n = Some (CExchange q, p) ∧ good cl u scopes q code p.
Proof.
  intros c n all Hf Hc Ho Ht Hg Hq Hcl Hr Hp. unfold all in *. clear all. induction os' as [|o os' IH] using rev_ind.
  { rewrite run_snoc. cbn [o_step pv_calls]. unfold n. rewrite lookup_app_r by lia. rewrite Nat.sub_diag. eexists. split; [reflexivity|]. left. cbn [begin]. by rewrite Hg, Hq. }
  assert (os ++ OStart (CExchange q) h1 h2 at0 :: os' ++ [o] = (os ++ OStart (CExchange q) h1 h2 at0 :: os') ++ [o]) as E by (by rewrite <- app_assoc). rewrite E in *. set (os1 := os ++ OStart (CExchange q) h1 h2 at0 :: os') in *.
  pose proof (fresh_app _ _ Hf) as Hf'. destruct IH as (p & H1 & H2); [done| |intros t g1 g2 g t0 Hin; apply (Ht t g1 g2 g t0), elem_of_app; by left|].
  { intros j q' p' Hj Hq'. destruct (calls_kept s256 os1 o _ _ _ Hj) as [p'' Hj']. by eapply Ho. }
  rewrite run_snoc. destruct (step_calls s256 (o_run s256 os1) o n _ _ H1) as [H|(now & g1 & g2 & -> & Hm & H)]; [by exists p|]. eexists. split; [exact H|]. clear H Hm.
  destruct (pv_maps (o_run s256 os1)) as [co to re is bo pa ta] eqn:Em. destruct H2 as [->|[(b & i & tok & rt & [->| ->] & E1 & E2 & E3)|(tok & rt & ->)]]; cbn [advance snd].
  - destruct (calls_prefix s256 os (OStart (CExchange q) h1 h2 at0 :: os') k _ _ Hc) as [pc Hk]. fold os1 in Hk.
    assert (m_issued (pv_maps (o_run s256 os1)) !! code = Some (MkCode cl u redirect scopes ch me (a_exp (default (MkCode [] [] [] [] None None 0) (m_issued (pv_maps (o_run s256 os1)) !! code)))) ∧
      ∃ g t0, OStart c code g t0 ∈ os ∧ a_exp (default (MkCode [] [] [] [] None None 0) (m_issued (pv_maps (o_run s256 os1)) !! code)) = t0 + 600) as [Hi (g & t0 & Hin & He)].
    { pose proof (fresh_app os _ Hf') as Hf0. destruct (full_run s256 os Hf0) as [W (M1 & _)]. specialize (W _ _ _ Hc). cbn in W. destruct W as (a & Ea & Hi). unfold c in Ea. injection Ea as -> -> -> -> -> ->.
      destruct (M1 _ _ Hi) as (g & t0 & Hin & He). pose proof (run_grows s256 os _ Hf') as [G _ _ _ _ _]. pose proof (lookup_weaken _ _ _ _ Hi G) as Hi'. fold os1 in Hi'. rewrite Hi'. cbn [default id from_option]. split; [by destruct a|]. by exists g, t0. }
    set (x := a_exp _) in *. destruct (code_stays s256 os1 Hf' _ _ Hi) as [Hco|(j & q' & p' & Hj & Hq' & Hne)].
    + rewrite Em in Hco. cbn [m_codes] in Hco. rewrite Hco. rewrite checks_none; [|cbn [a_exp]; rewrite He; eapply Ht; [|exact Hin]; apply elem_of_app; right; by apply elem_of_list_singleton|done..].
      right. left. eexists _, _, _, _. split; [by left|]. done.
    + exfalso. destruct (calls_kept s256 os1 (ORun n now g1 g2) _ _ _ Hj) as [p'' Hj']. assert (j = n) as -> by by eapply Ho. rewrite H1 in Hj. by simplify_eq.
  - right. left. exists b, i, tok, rt. split; [by right|]. done.
  - right. right. exists tok, rt. by rewrite <-E3.
  - right. right. by exists tok, rt.
Qed.

(** ** C239 *)
(** Whatever else the provider is asked meanwhile: the client exchanges a code it was given, with the verifier that fits, the only
    one to try, within ten minutes; then the endpoint reads what the client meant, and the exchange succeeds whenever it
    returns, with the scopes that were granted. *)
Theorem C239_exchange : ∀ s256 os os' k cl u redirect scopes ch me code url secret verifier h1 h2 at0,
  Forall scalar code → Forall scalar cl → Forall scalar redirect → (∀ v, verifier = Some v → Forall scalar v) →
  ∃ r q, received (exchange_request url code cl secret redirect verifier) = Some r ∧ provider_call r = Some (CExchange q) ∧
  let c := CCode cl u redirect scopes ch me in let n := length (pv_calls (o_run s256 os)) in let all := os ++ OStart (CExchange q) h1 h2 at0 :: os' in
  (fresh_gens all → returned (o_run s256 os) k c (RCode code) → only_exchange (o_run s256 all) n code → in_time os os' c n code → pkce_ok s256 ch me verifier →
   ∀ x, returned (o_run s256 all) n (CExchange q) x → ∃ tok rt, x = RToken tok rt scopes).
Proof.
  intros s256 os os' k cl u redirect scopes ch me code url secret verifier h1 h2 at0 H1 H2 H3 H4.
  destruct (C137_exchange url code cl secret redirect verifier H1 H2 H3 H4) as (_ & Hb & _). unfold received. rewrite Hb.
  assert (token_req_of (code_parameters code cl redirect verifier) = Some (MkTokenReq (MkReq GCode (Some code) (Some redirect) (Some cl) None verifier) None None)) as -> by (destruct verifier; reflexivity).
  eexists _, _. split; [reflexivity|]. split; [reflexivity|]. cbv zeta. intros Hf Hc Ho Ht Hp x Hx.
  destruct (exchange_follow s256 os os' k cl u redirect scopes ch me code (MkReq GCode (Some code) (Some redirect) (Some cl) None verifier) h1 h2 at0) as (p & E & G); try done.
  unfold returned in Hx. cbn [tr_core] in Hx. rewrite E in Hx. injection Hx as Hx. subst p. destruct G as [G|[(b & i & tok & rt & [G|G] & _)|(tok & rt & G)]]; try discriminate G. injection G as G. by exists tok, rt.
Qed.
Print Assumptions C239_exchange.
(** The client reads the answer as it was given: the tokens, the lifetime and the scopes, which are the words of the text it gets. *)
Theorem C239_answer : ∀ tok rt scopes z reason why, Forall scalar tok → Forall scalar rt → Forall (Forall scalar) scopes → success z →
  let v := access_token_json tok rt scopes in
  exchange_reply (AReply z reason (Some (to_bytes v)) why) = inr v ∧ refresh_reply (AReply z reason (Some (to_bytes v)) why) = inr v ∧
  (scope_words scopes → ∃ t, v = JObj [(lit "access_token", JStr tok); (lit "token_type", JStr (lit "bearer")); (lit "expires_in", JInt 3600); (lit "refresh_token", JStr rt); (lit "scope", JStr t)] ∧
     ∀ l, worded t l ↔ l = scopes).
Proof.
  intros tok rt scopes z reason why H1 H2 H3 Hz v.
  assert (Forall scalar (join_with [32%N] scopes)) as Hj.
  { induction H3 as [|s scopes Hs H3 IH]; [constructor|]. destruct scopes as [|s' scopes]; [done|]. cbn [join_with] in *. apply Forall_app. split; [done|]. apply Forall_app. split; [|done]. by repeat constructor; vm_compute. }
  destruct (C138_token z reason why v Hz) as [E1 E2]; [| |split; [done|]; split; [done|]].
  - assert (∀ s, forallb (λ c, c <? 128)%N (lit s) = true → Forall scalar (lit s)) as Hl by (intros s; apply ascii_scalars).
    unfold v, access_token_json. split; [|split; [|split]].
    + rewrite wf_obj. repeat constructor; cbn [snd wf]; try done; unfold token_expiration; lia.
    + rewrite keys_ok_obj. split; [by apply (bool_decide_unpack _); vm_compute|]. repeat constructor.
    + rewrite scalars_obj. repeat (apply Forall_cons; split; [split; [by apply Hl|cbn [snd]; first [exact H1|exact H2|exact Hj|by apply Hl|done]]|]). by apply Forall_nil_2.
    + cbn. lia.
  - eexists _, []. split; [rewrite app_nil_r; reflexivity|]. split; [|done]. cbn [layout req opt].
    eexists _, _. split; [done|]. split; [by eexists|]. eexists _, _. split; [done|]. split; [by eexists|].
    right. eexists _, _. split; [done|]. split; [done|]. split; [eexists; split; [reflexivity|]; unfold token_expiration; lia|].
    right. eexists _, _. split; [done|]. split; [done|]. split; [by eexists|]. right. eexists _, _. split; [done|]. split; [done|]. by split; [eexists|].
  - intros Hw. eexists. split; [reflexivity|]. assert (worded (join_with [32%N] scopes) scopes) as Hs.
    { clear -Hw. induction Hw as [|w scopes [Hn Hb] Hw IH]; [apply worded_none; by intros ? ?%elem_of_nil|]. destruct scopes as [|w' scopes].
      - cbn [join_with]. rewrite <-(app_nil_r w) at 1. apply (worded_one [] w [] []); try done; try (apply worded_none); by intros ? ?%elem_of_nil.
      - change (join_with [32%N] (w :: w' :: scopes)) with ([] ++ w ++ (32%N :: join_with [32%N] (w' :: scopes))). apply worded_one; try done; try (by intros ? ?%elem_of_nil).
        + intros c Hc. cbn in Hc. injection Hc as <-. by apply (bool_decide_unpack _); vm_compute.
        + apply worded_pad; [by apply (bool_decide_unpack _); vm_compute|done]. }
    intros l. split; [|by intros ->]. intros Hl. apply worded_words in Hl. apply worded_words in Hs. congruence.
Qed.
Print Assumptions C239_answer.
(** A refresh reaches the provider with the refresh token the client has. *)
Theorem C239_refresh : ∀ url rt cl secret scope, Forall scalar rt → Forall scalar cl → (∀ s, scope = Some s → Forall scalar s) →
  ∃ r, received (refresh_request url rt cl secret scope) = Some r ∧ provider_call r = Some (CRefresh rt) ∧ tr_scope r = scope.
Proof.
  intros url rt cl secret scope H1 H2 H3. destruct (C137_refresh url rt cl secret scope H1 H2 H3) as (_ & Hb & _). unfold received. rewrite Hb.
  assert (token_req_of (refresh_parameters rt cl scope) = Some (MkTokenReq (MkReq GRefresh None None (Some cl) None None) (Some rt) scope)) as -> by (destruct scope; reflexivity).
  eexists. split; [reflexivity|]. by split.
Qed.
Print Assumptions C239_refresh.
(** A request of any other grant reaches no method of the provider. *)
Theorem C239_others : ∀ fs r, token_req_of fs = Some r → is_Some (provider_call r) → assoc (lit "grant_type") fs = Some (lit "authorization_code") ∨ assoc (lit "grant_type") fs = Some (lit "refresh_token").
Proof.
  intros fs r H Hp. unfold token_req_of in H. destruct (bool_decide _); [|discriminate H]. destruct (assoc (lit "grant_type") fs) as [t|]; [|discriminate H]. cbn [mbind option_bind] in H.
  destruct (grant_of t) as [g|] eqn:Eg; [|discriminate H]. apply (inj Some) in H. subst r. unfold provider_call in Hp. cbn [tr_core q_grant] in Hp. destruct g; [left|right|by destruct Hp..]; f_equal; unfold grant_of in Eg; repeat case_decide; try discriminate Eg; assumption.
Qed.
Print Assumptions C239_others.
(** False that a client can ask for less: whatever scope it names in a refresh, a refresh that succeeds gives the scopes of the
    token before. *)
Theorem C239_narrow_refuted : ∀ s256 os n1 n2 c old rt sc url cl secret scope r p tok rt' sc', fresh_gens os → returned (o_run s256 os) n1 c (RToken old rt sc) →
  Forall scalar rt → Forall scalar cl → Forall scalar scope → received (refresh_request url rt cl secret (Some scope)) = Some r → provider_call r = Some p →
  returned (o_run s256 os) n2 p (RToken tok rt' sc') → sc' = sc.
Proof.
  intros s256 os n1 n2 c old rt sc url cl secret scope r p tok rt' sc' Hf H1 S1 S2 S3 Hr Hp H2.
  destruct (C239_refresh url rt cl secret (Some scope) S1 S2) as (r' & E1 & E2 & _); [by intros s [= <-]|]. rewrite Hr in E1. injection E1 as <-. rewrite Hp in E2. injection E2 as ->.
  by destruct (C52_refresh_partial s256 os n1 n2 c old rt sc tok rt' sc' Hf H1 H2).
Qed.
Print Assumptions C239_narrow_refuted.
(** False that the provider sees the client's secret: the client puts it into a header only, so no request that is read from its form
    has one. *)
Theorem C239_secret_refuted : ∀ url code cl secret redirect verifier r, Forall scalar code → Forall scalar cl → Forall scalar redirect → (∀ v, verifier = Some v → Forall scalar v) →
  received (exchange_request url code cl (Some secret) redirect verifier) = Some r → q_secret (tr_core r) = None.
Proof.
  intros url code cl secret redirect verifier r H1 H2 H3 H4. destruct (C137_exchange url code cl (Some secret) redirect verifier H1 H2 H3 H4) as (_ & Hb & _). unfold received. rewrite Hb.
  assert (token_req_of (code_parameters code cl redirect verifier) = Some (MkTokenReq (MkReq GCode (Some code) (Some redirect) (Some cl) None verifier) None None)) as -> by (destruct verifier; reflexivity).
  intros E. injection E as <-. reflexivity.
Qed.
Print Assumptions C239_secret_refuted.
Example C239_example :
  let os := [ex_start ex_code "c1" "x1" 100; ex_go 0 100 "x2" "x3"] in
  let os' := [ex_go 1 200 "t1" "r1"; ex_start (CRevoke (lit "zz")) "y1" "y2" 200; ex_go 1 201 "x8" "x9"; ex_go 2 201 "y3" "y4"; ex_go 1 202 "x10" "x11"] in
  let all := os ++ ex_start (CExchange ex_req) "x4" "x5" 200 :: os' in
  received (exchange_request (lit "https://as/token") (lit "c1") (lit "app") (Some (lit "s")) (lit "cb") (Some (lit "v"))) = Some (MkTokenReq ex_req None None) ∧
  fresh_gens all ∧ returned (o_run ex_hash os) 0 ex_code (RCode (lit "c1")) ∧ pkce_ok ex_hash (Some (lit "vv")) (Some (lit "S256")) (Some (lit "v")) ∧
  returned (o_run ex_hash all) 1 (CExchange ex_req) (RToken (lit "t1") (lit "r1") [lit "read"]) ∧ only_exchange (o_run ex_hash all) 1 (lit "c1") ∧ in_time os os' ex_code 1 (lit "c1").
Proof.
  cbv zeta. split; [by vm_compute|]. split; [unfold fresh_gens; by apply (bool_decide_unpack _); vm_compute|]. split; [by vm_compute|]. split; [eexists; split; [reflexivity|]; right; split; by vm_compute|]. split; [by vm_compute|]. split.
  - intros [|[|[|k]]] q p H _; vm_compute in H; [discriminate H|done|discriminate H|]. destruct k; discriminate H.
  - intros t g1 g2 g t0 H1 H2. assert (t0 = 100) as ->.
    { rewrite !elem_of_cons, elem_of_nil in H2. destruct H2 as [H2|[H2|[]]]; [by injection H2|discriminate H2]. }
    rewrite !elem_of_cons, elem_of_nil in H1. destruct H1 as [H1|[H1|[H1|[H1|[H1|[]]]]]]; try discriminate H1; injection H1; lia.
Qed.
