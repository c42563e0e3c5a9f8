(** C208: authentication in front of the library's own OAuth provider. *)
From stdpp Require Import gmap strings list.
From Verif Require Import TextLib SerdeLib OAuthModel OAuthSpec OAuthProofs OAuthProps AuthModel AuthSpec AuthProofs AccessSpec AccessProofs.
Local Open Scope Z_scope.

(** Whatever a validated token says goes back to a request for a code or a token for exactly that
    client, user and scopes, through any number of exchanges and refreshes and any interleaving. *)
Theorem C208_origin : ∀ s256 os n t i,
  returned (o_run s256 os) n (CValidate t) (RInfo i) → authorised os (i_client i) (i_user i) (i_scopes i).
Proof. exact info_origin. Qed.
Print Assumptions C208_origin.

(** Access through a tree of middlewares that takes tokens only: the request carries a bearer token,
    the provider validated it, and the context is what was once authorised. *)
Theorem C208_granted : ∀ s256 os o m a x,
  backed s256 os 0 o → tokens_only m → authenticate o m a = inl x →
  ∃ u t, a = Some u ∧ u_scheme u = SBearer ∧ u_token u = Some t ∧
    authorised os (x_client x) (x_user x) (x_scopes x) ∧
    ∃ n i, returned (o_run s256 os) n (CValidate t) (RInfo i) ∧ x = MkContext (i_client i) (i_user i) (i_scopes i).
Proof.
  intros s256 os o m a x Hb Ht H. destruct (tokens_tree o m a x Ht H) as (u & t & i & -> & H1 & H2 & H3 & ->).
  destruct (Hb _ _ H3) as (n & _ & Hr). exists u, t. split; [done|]. split; [done|]. split; [done|]. cbn [x_client x_user x_scopes].
  split; [exact (info_origin _ _ _ _ _ Hr)|]. by exists n, i.
Qed.
Print Assumptions C208_granted.

(** Revocation: [t] was issued, then revoke_token([t]) was called and has returned.  No request with [t]
    whose validation starts after that gets through, whatever happens in between and since. *)
Theorem C208_revoked : ∀ s256 os os1 os2 k c t rt sc g1 g2 at0 r1 o m u x,
  let s1 := os ++ OStart (CRevoke t) g1 g2 at0 :: os1 in
  fresh_gens (s1 ++ os2) → returned (o_run s256 os) k c (RToken t rt sc) →
  returned (o_run s256 s1) (calls_of s256 os) (CRevoke t) r1 →
  backed s256 (s1 ++ os2) (calls_of s256 s1) o → tokens_only m → u_token u = Some t →
  authenticate o m (Some u) ≠ inl x.
Proof.
  intros s256 os os1 os2 k c t rt sc g1 g2 at0 r1 o m u x s1 Hf Hk Hr1 Hb Ht Hu H.
  destruct (tokens_tree o m _ x Ht H) as (u' & t' & i & [= <-] & _ & Ht' & Hv & _). rewrite Hu in Ht'. injection Ht' as <-.
  destruct (Hb _ _ Hv) as (n & Hn & Hr). destruct (started_after s256 s1 os2 n _ _ Hn Hr) as (b1 & h1 & h2 & at1 & b2 & -> & Hn').
  pose proof (returned_kept s256 s1 b1 _ _ _ Hr1) as Hr2. unfold s1 in Hr2. rewrite <- app_assoc in Hr2. cbn [app] in Hr2.
  destruct (C48_revoked s256 os (os1 ++ b1) b2 k c t rt sc g1 g2 at0 r1 h1 h2 at1 (RInfo i) Hk Hr2) as [W _].
  assert (E : s1 ++ b1 ++ OStart (CValidate t) h1 h2 at1 :: b2 = (os ++ OStart (CRevoke t) g1 g2 at0 :: os1 ++ b1) ++ OStart (CValidate t) h1 h2 at1 :: b2).
  { unfold s1. rewrite <- !app_assoc. cbn [app]. by rewrite <- !app_assoc. }
  assert (E2 : s1 ++ b1 = os ++ OStart (CRevoke t) g1 g2 at0 :: os1 ++ b1) by (unfold s1; by rewrite <- app_assoc).
  rewrite E2 in Hn'. unfold calls_of in Hn'. destruct (W _ eq_refl) as [e He]; [by rewrite <- E| |done].
  rewrite Hn', <- E. exact Hr.
Qed.
Print Assumptions C208_revoked.

(** Expiry: [t] was issued by [T].  No request with [t] whose validation runs more than an hour later
    gets through. *)
Theorem C208_expired : ∀ s256 os os' k c t rt sc T o m u x,
  fresh_gens (os ++ os') → returned (o_run s256 os) k c (RToken t rt sc) → (∀ p, p ∈ os → clock p <= T) →
  (∀ p, p ∈ os' → T + 3600 < clock p) →
  backed s256 (os ++ os') (calls_of s256 os) o → tokens_only m → u_token u = Some t →
  authenticate o m (Some u) ≠ inl x.
Proof.
  intros s256 os os' k c t rt sc T o m u x Hf Hk HT HT' Hb Ht Hu H.
  destruct (tokens_tree o m _ x Ht H) as (u' & t' & i & [= <-] & _ & Ht' & Hv & _). rewrite Hu in Ht'. injection Ht' as <-.
  destruct (Hb _ _ Hv) as (n & Hn & Hr). destruct (expired_any s256 os os' k c t rt sc T n i Hf Hk HT Hn Hr) as (now & g1 & g2 & Hin & Hle).
  specialize (HT' _ Hin). cbn in HT'. lia.
Qed.
Print Assumptions C208_expired.

(** A token tree with a scope requirement over the history of C47's example: granted after the code
    was exchanged, refused once the token is revoked. *)
Definition ex_tree : middleware := MScope (MComposite [MBearer true] true) [lit "read"] true.
Definition ex_before : list oop := ex_granted ++ [ex_start (CValidate (lit "t1")) "z1" "z2" 350; ex_go 3 350 "z3" "z4"].
Definition ex_valid : oracle := MkOracle (λ t, if decide (t = lit "t1") then Some ex_info else None) (λ _, None).
Definition ex_revoked : list oop := ex_granted ++ [ex_start (CRevoke (lit "t1")) "y1" "y2" 400; ex_go 3 400 "y3" "y4"].
Definition ex_after : oracle := MkOracle (λ _, None) (λ _, None).
Example C208_example :
  tokens_only ex_tree ∧ backed ex_hash ex_before 0 ex_valid ∧
  authenticate ex_valid ex_tree (Some (auth_bearer (lit "t1"))) = inl (MkContext (lit "app") (lit "ann") [lit "read"]) ∧
  fresh_gens (ex_revoked ++ []) ∧ returned (o_run ex_hash ex_granted) 1 (CExchange ex_req) (RToken (lit "t1") (lit "r1") [lit "read"]) ∧
  returned (o_run ex_hash ex_revoked) (calls_of ex_hash ex_granted) (CRevoke (lit "t1")) ROk ∧
  backed ex_hash (ex_revoked ++ []) (calls_of ex_hash ex_revoked) ex_after ∧
  authenticate ex_after ex_tree (Some (auth_bearer (lit "t1"))) = inr (DRequired "Invalid token").
Proof.
  split.
  { unfold tokens_only. split; [|split].
    - intros (f & r & H). cbn in H. rewrite !elem_of_cons in H. destruct H as [?|[?|[?|H]]]; [done..|by apply elem_of_nil in H].
    - intros H. cbn in H. rewrite !elem_of_cons in H. destruct H as [?|[?|[?|H]]]; [done..|by apply elem_of_nil in H].
    - intros [H|[l H]]; cbn in H; rewrite !elem_of_cons in H; destruct H as [?|[?|[?|H]]]; try done; by apply elem_of_nil in H. }
  split.
  { intros t i H. exists 3%nat. split; [lia|]. unfold ex_valid in H. cbn [or_validate] in H. destruct (decide (t = lit "t1")) as [->|]; [|done]. injection H as <-. by vm_compute. }
  split; [by vm_compute|]. split; [unfold fresh_gens; apply (bool_decide_unpack _); by vm_compute|].
  split; [by vm_compute|]. split; [by vm_compute|]. split; [by intros t i H|by vm_compute].
Qed.
