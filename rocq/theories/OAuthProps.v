(** The properties of the OAuth provider. *)
From stdpp Require Import gmap strings list.
From Verif Require Import ListLib TextLib SerdeLib WhiteSpec OAuthModel OAuthSpec OAuthProofs OAuthProofs2.
Local Open Scope Z_scope.

(** A concrete history: a code is created, exchanged, its token validated, refreshed, revoked. *)
Definition ex_hash (v : text) : text := v ++ v.
Definition ex_code : call := CCode (lit "app") (lit "ann") (lit "cb") [lit "read"] (Some (lit "vv")) (Some (lit "S256")).
Definition ex_req : treq := MkReq GCode (Some (lit "c1")) (Some (lit "cb")) (Some (lit "app")) None (Some (lit "v")).
Definition ex_start (c : call) (a b : string) (t : Z) : oop := OStart c (lit a) (lit b) t.
Definition ex_go (n : nat) (t : Z) (a b : string) : oop := ORun n t (lit a) (lit b).
Definition ex_granted : list oop :=
  [ex_start ex_code "c1" "x1" 100; ex_go 0 100 "x2" "x3"; ex_start (CExchange ex_req) "x4" "x5" 200; ex_start (CExchange ex_req) "x6" "x7" 200;
   ex_go 1 200 "t1" "r1"; ex_go 1 200 "x8" "x9"; ex_go 1 200 "x10" "x11"; ex_go 2 300 "x12" "x13"].
Definition ex_info : tinfo := MkInfo (lit "app") (lit "ann") [lit "read"] 3800.
Local Ltac lits := apply (bool_decide_unpack _); by vm_compute.

(** ** C47: an authorization code is usable at most once *)
Theorem C47_once : ∀ s256 os n1 n2 q1 q2 code t1 r1 s1 t2 r2 s2, fresh_gens os →
  q_code q1 = Some code → q_code q2 = Some code →
  returned (o_run s256 os) n1 (CExchange q1) (RToken t1 r1 s1) → returned (o_run s256 os) n2 (CExchange q2) (RToken t2 r2 s2) → n1 = n2.
Proof.
  intros s256 os n1 n2 q1 q2 code t1 r1 s1 t2 r2 s2 Hf E1 E2 H1 H2. destruct (full_run s256 os Hf) as [W (_ & _ & _ & _ & Hn & _)].
  specialize (W _ _ _ H1) as W1. specialize (W _ _ _ H2) as W2. cbn in W1, W2. destruct W1 as (i1 & (c1 & a1 & w1 & G1 & _ & K1 & _) & _), W2 as (i2 & (c2 & a2 & w2 & G2 & _ & K2 & _) & _).
  simplify_eq. by destruct (taken_unique _ _ _ _ _ _ Hn K1 K2).
Qed.
Print Assumptions C47_once.
(** It was issued by a create_authorization_code call, at most ten minutes before the exchange ran, for
    this client id, redirect uri and PKCE verifier. *)
Theorem C47_conditions : ∀ s256 os n q tok rt sc, fresh_gens os → returned (o_run s256 os) n (CExchange q) (RToken tok rt sc) →
  ∃ code client user redirect scopes challenge method g2 t0 t h1 h2, q_code q = Some code ∧ OStart (CCode client user redirect scopes challenge method) code g2 t0 ∈ os ∧
    ORun n t h1 h2 ∈ os ∧ t <= t0 + 600 ∧ q_client q = Some client ∧ q_redirect q = Some redirect ∧ pkce_ok s256 challenge method (q_verifier q).
Proof.
  intros s256 os n q tok rt sc Hf H. destruct (full_run s256 os Hf) as [W (M1 & _ & _ & _ & _ & M6)]. specialize (W _ _ _ H). cbn in W. destruct W as (i & (code & a & t & G1 & G2 & G3 & G4 & G5) & _).
  destruct (M1 _ _ G2) as (g2 & t0 & Hs & He). destruct (M6 _ _ _ G3) as (_ & _ & h1 & h2 & Hr). apply checks_spec in G4 as (C1 & C2 & C3 & C4).
  exists code, (a_client a), (a_user a), (a_redirect a), (a_scopes a), (a_challenge a), (a_method a), g2, t0, t, h1, h2. rewrite He in C1. done.
Qed.
Print Assumptions C47_conditions.
Example C47_example : fresh_gens ex_granted ∧ returned (o_run ex_hash ex_granted) 1 (CExchange ex_req) (RToken (lit "t1") (lit "r1") [lit "read"]) ∧
  returned (o_run ex_hash ex_granted) 2 (CExchange ex_req) (RErr "Invalid code").
Proof. split; [unfold fresh_gens; lits|]. split; by vm_compute. Qed.

(** ** C48: a revoked or expired token never validates *)
(** revoke_token(t) was called after t was issued, and returned; a validate_token(t), and a
    refresh_token with the refresh token issued with t, called after that, fail whenever they return. *)
Theorem C48_revoked : ∀ s256 os os1 os2 k c t rt sc g1 g2 at0 r1 h1 h2 at1 r,
  let s1 := os ++ OStart (CRevoke t) g1 g2 at0 :: os1 in
  returned (o_run s256 os) k c (RToken t rt sc) → returned (o_run s256 s1) (length (pv_calls (o_run s256 os))) (CRevoke t) r1 →
  (∀ s2, s2 = s1 ++ OStart (CValidate t) h1 h2 at1 :: os2 → fresh_gens s2 → returned (o_run s256 s2) (length (pv_calls (o_run s256 s1))) (CValidate t) r → ∃ e, r = RErr e) ∧
  (∀ s2, s2 = s1 ++ OStart (CRefresh rt) h1 h2 at1 :: os2 → fresh_gens s2 → returned (o_run s256 s2) (length (pv_calls (o_run s256 s1))) (CRefresh rt) r → ∃ e, r = RErr e).
Proof.
  intros s256 os os1 os2 k c t rt sc g1 g2 at0 r1 h1 h2 at1 r s1 Hk Hr1.
  assert (∀ s2, fresh_gens (s1 ++ s2) → m_paired (pv_maps (o_run s256 s1)) !! rt = Some t ∧ gone (pv_maps (o_run s256 s1)) t) as W.
  { intros s2 Hf. pose proof (fresh_app _ _ Hf) as Hf1. pose proof (fresh_app _ _ Hf1) as Hf0. destruct (token_born s256 os k c t rt sc Hf0 Hk) as [Hb Hp].
    split; [eapply lookup_weaken; [exact Hp|apply g_paired, run_grows, Hf1]|]. destruct (revoke_follow s256 os os1 t g1 g2 at0 Hf1 Hb) as (p & H1 & [->|H2]); [|done].
    unfold returned in Hr1. fold s1 in H1. rewrite Hr1 in H1. simplify_eq. }
  split; intros s2 -> Hf Hr; destruct (W _ Hf) as [Hp Hg].
  - destruct (validate_follow s256 s1 os2 t h1 h2 at1 Hf Hg) as (p & H1 & H2). unfold returned in Hr. rewrite Hr in H1. simplify_eq. destruct H2 as [H2|[e H2]]; simplify_eq. by eexists.
  - destruct (refresh_follow s256 s1 os2 rt t h1 h2 at1 Hf Hp Hg) as (p & H1 & H2). unfold returned in Hr. rewrite Hr in H1. simplify_eq. destruct H2 as [H2|[H2|[e H2]]]; simplify_eq. by eexists.
Qed.
Print Assumptions C48_revoked.
(** Likewise after revoke_token with the refresh token, for that refresh token. *)
Theorem C48_refresh_revoked : ∀ s256 os os1 os2 k c t rt sc g1 g2 at0 r1 h1 h2 at1 r,
  let s1 := os ++ OStart (CRevoke rt) g1 g2 at0 :: os1 in let s2 := s1 ++ OStart (CRefresh rt) h1 h2 at1 :: os2 in
  fresh_gens s2 → returned (o_run s256 os) k c (RToken t rt sc) → returned (o_run s256 s1) (length (pv_calls (o_run s256 os))) (CRevoke rt) r1 →
  returned (o_run s256 s2) (length (pv_calls (o_run s256 s1))) (CRefresh rt) r → ∃ e, r = RErr e.
Proof.
  intros s256 os os1 os2 k c t rt sc g1 g2 at0 r1 h1 h2 at1 r s1 s2 Hf Hk Hr1 Hr. pose proof (fresh_app _ _ Hf) as Hf1. pose proof (fresh_app _ _ Hf1) as Hf0. destruct (token_born s256 os k c t rt sc Hf0 Hk) as [_ Hp].
  destruct (revoke_refresh_follow s256 os os1 rt g1 g2 at0 Hf1) as (p & H1 & H2); [by eexists|]. unfold returned in Hr1. fold s1 in H1, H2. rewrite Hr1 in H1. simplify_eq. destruct H2 as [?|[?|H2]]; [done..|].
  destruct (used_follow s256 s1 os2 rt h1 h2 at1 Hf H2) as (p & H3 & H4). unfold returned in Hr. fold s2 in H3. rewrite Hr in H3. simplify_eq. destruct H4 as [H4|[e H4]]; simplify_eq. by eexists.
Qed.
Print Assumptions C48_refresh_revoked.
(** Expiry: all of the history in which the token was issued happened by [T]; a validate_token that
    succeeds ran at [T] + 3600 at the latest. *)
Theorem C48_expired : ∀ s256 os os' k c t rt sc T h1 h2 at0 i, let n := length (pv_calls (o_run s256 os)) in let s := os ++ OStart (CValidate t) h1 h2 at0 :: os' in
  fresh_gens s → returned (o_run s256 os) k c (RToken t rt sc) → (∀ o, o ∈ os → clock o <= T) → returned (o_run s256 s) n (CValidate t) (RInfo i) →
  ∃ now g1 g2, ORun n now g1 g2 ∈ os' ∧ now <= T + 3600.
Proof. intros s256 os os' k c t rt sc T h1 h2 at0 i. exact (expired s256 os os' k c t rt sc T h1 h2 at0 i). Qed.
Print Assumptions C48_expired.
Example C48_example :
  let s1 := ex_granted ++ [ex_start (CRevoke (lit "t1")) "y1" "y2" 400; ex_go 3 400 "y3" "y4"] in let v := ex_start (CValidate (lit "t1")) "y5" "y6" 500 in
  fresh_gens (s1 ++ [v; ex_go 4 500 "y7" "y8"]) ∧ length (pv_calls (o_run ex_hash ex_granted)) = 3%nat ∧ returned (o_run ex_hash s1) 3 (CRevoke (lit "t1")) ROk ∧
  returned (o_run ex_hash (s1 ++ [v; ex_go 4 500 "y7" "y8"])) 4 (CValidate (lit "t1")) (RErr "Invalid token") ∧
  returned (o_run ex_hash (ex_granted ++ [v; ex_go 3 3800 "y7" "y8"])) 3 (CValidate (lit "t1")) (RInfo ex_info) ∧
  returned (o_run ex_hash (ex_granted ++ [v; ex_go 3 3801 "y7" "y8"])) 3 (CValidate (lit "t1")) (RErr "Token expired") ∧ (∀ o, o ∈ ex_granted → clock o <= 300).
Proof. split; [unfold fresh_gens; lits|]. split; [by vm_compute|]. do 4 (split; [by vm_compute|]). apply Forall_forall. lits. Qed.

(** ** C49: a refresh token is usable at most once *)
(** A refresh that starts after one with the same token has succeeded fails. *)
Theorem C49_sequential_partial : ∀ s256 os os' k rt t1 r1 sc1 h1 h2 at0 r, let s := os ++ OStart (CRefresh rt) h1 h2 at0 :: os' in
  fresh_gens s → returned (o_run s256 os) k (CRefresh rt) (RToken t1 r1 sc1) → returned (o_run s256 s) (length (pv_calls (o_run s256 os))) (CRefresh rt) r → ∃ e, r = RErr e.
Proof.
  intros s256 os os' k rt t1 r1 sc1 h1 h2 at0 r s Hf Hk Hr. pose proof (fresh_app _ _ Hf) as Hf0. destruct (full_run s256 os Hf0) as [W _]. specialize (W _ _ _ Hk). cbn in W. destruct W as (i & (old & j & e & Hd & _) & _).
  destruct (used_follow s256 os os' rt h1 h2 at0 Hf Hd) as (p & H3 & H4). unfold returned in Hr. fold s in H3. rewrite Hr in H3. simplify_eq. destruct H4 as [H4|[e' H4]]; simplify_eq. by eexists.
Qed.
Print Assumptions C49_sequential_partial.
(** Refuted: at any moment where no call is running and a refresh token is good, two refreshes with it,
    interleaved, both succeed. *)
Definition two_refreshes (n : nat) (rt : text) (now : Z) (g : nat → text) : list oop :=
  [OStart (CRefresh rt) (g 0%nat) (g 1%nat) now; OStart (CRefresh rt) (g 2%nat) (g 3%nat) now;
   ORun n now (g 4%nat) (g 5%nat); ORun n now (g 6%nat) (g 7%nat); ORun (S n) now (g 8%nat) (g 9%nat); ORun (S n) now (g 10%nat) (g 11%nat);
   ORun n now (g 12%nat) (g 13%nat); ORun n now (g 14%nat) (g 15%nat); ORun n now (g 16%nat) (g 17%nat); ORun n now (g 18%nat) (g 19%nat);
   ORun (S n) now (g 20%nat) (g 21%nat); ORun (S n) now (g 22%nat) (g 23%nat); ORun (S n) now (g 24%nat) (g 25%nat); ORun (S n) now (g 26%nat) (g 27%nat)].
Theorem C49_race_refuted : ∀ s256 os rt t i now g, quiet (o_run s256 os) → m_refresh (pv_maps (o_run s256 os)) !! rt = Some t → m_tokens (pv_maps (o_run s256 os)) !! t = Some i →
  let n := length (pv_calls (o_run s256 os)) in let s := o_run s256 (os ++ two_refreshes n rt now g) in
  returned s n (CRefresh rt) (RToken (g 14%nat) (g 15%nat) (i_scopes i)) ∧ returned s (S n) (CRefresh rt) (RToken (g 22%nat) (g 23%nat) (i_scopes i)).
Proof.
  intros s256 os rt t i now g Hq Hr Ht n s. unfold s. rewrite run_app. unfold quiet in Hq. destruct (o_run s256 os) as [[co to re is bo pa ta] L]. cbn in Hq, Hr, Ht, n. unfold two_refreshes.
  match goal with |- returned ?X _ _ _ ∧ _ => assert (∃ m, X = MkProvider m (L ++ [(CRefresh rt, PDone (RToken (g 14%nat) (g 15%nat) (i_scopes i))); (CRefresh rt, PDone (RToken (g 22%nat) (g 23%nat) (i_scopes i)))])) as [m ->] end.
  { cbn [fold_left].
  assert (∀ x y : call * pc, (L ++ [x]) ++ [y] = L ++ [x; y]) as E by (intros; by rewrite <- app_assoc).
  unfold o_step at 14. unfold o_step at 13. cbn [pv_calls pv_maps]. rewrite E. unfold n.
  rewrite (step_first s256 L _ _ _ _ LRefresh MRead) by done. cbn [advance begin]. rewrite Hr.
  rewrite (step_first s256 L _ _ _ _ LTokens MRead) by done. cbn [advance]. rewrite Ht.
  rewrite (step_second s256 L _ _ _ _ LRefresh MRead) by done. cbn [advance begin]. rewrite Hr.
  rewrite (step_second s256 L _ _ _ _ LTokens MRead) by done. cbn [advance]. rewrite Ht.
  rewrite (step_first s256 L _ _ _ _ LTokens MWrite) by done. cbn [advance].
  rewrite (step_first s256 L _ _ _ _ LRefresh MWrite) by done. cbn [advance].
  rewrite (step_first s256 L _ _ _ _ LTokens MWrite) by done. cbn [advance].
  rewrite (step_first s256 L _ _ _ _ LRefresh MWrite) by done. cbn [advance].
  rewrite (step_second s256 L _ _ _ _ LTokens MWrite) by done. cbn [advance].
  rewrite (step_second s256 L _ _ _ _ LRefresh MWrite) by done. cbn [advance].
  rewrite (step_second s256 L _ _ _ _ LTokens MWrite) by done. cbn [advance].
  rewrite (step_second s256 L _ _ _ _ LRefresh MWrite) by done. cbn [advance].
  by eexists. }
  unfold returned. cbn [pv_calls]. unfold n. split; [by apply list_lookup_middle|]. rewrite lookup_app_r by lia. by replace (S (length L) - length L)%nat with 1%nat by lia.
Qed.
Print Assumptions C49_race_refuted.
Example C49_example :
  let s1 := ex_granted ++ [ex_start (CRefresh (lit "r1")) "y1" "y2" 400; ex_go 3 400 "y3" "y4"; ex_go 3 400 "y5" "y6"; ex_go 3 400 "y7" "y8"; ex_go 3 400 "t2" "r2"; ex_go 3 400 "z1" "z2"; ex_go 3 400 "z3" "z4"] in
  quiet (o_run ex_hash ex_granted) ∧ m_refresh (pv_maps (o_run ex_hash ex_granted)) !! lit "r1" = Some (lit "t1") ∧ m_tokens (pv_maps (o_run ex_hash ex_granted)) !! lit "t1" = Some ex_info ∧
  fresh_gens s1 ∧ returned (o_run ex_hash s1) 3 (CRefresh (lit "r1")) (RToken (lit "t2") (lit "r2") [lit "read"]) ∧
  returned (o_run ex_hash (s1 ++ [ex_start (CRefresh (lit "r1")) "z5" "z6" 500; ex_go 4 500 "z7" "z8"])) 4 (CRefresh (lit "r1")) (RErr "Invalid refresh_token").
Proof.
  split. { vm_compute. repeat constructor; by eexists. }
  split; [by vm_compute|]. split; [by vm_compute|]. split; [unfold fresh_gens; lits|]. split; by vm_compute.
Qed.

(** ** C50: token operations do not deadlock *)
(** Among calls other than refresh_token and revoke_token: whenever some call has not returned, some
    call can run, and each run that does anything brings the calls closer to their ends. *)
Theorem C50_progress_partial : ∃ left : provider → nat, ∀ s256 os, Forall (λ o, match o with OStart c _ _ _ => grants_only c | ORun _ _ _ _ => True end) os →
  let s := o_run s256 os in
  (quiet s ∨ ∃ n, ∀ now g1 g2, (left (o_step s256 s (ORun n now g1 g2)) < left s)%nat) ∧
  ∀ n now g1 g2, o_step s256 s (ORun n now g1 g2) = s ∨ (left (o_step s256 s (ORun n now g1 g2)) < left s)%nat.
Proof. exists work. intros s256 os H s. split; [apply progress; by apply granting_run|intros; apply work_step]. Qed.
Print Assumptions C50_progress_partial.
(** Refuted: at any moment where no call is running and a refresh token is good, a refresh_token and a
    create_access_token called together can get stuck: whatever happens later, neither returns. *)
Theorem C50_deadlock_refuted : ∀ s256 os rt t cl u sc now (g : nat → text), quiet (o_run s256 os) → m_refresh (pv_maps (o_run s256 os)) !! rt = Some t →
  let n := length (pv_calls (o_run s256 os)) in
  ∀ os', let s := o_run s256 (os ++ [OStart (CRefresh rt) (g 0%nat) (g 1%nat) now; OStart (CCreate cl u sc) (g 2%nat) (g 3%nat) now; ORun n now (g 4%nat) (g 5%nat); ORun (S n) now (g 6%nat) (g 7%nat)] ++ os') in
  ∃ x y, pv_calls s !! n = Some (CRefresh rt, x) ∧ pv_calls s !! S n = Some (CCreate cl u sc, y) ∧ unfinished (CRefresh rt, x) ∧ unfinished (CCreate cl u sc, y).
Proof.
  intros s256 os rt t cl u sc now g Hq Hr n os' s. unfold s. rewrite app_assoc. set (os1 := os ++ _). set (i := MkInfo cl u sc (now + token_expiration)).
  assert (pv_calls (o_run s256 os1) = pv_calls (o_run s256 os) ++ [(CRefresh rt, PRefresh2 rt t); (CCreate cl u sc, PCreate2 false i (g 2%nat) (g 3%nat))]) as E.
  { unfold os1. rewrite run_app. unfold quiet in Hq. destruct (o_run s256 os) as [[co to re is bo pa ta] L]. cbn in Hq, Hr, n. cbn [fold_left].
    assert (∀ x y : call * pc, (L ++ [x]) ++ [y] = L ++ [x; y]) as E by (intros; by rewrite <- app_assoc).
    unfold o_step at 4. unfold o_step at 3. cbn [pv_calls pv_maps]. rewrite E. unfold n.
    rewrite (step_first s256 L _ _ _ _ LRefresh MRead) by done. cbn [advance begin]. rewrite Hr.
    rewrite (step_second s256 L _ _ _ _ LTokens MWrite) by done. by cbn [advance begin]. }
  exists (PRefresh2 rt t), (PCreate2 false i (g 2%nat) (g 3%nat)).
  destruct (blocked_run s256 os1 os' (S n) n (CCreate cl u sc) (CRefresh rt) (PCreate2 false i (g 2%nat) (g 3%nat)) (PRefresh2 rt t)) as [H1 H2]; [lia|split; [by do 4 eexists|left; by do 2 eexists]| | |].
  - rewrite E. rewrite lookup_app_r by lia. unfold n. by replace (S (length (pv_calls (o_run s256 os))) - length (pv_calls (o_run s256 os)))%nat with 1%nat by lia.
  - rewrite E. by apply list_lookup_middle.
  - split; [done|]. split; [done|]. split; by intros r.
Qed.
Print Assumptions C50_deadlock_refuted.
Example C50_example : quiet (o_run ex_hash ex_granted) ∧ m_refresh (pv_maps (o_run ex_hash ex_granted)) !! lit "r1" = Some (lit "t1") ∧
  Forall (λ o, match o with OStart c _ _ _ => grants_only c | ORun _ _ _ _ => True end) ex_granted ∧ ¬ quiet (o_run ex_hash (take 5 ex_granted)).
Proof.
  split. { vm_compute. repeat constructor; by eexists. }
  split; [by vm_compute|]. split; [by repeat constructor|]. intros H. unfold quiet in H. rewrite Forall_forall in H.
  destruct (H (default (CValidate [], PValidate []) (pv_calls (o_run ex_hash (take 5 ex_granted)) !! 1%nat))) as [r Hr]; [|by vm_compute in Hr].
  apply elem_of_list_lookup. exists 1%nat. by vm_compute.
Qed.

(** ** C52: granted scopes never exceed what was authorised *)
(** The token of an exchange carries the client, user and scopes its code was created for. *)
Theorem C52_exchange_partial : ∀ s256 os n q tok rt sc, fresh_gens os → returned (o_run s256 os) n (CExchange q) (RToken tok rt sc) →
  ∃ code client user redirect scopes challenge method g2 t0, q_code q = Some code ∧ OStart (CCode client user redirect scopes challenge method) code g2 t0 ∈ os ∧ sc = scopes ∧
    ∀ k i, returned (o_run s256 os) k (CValidate tok) (RInfo i) → i_client i = client ∧ i_user i = user ∧ i_scopes i = scopes.
Proof.
  intros s256 os n q tok rt sc Hf H. destruct (full_run s256 os Hf) as [W (M1 & _)]. specialize (W _ _ _ H) as W1. cbn in W1. destruct W1 as (i & (code & a & t & G1 & G2 & G3 & G4 & G5) & Hb & _ & ->).
  destruct (M1 _ _ G2) as (g2 & t0 & Hs & He). exists code, (a_client a), (a_user a), (a_redirect a), (a_scopes a), (a_challenge a), (a_method a), g2, t0. split; [done|]. split; [done|]. split; [by subst|].
  intros k j Hk. specialize (W _ _ _ Hk). cbn in W. destruct W as (t' & [= <-] & Hj). rewrite Hb in Hj. by simplify_eq.
Qed.
Print Assumptions C52_exchange_partial.
(** The token of a refresh carries those of the token it replaces. *)
Theorem C52_refresh_partial : ∀ s256 os n1 n2 c old rt sc tok rt' sc', fresh_gens os → returned (o_run s256 os) n1 c (RToken old rt sc) → returned (o_run s256 os) n2 (CRefresh rt) (RToken tok rt' sc') →
  sc' = sc ∧ ∀ k1 k2 i j, returned (o_run s256 os) k1 (CValidate old) (RInfo i) → returned (o_run s256 os) k2 (CValidate tok) (RInfo j) → i_client j = i_client i ∧ i_user j = i_user i ∧ i_scopes j = i_scopes i.
Proof.
  intros s256 os n1 n2 c old rt sc tok rt' sc' Hf H1 H2. destruct (full_run s256 os Hf) as [W _]. specialize (W _ _ _ H1) as W1. specialize (W _ _ _ H2) as W2. cbn in W1, W2.
  destruct W1 as (i1 & _ & B1 & P1 & ->), W2 as (i2 & (old' & j & e & _ & P2 & B2 & E) & B3 & _ & ->). rewrite P1 in P2. simplify_eq. split; [done|].
  intros k1 k2 i j' K1 K2. specialize (W _ _ _ K1) as V1. specialize (W _ _ _ K2) as V2. cbn in V1, V2. destruct V1 as (? & [= <-] & V1), V2 as (? & [= <-] & V2). rewrite B1 in V1. rewrite B3 in V2. by simplify_eq.
Qed.
Print Assumptions C52_refresh_partial.
(** Refuted: an authorization request for any of the provider's scopes is accepted for any client,
    whatever scopes the client registered. *)
Theorem C52_client_scopes_refuted : ∀ (m : gmap text oclient) c rt redirect scope words, m !! o_id c = Some c → redirect ∈ o_redirects c → rt ∈ o_types c →
  worded scope words → (∀ w, w ∈ words → w = lit "read" ∨ w = lit "write") → validate_authorization m rt (o_id c) redirect scope = true.
Proof. intros m c rt redirect scope words Hm Hr Ht Hs Hw. apply accepted. by exists c, words. Qed.
Print Assumptions C52_client_scopes_refuted.
(** Beyond that a request is accepted only for a known client, with a redirect address and a type it
    registered, and with scopes of the provider. *)
Theorem C52_accepted : ∀ (m : gmap text oclient) rt id redirect scope, validate_authorization m rt id redirect scope = true ↔
  ∃ c words, m !! id = Some c ∧ redirect ∈ o_redirects c ∧ rt ∈ o_types c ∧ worded scope words ∧ ∀ w, w ∈ words → w = lit "read" ∨ w = lit "write".
Proof. exact accepted. Qed.
Print Assumptions C52_accepted.
Example C52_example :
  let v := ex_granted ++ [ex_start (CValidate (lit "t1")) "y1" "y2" 400; ex_go 3 400 "y3" "y4"] in
  fresh_gens v ∧ returned (o_run ex_hash v) 3 (CValidate (lit "t1")) (RInfo ex_info) ∧
  validate_authorization {[ lit "app" := MkClient (lit "app") None [lit "cb"] [TCode] [lit "read"] ]} TCode (lit "app") (lit "cb") (lit "read write") = true ∧
  validate_authorization {[ lit "app" := MkClient (lit "app") None [lit "cb"] [TCode] [lit "read"] ]} TCode (lit "app") (lit "cb") (lit "read admin") = false ∧
  words [] (lit " read  write ") = [lit "read"; lit "write"].
Proof. split; [unfold fresh_gens; lits|]. repeat split; by vm_compute. Qed.

(** ** C102: a code is exchanged only for the client that knows its secret *)
(** Refuted: over any history, changing the secrets in the exchange requests in any way changes no
    result. *)
Theorem C102_secret_refuted : ∀ s256 (f : option text → option text) os n c r, returned (o_run s256 os) n c r → returned (o_run s256 (resecret f <$> os)) n (resecret_call f c) r.
Proof. intros s256 f os n c r H. unfold returned in *. rewrite run_resecret. cbn. by rewrite list_lookup_fmap, H. Qed.
Print Assumptions C102_secret_refuted.
(** What is required: the client id. *)
Theorem C102_client_id_partial : ∀ s256 os n q tok rt sc, fresh_gens os → returned (o_run s256 os) n (CExchange q) (RToken tok rt sc) →
  ∃ code client user redirect scopes challenge method g2 t0, q_code q = Some code ∧ OStart (CCode client user redirect scopes challenge method) code g2 t0 ∈ os ∧ q_client q = Some client.
Proof.
  intros s256 os n q tok rt sc Hf H. destruct (C47_conditions s256 os n q tok rt sc Hf H) as (code & cl & u & r & s & ch & me & g2 & t0 & t & h1 & h2 & H1 & H2 & _ & _ & H3 & _). by exists code, cl, u, r, s, ch, me, g2, t0.
Qed.
Print Assumptions C102_client_id_partial.
Example C102_example :
  returned (o_run ex_hash (resecret (λ _, Some (lit "wrong")) <$> ex_granted)) 1 (CExchange (resecret_req (λ _, Some (lit "wrong")) ex_req)) (RToken (lit "t1") (lit "r1") [lit "read"]).
Proof. by vm_compute. Qed.

(** ** C103: registering a client does not change another one *)
Theorem C103_others_partial : ∀ c g1 g2 m id, let m' := (register_client c g1 g2 m).1 in let c' := (register_client c g1 g2 m).2 in
  (m' !! o_id c' = Some c' ∧ o_redirects c' = o_redirects c ∧ o_types c' = o_types c ∧ o_scopes c' = o_scopes c ∧ is_Some (o_secret c')) ∧ (id ≠ o_id c' → m' !! id = m !! id).
Proof. intros c g1 g2 m id m' c'. unfold m', c', register_client. cbn. split; [split; [by rewrite lookup_insert|]; repeat split; by eexists|]. intros H. by rewrite lookup_insert_ne. Qed.
Print Assumptions C103_others_partial.
Theorem C103_generated_partial : ∀ c g1 g2 m, o_id c = [] → m !! g1 = None → m ⊆ (register_client c g1 g2 m).1.
Proof. intros c g1 g2 m Hc Hm. unfold register_client. rewrite Hc. cbn. by apply insert_subseteq. Qed.
Print Assumptions C103_generated_partial.
(** Refuted: whoever registers with the id of an existing client replaces it, its redirect uris and
    secret included. *)
Theorem C103_takeover_refuted : ∀ c g1 g2 (m : gmap text oclient) victim secret, m !! o_id c = Some victim → o_id c ≠ [] → o_secret c = Some secret →
  (register_client c g1 g2 m).1 !! o_id c = Some c.
Proof. intros [id se re ty sc] g1 g2 m victim secret Hm Hn Hs. cbn in *. subst. unfold register_client. cbn. destruct id; [done|]. cbn. by rewrite lookup_insert. Qed.
Print Assumptions C103_takeover_refuted.
Example C103_example :
  let victim := MkClient (lit "app") (Some (lit "s")) [lit "https://app"] [TCode] [] in let evil := MkClient (lit "app") (Some (lit "x")) [lit "https://evil"] [TCode] [] in
  (register_client evil (lit "g") (lit "h") (register_client victim (lit "g") (lit "h") ∅).1).1 !! lit "app" = Some evil.
Proof. by vm_compute. Qed.
