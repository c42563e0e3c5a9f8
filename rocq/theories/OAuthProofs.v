(** Proofs about the OAuth provider. *)
From stdpp Require Import gmap strings list sets.
From Coq Require Import ZifyBool.
From Verif Require Import ListLib TextLib SerdeLib OAuthModel OAuthSpec.
Local Open Scope Z_scope.

Definition pend (p : pc) : list text :=
  match p with PCode code _ => [code] | PCreate _ _ tok rt => [tok; rt] | PCreate2 _ _ _ rt => [rt] | _ => [] end.
Definition used (m : maps) (x : text) : Prop := is_Some (m_issued m !! x) ∨ is_Some (m_born m !! x) ∨ is_Some (m_paired m !! x).
Definition gone (m : maps) (t : text) : Prop := is_Some (m_born m !! t) ∧ m_tokens m !! t = None.
Definition dead (m : maps) (rt : text) : Prop := is_Some (m_paired m !! rt) ∧ m_refresh m !! rt = None.
Lemma insert_some {A} (m : gmap text A) k v x : is_Some (<[k := v]> m !! x) ↔ x = k ∨ is_Some (m !! x).
Proof. destruct (decide (x = k)) as [->|]; [rewrite lookup_insert; naive_solver|]. rewrite lookup_insert_ne by done. naive_solver. Qed.

Section oauth.
  Context (s256 : text → text).
  Local Notation advance := (advance s256).
  Local Notation step := (o_step s256).
  Local Notation run := (o_run s256).
  Lemma run_snoc os o : run (os ++ [o]) = step (run os) o.
  Proof. unfold o_run. by rewrite fold_left_app. Qed.
  Lemma run_app os os' : run (os ++ os') = fold_left step os' (run os).
  Proof. unfold o_run. by rewrite fold_left_app. Qed.

  (** ** What a step does to the generated values *)
  Lemma advance_used n now g1 g2 p m : NoDup (pend p) → ∀ x, used (advance n now g1 g2 p m).1 x → used m x ∨ (x ∈ pend p ∧ x ∉ pend (advance n now g1 g2 p m).2).
  Proof.
    destruct m as [co to re is bo pa ta]. intros Hn x. destruct p as [code a|q code|b i tok rt|b i tok rt|rt|rt old|rt old i|rt i|t|t|a|t|r]; cbn [OAuthModel.advance]; try by left.
    - unfold used; cbn. rewrite insert_some, elem_of_list_singleton. intros [[->|?]|[?|?]]; auto. right. split; [done|]. apply not_elem_of_nil.
    - destruct (co !! code); [|by left]. destruct (checks _ _ _ _); by left.
    - unfold used; cbn. cbn in Hn. rewrite insert_some. intros [?|[[->|?]|?]]; auto. right. split; [by left|]. by apply NoDup_cons in Hn as [? _].
    - unfold used; cbn. rewrite insert_some, elem_of_list_singleton. intros [?|[?|[->|?]]]; auto. right. split; [done|]. apply not_elem_of_nil.
    - destruct (re !! rt); by left.
    - destruct (to !! old); by left.
    - destruct (to !! t); by left.
    - destruct (re !! t); by left.
    - destruct (to !! t) as [i|]; [|by left]. destruct (_ <? _); by left.
  Qed.
  Lemma advance_pend n now g1 g2 p m : NoDup (pend p) → g1 ≠ g2 → NoDup (pend (advance n now g1 g2 p m).2) ∧ ∀ x, x ∈ pend (advance n now g1 g2 p m).2 → x ∈ pend p ∨ x ∈ [g1; g2].
  Proof.
    assert (NoDup ([] : list text)) as N0 by constructor. assert (∀ x : text, x ∈ [] → False) as E0 by (intros x; apply not_elem_of_nil).
    intros Hn Hg. assert (NoDup [g1; g2]) as N2. { apply NoDup_cons. split; [by intros ?%elem_of_list_singleton|apply NoDup_singleton]. }
    destruct m as [co to re is bo pa ta]. destruct p as [code a|q code|b i tok rt|b i tok rt|rt|rt old|rt old i|rt i|t|t|a|t|r]; cbn [OAuthModel.advance]; try (by split; [|intros ? ?%E0]).
    - destruct (co !! code); [|by split; [|intros ? ?%E0]]. destruct (checks _ _ _ _); [by split; [|intros ? ?%E0]|]. split; [done|]. by right.
    - cbn in *. apply NoDup_cons in Hn as [_ Hn]. split; [done|]. intros x Hx. left. by right.
    - destruct (re !! rt); (by split; [|intros ? ?%E0]).
    - destruct (to !! old); (by split; [|intros ? ?%E0]).
    - split; [done|]. by right.
    - destruct (to !! t); (by split; [|intros ? ?%E0]).
    - destruct (re !! t); (by split; [|intros ? ?%E0]).
    - destruct (to !! t) as [i|]; [destruct (_ <? _)|]; (by split; [|intros ? ?%E0]).
  Qed.
  Lemma begin_pend c g1 g2 now : g1 ≠ g2 → NoDup (pend (begin c g1 g2 now)) ∧ ∀ x, x ∈ pend (begin c g1 g2 now) → x ∈ [g1; g2].
  Proof.
    intros Hg. assert (NoDup ([] : list text)) as N0 by constructor. assert (∀ x : text, x ∈ [] → False) as E0 by (intros x; apply not_elem_of_nil).
    destruct c as [cl u r sc ch me|q|cl u sc|rt|t|t]; cbn; try (by split; [|intros ? ?%E0]).
    - split; [apply NoDup_singleton|]. intros x ->%elem_of_list_singleton. by left.
    - destruct (q_grant q); try (by split; [|intros ? ?%E0]). destruct (q_code q); (by split; [|intros ? ?%E0]).
    - split; [|done]. apply NoDup_cons. split; [by intros ?%elem_of_list_singleton|apply NoDup_singleton].
  Qed.
  Record basic (G : list text) (s : provider) : Prop := {
    b_used : ∀ x, used (pv_maps s) x → x ∈ G;
    b_pend : ∀ n c p, pv_calls s !! n = Some (c, p) → NoDup (pend p) ∧ ∀ x, x ∈ pend p → x ∈ G ∧ ¬ used (pv_maps s) x;
    b_disj : ∀ n1 n2 c1 c2 p1 p2 x, pv_calls s !! n1 = Some (c1, p1) → pv_calls s !! n2 = Some (c2, p2) → x ∈ pend p1 → x ∈ pend p2 → n1 = n2 }.
  Lemma lookup_insert_calls (l : list (call * pc)) n x k y : <[n := x]> l !! k = Some y → (k = n ∧ y = x) ∨ (k ≠ n ∧ l !! k = Some y).
  Proof.
    destruct (decide (k = n)) as [->|Hn].
    - destruct (decide (n < length l)%nat).
      + rewrite list_lookup_insert by done. intros [= <-]. by left.
      + rewrite lookup_ge_None_2; [done|]. rewrite insert_length. lia.
    - rewrite list_lookup_insert_ne by done. by right.
  Qed.
  Lemma gens_snoc os o : (os ++ [o]) ≫= gens = (os ≫= gens) ++ gens o.
  Proof. rewrite bind_app. cbn. by rewrite app_nil_r. Qed.
  Lemma fresh_snoc os o : fresh_gens (os ++ [o]) → fresh_gens os ∧ ∃ g1 g2, gens o = [g1; g2] ∧ g1 ≠ g2 ∧ g1 ∉ os ≫= gens ∧ g2 ∉ os ≫= gens.
  Proof.
    unfold fresh_gens. rewrite gens_snoc. intros (H1 & H2 & H3)%NoDup_app. split; [done|].
    assert (∃ g1 g2, gens o = [g1; g2]) as (g1 & g2 & E) by (destruct o; eauto). exists g1, g2. rewrite E in *. split; [done|].
    split; [intros ->; apply NoDup_cons in H3 as [H3 _]; apply H3; by left|]. split; intros H; apply (H2 _ H); [by left|right; by left].
  Qed.
  Lemma basic_run os : fresh_gens os → basic (os ≫= gens) (run os).
  Proof.
    induction os as [|o os IH] using rev_ind; intros Hf.
    { split; cbn; [intros x [H|[H|H]]; cbn in H; rewrite lookup_empty in H; by destruct H|by intros []|by intros []]. }
    apply fresh_snoc in Hf as (Hf & g1 & g2 & Eg & Hg & Hg1 & Hg2). specialize (IH Hf). rewrite run_snoc, gens_snoc, Eg. destruct IH as [Bu Bp Bd]. set (G := os ≫= gens) in *.
    assert (∀ x, x ∈ [g1; g2] → x ∈ G → False) as Hnew. { intros x Hx Hin. apply elem_of_cons in Hx as [->|Hx]; [done|]. by apply elem_of_list_singleton in Hx as ->. }
    assert (∀ s, basic G s → basic (G ++ [g1; g2]) s) as W.
    { intros s [B1 B2 B3]. split; [intros x Hx; apply elem_of_app; left; auto| |done]. intros n c p Hn. destruct (B2 n c p Hn) as [H1 H2]. split; [done|]. intros x Hx. destruct (H2 x Hx). split; [apply elem_of_app; by left|done]. }
    assert (basic G (run os)) as B by done.
    destruct o as [c h1 h2 now|n now h1 h2]; cbn in Eg; simplify_eq; cbn [o_step].
    - destruct (begin_pend c g1 g2 now Hg) as [Hn Hp]. split; cbn.
      + intros x Hx. apply elem_of_app. left. auto.
      + intros k c' p'. rewrite lookup_app_Some. intros [Hk|[_ Hk]].
        * destruct (Bp k c' p' Hk) as [H1 H2]. split; [done|]. intros x Hx. destruct (H2 x Hx). split; [apply elem_of_app; by left|done].
        * apply list_lookup_singleton_Some in Hk as [_ [= <- <-]]. split; [done|]. intros x Hx. specialize (Hp x Hx). split; [apply elem_of_app; by right|]. intros H%Bu. by apply (Hnew x).
      + intros n1 n2 c1 c2 p1 p2 x. rewrite !lookup_app_Some. intros [H1|[L1 H1]] [H2|[L2 H2]] X1 X2.
        * by eapply Bd.
        * exfalso. apply list_lookup_singleton_Some in H2 as [_ [= <- <-]]. destruct (Bp _ _ _ H1) as [_ Hx]. apply (Hnew x); [auto|]. by apply Hx.
        * exfalso. apply list_lookup_singleton_Some in H1 as [_ [= <- <-]]. destruct (Bp _ _ _ H2) as [_ Hx]. apply (Hnew x); [auto|]. by apply Hx.
        * apply list_lookup_singleton_Some in H1 as [? _]. apply list_lookup_singleton_Some in H2 as [? _]. lia.
    - destruct (pv_calls (run os) !! n) as [[c p]|] eqn:En; [|by apply W]. destruct (wants p) as [[l md]|]; [|by apply W]. destruct (available _ _ _ _); [|by apply W].
      destruct (Bp n c p En) as [Hn Hx]. pose proof (advance_used n now g1 g2 p (pv_maps (run os)) Hn) as Hu. pose proof (advance_pend n now g1 g2 p (pv_maps (run os)) Hn Hg) as [Hn' Hp'].
      destruct (advance n now g1 g2 p (pv_maps (run os))) as [m' p']. cbn [fst snd] in *. split; cbn.
      + intros x [H|[H _]]%Hu; apply elem_of_app; left; [auto|]. by apply Hx.
      + intros k c' q [[-> [= -> ->]]|[Hk Hl]]%lookup_insert_calls.
        * split; [done|]. intros x Hin. split.
          -- apply elem_of_app. destruct (Hp' x Hin); [left; by apply Hx|by right].
          -- intros [H|[_ H]]%Hu; [|done]. destruct (Hp' x Hin) as [H'|H']; [by apply (Hx x H')|]. apply (Hnew x); auto.
        * destruct (Bp k c' q Hl) as [H1 H2]. split; [done|]. intros x Hin. destruct (H2 x Hin). split; [apply elem_of_app; by left|]. intros [?|[H' _]]%Hu; [done|]. apply Hk. by eapply Bd.
      + intros n1 n2 c1 c2 p1 p2 x [[-> [= -> ->]]|[Hk1 Hl1]]%lookup_insert_calls [[-> [= -> ->]]|[Hk2 Hl2]]%lookup_insert_calls X1 X2; [done| | |by eapply Bd].
        * destruct (Hp' x X1) as [H|H]; [exfalso; apply Hk2; by eapply Bd|]. destruct (Bp _ _ _ Hl2) as [_ Hy]. exfalso. apply (Hnew x H). by apply Hy.
        * destruct (Hp' x X2) as [H|H]; [exfalso; apply Hk1; by eapply Bd|]. destruct (Bp _ _ _ Hl1) as [_ Hy]. exfalso. apply (Hnew x H). by apply Hy.
  Qed.

  (** ** What only grows *)
  Record grows (m m' : maps) : Prop := {
    g_issued : m_issued m ⊆ m_issued m'; g_born : m_born m ⊆ m_born m'; g_paired : m_paired m ⊆ m_paired m'; g_taken : m_taken m `prefix_of` m_taken m';
    g_gone : ∀ t, gone m t → gone m' t; g_dead : ∀ t, dead m t → dead m' t }.
  Lemma grows_refl m : grows m m. Proof. by split. Qed.
  Lemma grows_trans m1 m2 m3 : grows m1 m2 → grows m2 m3 → grows m1 m3.
  Proof. intros [A1 A2 A3 A4 A5 A6] [B1 B2 B3 B4 B5 B6]. split; [by etrans..|auto|auto]. Qed.
  Lemma advance_grows n now g1 g2 p m : (∀ x, x ∈ pend p → ¬ used m x) → grows m (advance n now g1 g2 p m).1.
  Proof.
    destruct m as [co to re is bo pa ta]. intros Hp.
    assert (∀ t x, (gone (MkMaps co to re is bo pa ta) t → gone (MkMaps co (delete x to) re is bo pa ta) t)) as D1.
    { intros t x [H1 H2]. split; [done|]. cbn in *. rewrite lookup_delete_None. by right. }
    assert (∀ t x, (dead (MkMaps co to re is bo pa ta) t → dead (MkMaps co to (delete x re) is bo pa ta) t)) as D2.
    { intros t x [H1 H2]. split; [done|]. cbn in *. rewrite lookup_delete_None. by right. }
    destruct p as [code a|q code|b i tok rt|b i tok rt|rt|rt old|rt old i|rt i|t|t|a|t|r]; cbn [OAuthModel.advance]; try apply grows_refl.
    - split; cbn; try done. apply insert_subseteq. destruct (is !! code) eqn:E; [|done]. exfalso. apply (Hp code); [by left|]. left. cbn. by rewrite E.
    - destruct (co !! code) as [a|]; [|apply grows_refl]. destruct (checks _ _ _ _); split; cbn; try done. by apply prefix_app_r.
    - assert (bo !! tok = None) as Hb. { destruct (bo !! tok) eqn:E; [|done]. exfalso. apply (Hp tok); [by left|]. right. left. cbn. by rewrite E. }
      split; cbn; try done. + by apply insert_subseteq. + intros t [H1 H2]. cbn in *. assert (t ≠ tok) by (intros ->; rewrite Hb in H1; by destruct H1). split; cbn; by rewrite lookup_insert_ne.
    - assert (pa !! rt = None) as Hb. { destruct (pa !! rt) eqn:E; [|done]. exfalso. apply (Hp rt); [by left|]. right. right. cbn. by rewrite E. }
      split; cbn; try done. + by apply insert_subseteq. + intros t [H1 H2]. cbn in *. assert (t ≠ rt) by (intros ->; rewrite Hb in H1; by destruct H1). split; cbn; by rewrite lookup_insert_ne.
    - destruct (re !! rt); apply grows_refl.
    - destruct (to !! old); apply grows_refl.
    - split; cbn; try done. auto.
    - split; cbn; try done. auto.
    - destruct (to !! t); [|apply grows_refl]. split; cbn; try done. auto.
    - destruct (re !! t); [|apply grows_refl]. split; cbn; try done. auto.
    - split; cbn; try done. auto.
    - destruct (to !! t) as [i|]; [destruct (_ <? _)|]; apply grows_refl.
  Qed.
  Lemma step_grows os o : fresh_gens os → grows (pv_maps (run os)) (pv_maps (step (run os) o)).
  Proof.
    intros Hf. destruct (basic_run os Hf) as [_ Bp _]. destruct o as [c g1 g2 now|n now g1 g2]; cbn [o_step]; [apply grows_refl|].
    destruct (pv_calls (run os) !! n) as [[c p]|] eqn:En; [|apply grows_refl]. destruct (wants p) as [[l md]|]; [|apply grows_refl]. destruct (available _ _ _ _); [|apply grows_refl].
    destruct (Bp n c p En) as [_ Hx]. pose proof (advance_grows n now g1 g2 p (pv_maps (run os)) (λ x Hin, proj2 (Hx x Hin))) as H. by destruct (advance n now g1 g2 p (pv_maps (run os))).
  Qed.
  Lemma fresh_app os os' : fresh_gens (os ++ os') → fresh_gens os.
  Proof. unfold fresh_gens. rewrite bind_app. by intros (H & _)%NoDup_app. Qed.
  Lemma run_grows os os' : fresh_gens (os ++ os') → grows (pv_maps (run os)) (pv_maps (run (os ++ os'))).
  Proof.
    induction os' as [|o os' IH] using rev_ind; [rewrite app_nil_r; intros; apply grows_refl|]. rewrite app_assoc. intros Hf. pose proof (fresh_app _ _ Hf) as Hf'. rewrite run_snoc.
    eapply grows_trans; [by apply IH|]. by apply step_grows.
  Qed.

  (** ** Where things come from *)
  Definition from_code (m : maps) (n : nat) (q : treq) (i : tinfo) : Prop :=
    ∃ code a t, q_code q = Some code ∧ m_issued m !! code = Some a ∧ (n, code, t) ∈ m_taken m ∧ checks s256 q a t = None ∧ i = MkInfo (a_client a) (a_user a) (a_scopes a) (t + 3600).
  Definition from_refresh (m : maps) (rt : text) (i : tinfo) : Prop :=
    ∃ old j e, dead m rt ∧ m_paired m !! rt = Some old ∧ m_born m !! old = Some j ∧ i = MkInfo (i_client j) (i_user j) (i_scopes j) e.
  Definition origin (m : maps) (n : nat) (c : call) (i : tinfo) : Prop :=
    match c with CExchange q => from_code m n q i | CCreate cl u sc => ∃ e, i = MkInfo cl u sc e | CRefresh rt => from_refresh m rt i | _ => False end.
  Definition started (os : list oop) (code : text) (a : acode) : Prop :=
    ∃ g2 t0, OStart (CCode (a_client a) (a_user a) (a_redirect a) (a_scopes a) (a_challenge a) (a_method a)) code g2 t0 ∈ os ∧ a_exp a = t0 + 600.
  Definition okc (os : list oop) (m : maps) (n : nat) (c : call) (p : pc) : Prop :=
    match p with
    | PCode code a => started os code a ∧ c = CCode (a_client a) (a_user a) (a_redirect a) (a_scopes a) (a_challenge a) (a_method a)
    | PExchange q code => c = CExchange q ∧ q_code q = Some code
    | PCreate _ i tok rt => origin m n c i
    | PCreate2 _ i tok rt => origin m n c i ∧ m_born m !! tok = Some i
    | PRefresh rt => c = CRefresh rt
    | PRefresh2 rt old => c = CRefresh rt ∧ m_paired m !! rt = Some old
    | PRefresh3 rt old i => c = CRefresh rt ∧ m_paired m !! rt = Some old ∧ m_born m !! old = Some i
    | PRefresh4 rt i => c = CRefresh rt ∧ ∃ old, m_paired m !! rt = Some old ∧ m_born m !! old = Some i
    | PRevoke t | PRevoke2 t => c = CRevoke t
    | PRevoke3 a => ∃ t, c = CRevoke t ∧ m_paired m !! t = Some a
    | PValidate t => c = CValidate t
    | PDone (RToken tok rt sc) => ∃ i, origin m n c i ∧ m_born m !! tok = Some i ∧ m_paired m !! rt = Some tok ∧ sc = i_scopes i
    | PDone (RInfo i) => ∃ t, c = CValidate t ∧ m_born m !! t = Some i
    | PDone (RCode code) => ∃ a, c = CCode (a_client a) (a_user a) (a_redirect a) (a_scopes a) (a_challenge a) (a_method a) ∧ m_issued m !! code = Some a
    | PDone ROk => ∃ t, c = CRevoke t
    | PDone (RErr _) => True
    end.
  Lemma origin_mono m m' n c i : grows m m' → origin m n c i → origin m' n c i.
  Proof.
    intros [A1 A2 A3 A4 A5 A6]. destruct c; try done; cbn.
    - intros (code & a & t & H1 & H2 & H3 & H4 & H5). exists code, a, t. repeat split; try done; [by eapply lookup_weaken|]. destruct A4 as [k ->]. apply elem_of_app. by left.
    - intros (old & j & e & H1 & H2 & H3 & H4). exists old, j, e. repeat split; try done; [by apply A6|by apply A6|by eapply lookup_weaken..].
  Qed.
  Lemma started_mono os os' code a : started os code a → started (os ++ os') code a.
  Proof. intros (g2 & t0 & H1 & H2). exists g2, t0. split; [|done]. apply elem_of_app. by left. Qed.
  Lemma okc_mono os os' m m' n c p : grows m m' → okc os m n c p → okc (os ++ os') m' n c p.
  Proof.
    intros Hg. pose proof Hg as [A1 A2 A3 A4 A5 A6]. destruct p as [code a|q code|b i tok rt|b i tok rt|rt|rt old|rt old i|rt i|t|t|a|t|r]; cbn [okc]; try done.
    - intros [H1 H2]. split; [by apply started_mono|done].
    - by apply origin_mono.
    - intros [H1 H2]. split; [by eapply origin_mono|by eapply lookup_weaken].
    - intros [H1 H2]. split; [done|by eapply lookup_weaken].
    - intros (H1 & H2 & H3). repeat split; [done|by eapply lookup_weaken..].
    - intros (H1 & old & H2 & H3). split; [done|]. exists old. split; by eapply lookup_weaken.
    - intros (t & H1 & H2). exists t. split; [done|by eapply lookup_weaken].
    - destruct r; try done.
      + intros (a & H1 & H2). exists a. split; [done|by eapply lookup_weaken].
      + intros (i & H1 & H2 & H3 & H4). exists i. split; [by eapply origin_mono|]. split; [by eapply lookup_weaken|]. split; [by eapply lookup_weaken|done].
      + intros (t & H1 & H2). exists t. split; [done|by eapply lookup_weaken].
  Qed.
  Definition maps_ok (os : list oop) (m : maps) : Prop :=
    (∀ code a, m_issued m !! code = Some a → started os code a) ∧ m_codes m ⊆ m_issued m ∧ m_tokens m ⊆ m_born m ∧ m_refresh m ⊆ m_paired m ∧ NoDup (m_taken m).*1.*2 ∧
    ∀ n code t, (n, code, t) ∈ m_taken m → m_codes m !! code = None ∧ is_Some (m_issued m !! code) ∧ ∃ g1 g2, ORun n t g1 g2 ∈ os.
  Lemma maps_ok_mono os os' m : maps_ok os m → maps_ok (os ++ os') m.
  Proof.
    intros (H1 & H2 & H3 & H4 & H5 & H6). split; [intros code a H; apply started_mono; auto|]. do 4 (split; [done|]). intros n code t Hin. destruct (H6 _ _ _ Hin) as (? & ? & g1 & g2 & ?).
    split; [done|]. split; [done|]. exists g1, g2. apply elem_of_app. by left.
  Qed.
  Lemma subset_insert {A} (m m' : gmap text A) k v : m ⊆ m' → <[k := v]> m ⊆ <[k := v]> m'.
  Proof. apply insert_mono. Qed.
  Lemma subset_delete {A} (m m' : gmap text A) k : m ⊆ m' → delete k m ⊆ m'.
  Proof. intros H. etrans; [apply delete_subseteq|done]. Qed.
  Lemma advance_ok os n now g1 g2 c p m : (∀ x, x ∈ pend p → ¬ used m x) → okc os m n c p → maps_ok os m →
    maps_ok (os ++ [ORun n now g1 g2]) (advance n now g1 g2 p m).1 ∧ okc (os ++ [ORun n now g1 g2]) (advance n now g1 g2 p m).1 n c (advance n now g1 g2 p m).2.
  Proof.
    intros Hp Hc Hm. pose proof (advance_grows n now g1 g2 p m Hp) as Hg. set (os' := os ++ [ORun n now g1 g2]).
    pose proof (maps_ok_mono os [ORun n now g1 g2] m Hm) as Hm'. fold os' in Hm'. pose proof (okc_mono os [ORun n now g1 g2] m m n c p (grows_refl m) Hc) as Hc'. fold os' in Hc'.
    assert (ORun n now g1 g2 ∈ os') as Hin by (apply elem_of_app; right; by apply elem_of_list_singleton).
    destruct m as [co to re is bo pa ta]. pose proof Hm' as MM. destruct Hm' as (M1 & M2 & M3 & M4 & M5 & M6). cbn in M1, M2, M3, M4, M5, M6.
    destruct p as [code a|q code|b i tok rt|b i tok rt|rt|rt old|rt old i|rt i|t|t|a|t|r]; cbn [OAuthModel.advance] in *.
    - cbn in Hc'. destruct Hc' as [Hs ->]. assert (is !! code = None) as Hi. { destruct (is !! code) eqn:E; [|done]. exfalso. apply (Hp code); [by left|]. left. cbn. by rewrite E. }
      split; [|cbn; exists a; by rewrite lookup_insert]. split; cbn.
      { intros k a'. destruct (decide (k = code)) as [->|]; [rewrite lookup_insert; by intros [= <-]|]. rewrite lookup_insert_ne by done. apply M1. }
      split; [by apply subset_insert|]. do 3 (split; [done|]). intros k code' t Hk. destruct (M6 _ _ _ Hk) as (H1 & H2 & H3). assert (code' ≠ code) by (intros ->; rewrite Hi in H2; by destruct H2).
      rewrite !lookup_insert_ne by done. done.
    - cbn in Hc'. destruct Hc' as [-> Hq]. destruct (co !! code) as [a|] eqn:E; [|split; [exact MM|done]].
      pose proof (lookup_weaken _ _ _ _ E M2) as Hi.
      assert (∀ k code' t, (k, code', t) ∈ ta → delete code co !! code' = None ∧ is_Some (is !! code') ∧ ∃ g1 g2, ORun k t g1 g2 ∈ os') as M6'.
      { intros k code' t Hk. destruct (M6 _ _ _ Hk) as (H1 & H2 & H3). split; [|done]. apply lookup_delete_None. by right. }
      destruct (checks _ _ _ _) as [e|] eqn:Ec.
      + split; [|done]. split; [done|]. cbn. split; [by apply subset_delete|]. by do 3 (split; [done|]).
      + split.
        * split; [done|]. cbn. split; [by apply subset_delete|]. do 2 (split; [done|]). split.
          -- rewrite !fmap_app. apply NoDup_app. split; [done|]. split; [|apply NoDup_singleton]. intros x Hx ->%elem_of_list_singleton. cbn in Hx.
             apply elem_of_list_fmap in Hx as ([k c'] & -> & Hx). apply elem_of_list_fmap in Hx as ([[k' c''] t] & [= -> ->] & Hx). cbn in E. destruct (M6 _ _ _ Hx) as (H & _). congruence.
          -- intros k code' t [Hk|Hk]%elem_of_app; [by apply M6'|]. apply elem_of_list_singleton in Hk as [= -> -> ->]. rewrite lookup_delete. split; [done|]. split; [by rewrite Hi|]. by exists g1, g2.
        * cbn. exists code, a, now. repeat split; try done. apply elem_of_app. right. by apply elem_of_list_singleton.
    - cbn in Hc'. split; [|cbn; split; [by eapply origin_mono|by rewrite lookup_insert]]. split; [done|]. cbn. split; [done|]. split; [by apply subset_insert|]. by do 2 (split; [done|]).
    - cbn in Hc'. destruct Hc' as [Ho Hb]. split; [|cbn; exists i; split; [by eapply origin_mono|]; by rewrite lookup_insert]. split; [done|]. cbn. do 2 (split; [done|]). split; [by apply subset_insert|]. done.
    - cbn in Hc'. subst c. destruct (re !! rt) as [old|] eqn:E; (split; [exact MM|]); [|done]. cbn. split; [done|]. by eapply lookup_weaken.
    - cbn in Hc'. destruct Hc' as [-> Hpa]. destruct (to !! old) as [i|] eqn:E; (split; [exact MM|]); [|done]. cbn. split; [done|]. split; [done|]. by eapply lookup_weaken.
    - cbn in Hc'. destruct Hc' as (-> & H1 & H2). split; [|cbn; eauto]. split; [done|]. cbn. split; [done|]. split; [by apply subset_delete|]. by do 2 (split; [done|]).
    - cbn in Hc'. destruct Hc' as (-> & old & H1 & H2). split; [|cbn; exists old, i, (now + token_expiration); split; [|done]; split; cbn; [by rewrite H1|by rewrite lookup_delete]].
      split; [done|]. cbn. do 2 (split; [done|]). split; [by apply subset_delete|]. done.
    - cbn in Hc'. subst c. destruct (to !! t) eqn:E; [|split; [exact MM|done]]. split; [|cbn; eauto]. split; [done|]. cbn. split; [done|]. split; [by apply subset_delete|]. by do 2 (split; [done|]).
    - cbn in Hc'. subst c. destruct (re !! t) as [a|] eqn:E; [|split; [exact MM|cbn; eauto]]. split; [|cbn; exists t; split; [done|]; by eapply lookup_weaken].
      split; [done|]. cbn. do 2 (split; [done|]). split; [by apply subset_delete|]. done.
    - cbn in Hc'. destruct Hc' as (t & -> & Ht). split; [|cbn; eauto]. split; [done|]. cbn. split; [done|]. split; [by apply subset_delete|]. by do 2 (split; [done|]).
    - cbn in Hc'. subst c. destruct (to !! t) as [i|] eqn:E; [|split; [exact MM|done]]. destruct (_ <? _); (split; [exact MM|]); [done|]. cbn. exists t. split; [done|]. by eapply lookup_weaken.
    - done.
  Qed.
  Lemma full_run os : fresh_gens os → (∀ n c p, pv_calls (run os) !! n = Some (c, p) → okc os (pv_maps (run os)) n c p) ∧ maps_ok os (pv_maps (run os)).
  Proof.
    induction os as [|o os IH] using rev_ind; intros Hf.
    { split; [by intros []|]. split; cbn; [by intros ? ?|]. do 3 (split; [done|]). split; [constructor|]. by intros ? ? ? ?%elem_of_nil. }
    apply fresh_snoc in Hf as (Hf & g1 & g2 & Eg & Hg & Hg1 & Hg2). destruct (IH Hf) as [IH1 IH2]. pose proof (step_grows os o Hf) as Hgr. rewrite run_snoc.
    assert ((∀ n c p, pv_calls (run os) !! n = Some (c, p) → okc (os ++ [o]) (pv_maps (run os)) n c p) ∧ maps_ok (os ++ [o]) (pv_maps (run os))) as W.
    { split; [|by apply maps_ok_mono]. intros n c p Hn. eapply okc_mono; [apply grows_refl|]. auto. }
    destruct o as [c h1 h2 now|n now h1 h2]; cbn in Eg; simplify_eq; cbn [o_step].
    - destruct W as [W1 W2]. split; [|done]. cbn. intros n c' p. rewrite lookup_app_Some. intros [Hn|[_ Hn]]; [by apply W1|]. apply list_lookup_singleton_Some in Hn as [_ [= <- <-]].
      destruct c as [cl u r sc ch me|q|cl u sc|rt|t|t]; cbn; try done.
      + split; [|done]. exists g2, now. split; [|done]. apply elem_of_app. right. by apply elem_of_list_singleton.
      + destruct (q_grant q); try done. by destruct (q_code q) eqn:E.
      + by eexists.
    - destruct (pv_calls (run os) !! n) as [[c p]|] eqn:En; [|done]. destruct (wants p) as [[l md]|] eqn:Ew; [|done]. destruct (available _ _ _ _) eqn:Ea; [|done].
      destruct (b_pend _ _ (basic_run os Hf) n c p En) as [_ Hx]. destruct (advance_ok os n now g1 g2 c p (pv_maps (run os)) (λ x Hin, proj2 (Hx x Hin)) (IH1 n c p En) IH2) as [A1 A2].
      cbn [o_step] in Hgr. rewrite En, Ew, Ea in Hgr. destruct (advance n now g1 g2 p (pv_maps (run os))) as [m' p']. cbn [fst snd] in *. split; [|done]. cbn.
      intros k c' q [[-> [= -> ->]]|[Hk Hl]]%lookup_insert_calls; [done|]. eapply okc_mono; [exact Hgr|]. auto.
  Qed.
  Lemma checks_spec q a t : checks s256 q a t = None → t <= a_exp a ∧ q_client q = Some (a_client a) ∧ q_redirect q = Some (a_redirect a) ∧ pkce_ok s256 (a_challenge a) (a_method a) (q_verifier q).
  Proof.
    unfold checks. destruct (a_exp a <? t) eqn:E; [done|]. destruct (q_client q) as [c|]; [|done]. destruct (decide (a_client a = c)) as [->|]; [|done].
    destruct (q_redirect q) as [r|]; [|done]. destruct (decide (a_redirect a = r)) as [->|]; [|done]. intros H. split; [lia|]. split; [done|]. split; [done|].
    unfold pkce_ok. destruct (a_challenge a) as [ch|]; [|done]. destruct (q_verifier q) as [v|]; [|done]. exists v. split; [done|]. unfold verify_pkce in H.
    destruct (a_method a) as [me|] eqn:Em; cbn [default id] in H.
    - destruct (decide (me = lit "plain")) as [->|]; [left; split; [by right|]; destruct (bool_decide (v = ch)) eqn:Eb; [by apply bool_decide_eq_true in Eb|done]|].
      destruct (decide (me = lit "S256")) as [->|]; [right; split; [done|]; destruct (bool_decide (s256 v = ch)) eqn:Eb; [by apply bool_decide_eq_true in Eb|done]|done].
    - left. split; [by left|]. destruct (decide _) as [_|]; [|done]. destruct (bool_decide (v = ch)) eqn:Eb; [by apply bool_decide_eq_true in Eb|done].
  Qed.
  Lemma taken_unique (l : list (nat * text * Z)) n1 n2 c t1 t2 : NoDup l.*1.*2 → (n1, c, t1) ∈ l → (n2, c, t2) ∈ l → n1 = n2 ∧ t1 = t2.
  Proof.
    induction l as [|[[n c'] t] l IH]; intros Hn H1 H2; [by apply elem_of_nil in H1|]. cbn in Hn. apply NoDup_cons in Hn as [Hx Hn].
    assert (∀ n t, (n, c, t) ∈ l → c ∈ l.*1.*2) as W. { intros n' t' H. by apply (elem_of_list_fmap_1 fst), (elem_of_list_fmap_1 snd) in H. }
    apply elem_of_cons in H1 as [H1|H1]; apply elem_of_cons in H2 as [H2|H2]; simplify_eq; [done|exfalso; apply Hx; eauto..|auto].
  Qed.

  (** ** Following one call *)
  Lemma step_calls s o n c p : pv_calls s !! n = Some (c, p) →
    pv_calls (step s o) !! n = Some (c, p) ∨
    ∃ now g1 g2, o = ORun n now g1 g2 ∧ pv_maps (step s o) = (advance n now g1 g2 p (pv_maps s)).1 ∧ pv_calls (step s o) !! n = Some (c, (advance n now g1 g2 p (pv_maps s)).2).
  Proof.
    intros Hn. destruct o as [c' g1 g2 now|k now g1 g2]; cbn [o_step].
    - left. cbn. by apply lookup_app_l_Some.
    - destruct (decide (k = n)) as [->|Hk].
      + rewrite Hn. destruct (wants p) as [[l md]|]; [|by left]. destruct (available _ _ _ _); [|by left]. right. exists now, g1, g2. split; [done|].
        destruct (advance n now g1 g2 p (pv_maps s)) as [m' p']. cbn. split; [done|]. rewrite list_lookup_insert; [done|]. by apply lookup_lt_Some in Hn.
      + left. destruct (pv_calls s !! k) as [[c' p']|]; [|done]. destruct (wants p') as [[l md]|]; [|done]. destruct (available _ _ _ _); [|done].
        destruct (advance k now g1 g2 p' (pv_maps s)) as [m' p'']. cbn. by rewrite list_lookup_insert_ne.
  Qed.
  Lemma follow os os' c h1 h2 at0 (P : maps → pc → Prop) : fresh_gens (os ++ OStart c h1 h2 at0 :: os') → P (pv_maps (run os)) (begin c h1 h2 at0) →
    (∀ m m' p, grows m m' → P m p → P m' p) →
    (∀ os1 n now g1 g2 p, fresh_gens os1 → okc os1 (pv_maps (run os1)) n c p → P (pv_maps (run os1)) p → let a := advance n now g1 g2 p (pv_maps (run os1)) in grows (pv_maps (run os1)) a.1 → P a.1 a.2) →
    ∃ p, pv_calls (run (os ++ OStart c h1 h2 at0 :: os')) !! length (pv_calls (run os)) = Some (c, p) ∧ P (pv_maps (run (os ++ OStart c h1 h2 at0 :: os'))) p.
  Proof.
    intros Hf HP Hgrow Hadv. induction os' as [|o os' IH] using rev_ind.
    - rewrite run_snoc. cbn. eexists. split; [|exact HP]. by rewrite lookup_app_r, Nat.sub_diag.
    - assert (os ++ OStart c h1 h2 at0 :: os' ++ [o] = (os ++ OStart c h1 h2 at0 :: os') ++ [o]) as E by (by rewrite <- app_assoc). rewrite E in Hf |- *.
      pose proof (fresh_app _ _ Hf) as Hf'. destruct (IH Hf') as (p & Hp & HPp). rewrite run_snoc. set (os1 := os ++ OStart c h1 h2 at0 :: os') in *. set (n := length (pv_calls (run os))) in *.
      pose proof (step_grows os1 o Hf') as Hg. destruct (step_calls (run os1) o n c p Hp) as [H|(now & g1 & g2 & -> & Hm & H)].
      + exists p. split; [done|]. by eapply Hgrow.
      + eexists. split; [exact H|]. rewrite Hm in *. apply (Hadv os1 n now g1 g2 p Hf'); [|done|done]. by apply full_run.
  Qed.
  Lemma revoke_follow os os' t h1 h2 at0 : fresh_gens (os ++ OStart (CRevoke t) h1 h2 at0 :: os') → is_Some (m_born (pv_maps (run os)) !! t) →
    ∃ p, pv_calls (run (os ++ OStart (CRevoke t) h1 h2 at0 :: os')) !! length (pv_calls (run os)) = Some (CRevoke t, p) ∧ (p = PRevoke t ∨ gone (pv_maps (run (os ++ OStart (CRevoke t) h1 h2 at0 :: os'))) t).
  Proof.
    intros Hf Hb. destruct (follow os os' (CRevoke t) h1 h2 at0 (λ m p, is_Some (m_born m !! t) ∧ (p = PRevoke t ∨ gone m t)) Hf) as (p & H1 & _ & H2); [by split; [|left]| | |by exists p].
    - intros m m' p Hg [[i H1] H2]. split; [exists i; eapply lookup_weaken; [done|apply Hg]|]. destruct H2 as [->|H2]; [by left|right; by apply Hg].
    - intros os1 n now g1 g2 p Hf1 Hok [[i H1] [->|H2]] a Hg; (split; [exists i; eapply lookup_weaken; [done|apply Hg]|]); right; [|by apply Hg].
      subst a. destruct (pv_maps (run os1)) as [co to re is bo pa ta]. cbn [OAuthModel.advance] in *. destruct (to !! t) eqn:E; cbn in *; split; cbn; try done; try (by rewrite H1). apply lookup_delete.
  Qed.
  Lemma validate_follow os os' t h1 h2 at0 : fresh_gens (os ++ OStart (CValidate t) h1 h2 at0 :: os') → gone (pv_maps (run os)) t →
    ∃ p, pv_calls (run (os ++ OStart (CValidate t) h1 h2 at0 :: os')) !! length (pv_calls (run os)) = Some (CValidate t, p) ∧ (p = PValidate t ∨ ∃ e, p = PDone (RErr e)).
  Proof.
    intros Hf Hb. destruct (follow os os' (CValidate t) h1 h2 at0 (λ m p, gone m t ∧ (p = PValidate t ∨ ∃ e, p = PDone (RErr e))) Hf) as (p & H1 & _ & H2); [by split; [|left]| | |by exists p].
    - intros m m' p Hg [H1 H2]. split; [by apply Hg|done].
    - intros os1 n now g1 g2 p Hf1 Hok [H1 H2] a Hg; (split; [by apply Hg|]). subst a. destruct (pv_maps (run os1)) as [co to re is bo pa ta]. destruct H2 as [->|[e ->]]; cbn [OAuthModel.advance] in *; [|by right; eexists].
      destruct H1 as [_ H1]. cbn in H1. rewrite H1. right. by eexists.
  Qed.
  Lemma refresh_follow os os' rt t h1 h2 at0 : fresh_gens (os ++ OStart (CRefresh rt) h1 h2 at0 :: os') → m_paired (pv_maps (run os)) !! rt = Some t → gone (pv_maps (run os)) t →
    ∃ p, pv_calls (run (os ++ OStart (CRefresh rt) h1 h2 at0 :: os')) !! length (pv_calls (run os)) = Some (CRefresh rt, p) ∧ (p = PRefresh rt ∨ p = PRefresh2 rt t ∨ ∃ e, p = PDone (RErr e)).
  Proof.
    intros Hf Hp Hb. destruct (follow os os' (CRefresh rt) h1 h2 at0 (λ m p, m_paired m !! rt = Some t ∧ gone m t ∧ (p = PRefresh rt ∨ p = PRefresh2 rt t ∨ ∃ e, p = PDone (RErr e))) Hf) as (p & H1 & _ & _ & H2); [by split; [|split; [|left]]| | |by exists p].
    - intros m m' p Hg (H1 & H2 & H3). split; [eapply lookup_weaken; [done|apply Hg]|]. split; [by apply Hg|done].
    - intros os1 n now g1 g2 p Hf1 Hok (H1 & H2 & H3) a Hg. split; [eapply lookup_weaken; [done|apply Hg]|]. split; [by apply Hg|]. subst a. destruct (full_run os1 Hf1) as [_ (_ & _ & _ & M4 & _)]. destruct (pv_maps (run os1)) as [co to re is bo pa ta]. 
      cbn in M4, H1. destruct H2 as [_ H2]. cbn in H2. destruct H3 as [->|[->|[e ->]]]; cbn [OAuthModel.advance] in *; [| |by right; right; eexists].
      + destruct (re !! rt) as [old|] eqn:E; [|right; right; by eexists]. pose proof (lookup_weaken _ _ _ _ E M4). simplify_eq. right. by left.
      + rewrite H2. right. right. by eexists.
  Qed.
  Lemma used_follow os os' rt h1 h2 at0 : fresh_gens (os ++ OStart (CRefresh rt) h1 h2 at0 :: os') → dead (pv_maps (run os)) rt →
    ∃ p, pv_calls (run (os ++ OStart (CRefresh rt) h1 h2 at0 :: os')) !! length (pv_calls (run os)) = Some (CRefresh rt, p) ∧ (p = PRefresh rt ∨ ∃ e, p = PDone (RErr e)).
  Proof.
    intros Hf Hd. destruct (follow os os' (CRefresh rt) h1 h2 at0 (λ m p, dead m rt ∧ (p = PRefresh rt ∨ ∃ e, p = PDone (RErr e))) Hf) as (p & H1 & _ & H2); [by split; [|left]| | |by exists p].
    - intros m m' p Hg [H1 H2]. split; [by apply Hg|done].
    - intros os1 n now g1 g2 p Hf1 Hok [H1 H2] a Hg; (split; [by apply Hg|]). subst a. destruct (pv_maps (run os1)) as [co to re is bo pa ta]. destruct H2 as [->|[e ->]]; cbn [OAuthModel.advance] in *; [|by right; eexists].
      destruct H1 as [_ H1]. cbn in H1. rewrite H1. right. by eexists.
  Qed.
  Lemma token_born os n c tok rt sc : fresh_gens os → returned (run os) n c (RToken tok rt sc) → is_Some (m_born (pv_maps (run os)) !! tok) ∧ m_paired (pv_maps (run os)) !! rt = Some tok.
  Proof. intros Hf Hr. destruct (full_run os Hf) as [H _]. specialize (H _ _ _ Hr). cbn in H. destruct H as (i & _ & H1 & H2 & _). split; [by eexists|done]. Qed.

  (** ** Deadlock *)
  Lemma available_false (cs : list (call * pc)) n k x h l m : k ≠ n → cs !! k = Some x → h ∈ holds x.2 → conflicts l m h = true → available cs n l m = false.
  Proof.
    intros Hk Hx Hh Hc. apply not_true_is_false. unfold available. rewrite forallb_forall. intros H.
    assert (x ∈ delete n cs) as Hin.
    { destruct (decide (k < n)%nat) as [Hlt|Hge].
      - apply elem_of_list_lookup. exists k. by rewrite lookup_delete_lt.
      - apply elem_of_list_lookup. exists (k - 1)%nat. rewrite lookup_delete_ge by lia. by replace (S (k - 1)) with k by lia. }
    apply elem_of_list_In in Hin. specialize (H x Hin). rewrite forallb_forall in H. apply elem_of_list_In in Hh. specialize (H h Hh). by rewrite Hc in H.
  Qed.
  Definition blocked_pair (p1 p2 : pc) : Prop := (∃ b i tok rt, p1 = PCreate2 b i tok rt) ∧ ((∃ rt old, p2 = PRefresh2 rt old) ∨ ∃ a, p2 = PRevoke3 a).
  Lemma blocked_step s o n1 n2 c1 c2 p1 p2 : n1 ≠ n2 → blocked_pair p1 p2 → pv_calls s !! n1 = Some (c1, p1) → pv_calls s !! n2 = Some (c2, p2) →
    pv_calls (step s o) !! n1 = Some (c1, p1) ∧ pv_calls (step s o) !! n2 = Some (c2, p2).
  Proof.
    intros Hn [(b & i & tok & rt & ->) H2] L1 L2. destruct o as [c g1 g2 now|k now g1 g2]; cbn [o_step].
    - cbn. split; by apply lookup_app_l_Some.
    - destruct (decide (k = n1)) as [->|K1]; [|destruct (decide (k = n2)) as [->|K2]].
      + rewrite L1. cbn [wants]. rewrite (available_false _ n1 n2 (c2, p2) (match p2 with PRefresh2 _ _ => (LRefresh, MRead) | _ => (LRefresh, MWrite) end)); [done|done|done| |].
        * destruct H2 as [(r & old & ->)|(a & ->)]; by left.
        * destruct H2 as [(r & old & ->)|(a & ->)]; done.
      + rewrite L2. assert (wants p2 = Some (LTokens, match p2 with PRefresh2 _ _ => MRead | _ => MWrite end)) as -> by (destruct H2 as [(r & old & ->)|(a & ->)]; done).
        rewrite (available_false _ n2 n1 (c1, PCreate2 b i tok rt) (LTokens, MWrite)); [done|done|done| |].
        * cbn. apply elem_of_app. right. by left.
        * destruct H2 as [(r & old & ->)|(a & ->)]; done.
      + destruct (pv_calls s !! k) as [[c' p']|]; [|done]. destruct (wants p') as [[l md]|]; [|done]. destruct (available _ _ _ _); [|done].
        destruct (advance k now g1 g2 p' (pv_maps s)) as [m' p'']. cbn. by rewrite !list_lookup_insert_ne.
  Qed.
  Lemma blocked_run os os' n1 n2 c1 c2 p1 p2 : n1 ≠ n2 → blocked_pair p1 p2 → pv_calls (run os) !! n1 = Some (c1, p1) → pv_calls (run os) !! n2 = Some (c2, p2) →
    pv_calls (run (os ++ os')) !! n1 = Some (c1, p1) ∧ pv_calls (run (os ++ os')) !! n2 = Some (c2, p2).
  Proof.
    intros Hn Hb L1 L2. induction os' as [|o os' IH] using rev_ind; [by rewrite app_nil_r|]. rewrite app_assoc, run_snoc. destruct IH. by apply blocked_step.
  Qed.
  (** Two new calls after a quiet state *)
  Lemma available_two L x y l m : Forall (λ z : call * pc, ∃ r, z.2 = PDone r) L →
    available (L ++ [x; y]) (length L) l m = forallb (λ h, negb (conflicts l m h)) (holds y.2) ∧
    available (L ++ [x; y]) (S (length L)) l m = forallb (λ h, negb (conflicts l m h)) (holds x.2).
  Proof.
    intros HL. assert (forallb (λ x, forallb (λ h, negb (conflicts l m h)) (holds x.2)) L = true) as W.
    { apply forallb_forall. intros [c p] Hin%elem_of_list_In. rewrite Forall_forall in HL. destruct (HL _ Hin) as [r Hr]. cbn in *. by subst. }
    unfold available. split.
    - rewrite delete_middle, forallb_app, W. cbn. by rewrite andb_true_r.
    - change (L ++ [x; y]) with (L ++ [x] ++ [y]). rewrite app_assoc. replace (S (length L)) with (length (L ++ [x])) by (rewrite app_length; cbn; lia). rewrite delete_middle, !forallb_app, W. cbn. by rewrite !andb_true_r.
  Qed.
  Lemma step_first L c1 p1 y mp l m now g1 g2 : Forall (λ z : call * pc, ∃ r, z.2 = PDone r) L → wants p1 = Some (l, m) → forallb (λ h, negb (conflicts l m h)) (holds y.2) = true →
    step (MkProvider mp (L ++ [(c1, p1); y])) (ORun (length L) now g1 g2) = let '(mp', p') := advance (length L) now g1 g2 p1 mp in MkProvider mp' (L ++ [(c1, p'); y]).
  Proof.
    intros HL Hw Ha. cbn [o_step pv_calls pv_maps]. rewrite list_lookup_middle by done. rewrite Hw. destruct (available_two L (c1, p1) y l m HL) as [-> _]. rewrite Ha. destruct (advance _ _ _ _ _ _) as [mp' p'].
    f_equal. pose proof (insert_app_r L [(c1, p1); y] 0 (c1, p')) as H. rewrite Nat.add_0_r in H. exact H.
  Qed.
  Lemma step_second L x c2 p2 mp l m now g1 g2 : Forall (λ z : call * pc, ∃ r, z.2 = PDone r) L → wants p2 = Some (l, m) → forallb (λ h, negb (conflicts l m h)) (holds x.2) = true →
    step (MkProvider mp (L ++ [x; (c2, p2)])) (ORun (S (length L)) now g1 g2) = let '(mp', p') := advance (S (length L)) now g1 g2 p2 mp in MkProvider mp' (L ++ [x; (c2, p')]).
  Proof.
    intros HL Hw Ha. cbn [o_step pv_calls pv_maps]. assert ((L ++ [x; (c2, p2)]) !! S (length L) = Some (c2, p2)) as ->. { rewrite lookup_app_r by lia. by replace (S (length L) - length L)%nat with 1%nat by lia. }
    rewrite Hw. destruct (available_two L x (c2, p2) l m HL) as [_ ->]. rewrite Ha. destruct (advance _ _ _ _ _ _) as [mp' p'].
    f_equal. pose proof (insert_app_r L [x; (c2, p2)] 1 (c2, p')) as H. rewrite Nat.add_1_r in H. exact H.
  Qed.

  (** ** Calls that only grant *)
  Definition rank (p : pc) : nat :=
    match p with
    | PCode _ _ => 1 | PExchange _ _ => 3 | PCreate _ _ _ _ => 2 | PCreate2 _ _ _ _ => 1 | PRefresh _ => 6 | PRefresh2 _ _ => 5 | PRefresh3 _ _ _ => 4 | PRefresh4 _ _ => 3
    | PRevoke _ => 3 | PRevoke2 _ => 2 | PRevoke3 _ => 1 | PValidate _ => 1 | PDone _ => 0
    end%nat.
  Definition work (s : provider) : nat := sum_list_with (λ x, rank x.2) (pv_calls s).
  Lemma advance_rank n now g1 g2 p m : wants p ≠ None → (rank (advance n now g1 g2 p m).2 < rank p)%nat.
  Proof.
    destruct m as [co to re is bo pa ta]. destruct p as [code a|q code|b i tok rt|b i tok rt|rt|rt old|rt old i|rt i|t|t|a|t|r]; cbn [OAuthModel.advance wants]; intros H; cbn; try lia; try done.
    - destruct (co !! code); [|cbn; lia]. destruct (checks _ _ _ _); cbn; lia.
    - destruct (re !! rt); cbn; lia.
    - destruct (to !! old); cbn; lia.
    - destruct (to !! t); cbn; lia.
    - destruct (re !! t); cbn; lia.
    - destruct (to !! t); [destruct (_ <? _)|]; cbn; lia.
  Qed.
  Lemma sum_insert (l : list (call * pc)) n c p p' : l !! n = Some (c, p) → (rank p' < rank p)%nat → (sum_list_with (λ x, rank x.2) (<[n := (c, p')]> l) < sum_list_with (λ x, rank x.2) l)%nat.
  Proof. revert n. induction l as [|y l IH]; intros [|n]; cbn; [done|done|intros [= ->] H2; by apply Nat.add_lt_mono_r|]. intros H1 H2. specialize (IH n H1 H2). by apply Nat.add_lt_mono_l. Qed.
  Lemma work_step s n now g1 g2 : step s (ORun n now g1 g2) = s ∨ (work (step s (ORun n now g1 g2)) < work s)%nat.
  Proof.
    cbn [o_step]. destruct (pv_calls s !! n) as [[c p]|] eqn:En; [|by left]. destruct (wants p) as [[l md]|] eqn:Ew; [|by left]. destruct (available _ _ _ _); [|by left]. right.
    pose proof (advance_rank n now g1 g2 p (pv_maps s)) as H. destruct (advance n now g1 g2 p (pv_maps s)) as [m' p']. unfold work. cbn. apply (sum_insert _ _ _ p); [done|]. apply H. by rewrite Ew.
  Qed.
  Definition granting (p : pc) : Prop := match p with PCode _ _ | PExchange _ _ | PCreate _ _ _ _ | PCreate2 _ _ _ _ | PValidate _ | PDone _ => True | _ => False end.
  Lemma granting_run os : Forall (λ o, match o with OStart c _ _ _ => grants_only c | ORun _ _ _ _ => True end) os → Forall (λ x, granting x.2) (pv_calls (run os)).
  Proof.
    induction os as [|o os IH] using rev_ind; [constructor|]. intros [Ho Hx]%Forall_app. rewrite Forall_singleton in Hx. specialize (IH Ho). rewrite run_snoc. destruct o as [c g1 g2 now|n now g1 g2]; cbn [o_step].
    - cbn. rewrite Forall_app, Forall_singleton. split; [done|]. destruct c; try done. cbn. destruct (q_grant q); try done. by destruct (q_code q).
    - destruct (pv_calls (run os) !! n) as [[c p]|] eqn:En; [|done]. destruct (wants p) as [[l md]|]; [|done]. destruct (available _ _ _ _); [|done].
      pose proof (proj1 (Forall_lookup _ _) IH _ _ En) as Hp. cbn in Hp. assert (granting (advance n now g1 g2 p (pv_maps (run os))).2) as H.
      { destruct (pv_maps (run os)) as [co to re is bo pa ta]. destruct p; try done; cbn [OAuthModel.advance].
        - destruct (co !! code); [|done]. by destruct (checks _ _ _ _).
        - destruct (to !! t); [by destruct (_ <? _)|done]. }
      destruct (advance n now g1 g2 p (pv_maps (run os))) as [m' p']. cbn. by apply Forall_insert.
  Qed.
  Lemma available_true (cs : list (call * pc)) n l m : (∀ x h, x ∈ cs → h ∈ holds x.2 → conflicts l m h = false) → available cs n l m = true.
  Proof.
    intros H. apply forallb_forall. intros x Hx%elem_of_list_In. apply forallb_forall. intros h Hh%elem_of_list_In. rewrite (H x h); [done| |done]. 
    apply elem_of_list_lookup in Hx as [k Hk]. apply elem_of_list_lookup. destruct (decide (k < n)%nat); [exists k; by rewrite lookup_delete_lt in Hk|exists (S k); by rewrite lookup_delete_ge in Hk by lia].
  Qed.
  Lemma exists_or (cs : list (call * pc)) (f : pc → bool) : (∃ n c p, cs !! n = Some (c, p) ∧ f p = true) ∨ (∀ c p, (c, p) ∈ cs → f p = false).
  Proof.
    induction cs as [|[c p] cs IH]; [right; by intros ? ? ?%elem_of_nil|]. destruct (f p) eqn:E; [left; by exists 0%nat, c, p|]. destruct IH as [(n & c' & p' & H1 & H2)|IH]; [left; by exists (S n), c', p'|].
    right. intros c' p' [[= -> ->]|H]%elem_of_cons; [done|by eapply IH].
  Qed.
  Lemma progress s : Forall (λ x, granting x.2) (pv_calls s) → quiet s ∨ ∃ n, ∀ now g1 g2, (work (step s (ORun n now g1 g2)) < work s)%nat.
  Proof.
    intros Hg. rewrite Forall_forall in Hg. set (cs := pv_calls s) in *.
    assert (∀ n c p l m, cs !! n = Some (c, p) → wants p = Some (l, m) → available cs n l m = true → ∃ n, ∀ now g1 g2, (work (step s (ORun n now g1 g2)) < work s)%nat) as W.
    { intros n c p l m Hn Hw Ha. exists n. intros now g1 g2. cbn [o_step]. fold cs. rewrite Hn, Hw, Ha. pose proof (advance_rank n now g1 g2 p (pv_maps s)) as H.
      destruct (advance n now g1 g2 p (pv_maps s)) as [m' p']. unfold work. cbn. apply (sum_insert _ _ _ p); [done|]. apply H. by rewrite Hw. }
    destruct (exists_or cs (λ p, match p with PCreate2 _ _ _ _ => true | _ => false end)) as [(n & c & p & Hn & Hp)|N2].
    { right. destruct p; try done. apply (W _ _ _ _ _ Hn eq_refl). apply available_true. intros x h Hx Hh. specialize (Hg x Hx). destruct x as [c' []]; try done; cbn in *; try (by apply elem_of_nil in Hh).
      - destruct codes0; [|by apply elem_of_nil in Hh]. by apply elem_of_list_singleton in Hh as ->.
      - apply elem_of_app in Hh as [Hh|Hh]; [destruct codes0; [|by apply elem_of_nil in Hh]|]; by apply elem_of_list_singleton in Hh as ->. }
    destruct (exists_or cs (λ p, match p with PCreate _ _ _ _ => true | _ => false end)) as [(n & c & p & Hn & Hp)|N1].
    { right. destruct p; try done. apply (W _ _ _ _ _ Hn eq_refl). apply available_true. intros x h Hx Hh. specialize (Hg x Hx). destruct x as [c' []]; try done; cbn in *; try (by apply elem_of_nil in Hh).
      - destruct codes0; [|by apply elem_of_nil in Hh]. by apply elem_of_list_singleton in Hh as ->.
      - by specialize (N2 _ _ Hx). }
    assert (∀ x h, x ∈ cs → h ∈ holds x.2 → False) as N.
    { intros x h Hx Hh. specialize (Hg x Hx). destruct x as [c' []]; try done; cbn in *; try (by apply elem_of_nil in Hh); [by specialize (N1 _ _ Hx)|by specialize (N2 _ _ Hx)]. }
    destruct (exists_or cs (λ p, match p with PDone _ => false | _ => true end)) as [(n & c & p & Hn & Hp)|N0].
    - right. destruct (wants p) as [[l m]|] eqn:Ew; [|by destruct p]. apply (W _ _ _ _ _ Hn Ew). apply available_true. intros x h Hx Hh. by destruct (N x h Hx Hh).
    - left. apply Forall_forall. intros [c p] Hx. specialize (N0 _ _ Hx). destruct p; try done. by eexists.
  Qed.

  (** ** Clocks *)
  Definition timed (os : list oop) (i : tinfo) : Prop := ∃ o, o ∈ os ∧ i_exp i = clock o + 3600.
  Definition clock_ok (os : list oop) (n : nat) (p : pc) : Prop :=
    match p with
    | PCreate _ i _ _ | PCreate2 _ i _ _ => timed os i
    | PDone (RInfo i) => ∃ os1 t g1 g2 os2, os = os1 ++ ORun n t g1 g2 :: os2 ∧ (n < length (pv_calls (run os1)))%nat ∧ t <= i_exp i
    | _ => True
    end.
  Lemma timed_mono os o i : timed os i → timed (os ++ [o]) i.
  Proof. intros (x & H1 & H2). exists x. split; [|done]. apply elem_of_app. by left. Qed.
  Lemma timed_last os o i : i_exp i = clock o + 3600 → timed (os ++ [o]) i.
  Proof. intros H. exists o. split; [|done]. apply elem_of_app. right. by left. Qed.
  Lemma clock_ok_mono os o n p : clock_ok os n p → clock_ok (os ++ [o]) n p.
  Proof.
    destruct p as [| | | | | | | | | | | |r]; cbn; try apply timed_mono; try done. destruct r; try done. intros (os1 & t & g1 & g2 & os2 & -> & H). exists os1, t, g1, g2, (os2 ++ [o]). split; [|done]. by rewrite <- app_assoc.
  Qed.
  Lemma clocks_run os : (∀ t i, m_born (pv_maps (run os)) !! t = Some i → timed os i) ∧ (∀ n c p, pv_calls (run os) !! n = Some (c, p) → clock_ok os n p).
  Proof.
    induction os as [|o os [IH1 IH2]] using rev_ind; [split; [by intros ? ?|by intros []]|]. rewrite run_snoc.
    assert (∀ t i, m_born (pv_maps (run os)) !! t = Some i → timed (os ++ [o]) i) as IH1' by (intros; apply timed_mono; eauto).
    assert (∀ n c p, pv_calls (run os) !! n = Some (c, p) → clock_ok (os ++ [o]) n p) as IH2' by (intros; apply clock_ok_mono; eauto).
    destruct o as [c g1 g2 now|n now g1 g2]; cbn [o_step].
    - split; [done|]. cbn. intros k c' p' [H|[Hk H]]%lookup_app_Some; [by eapply IH2'|]. destruct (k - _)%nat; [|done]. cbn in H. simplify_eq. 
      destruct c' as [cl u r sc ch me|q|cl u sc|rt|t|t]; cbn; try done; [destruct (q_grant q); try done; by destruct (q_code q)|]. by apply timed_last.
    - destruct (pv_calls (run os) !! n) as [[c p]|] eqn:En; [|done]. destruct (wants p) as [[l md]|] eqn:Ew; [|done]. destruct (available _ _ _ _); [|done].
      assert ((∀ t i, m_born (advance n now g1 g2 p (pv_maps (run os))).1 !! t = Some i → timed (os ++ [ORun n now g1 g2]) i) ∧ clock_ok (os ++ [ORun n now g1 g2]) n (advance n now g1 g2 p (pv_maps (run os))).2) as [H1 H2].
      { assert (length (pv_calls (run os)) > n)%nat as Hlen by (apply lookup_lt_Some in En; lia). assert (clock_ok (os ++ [ORun n now g1 g2]) n p) as Hp by (by eapply IH2'). clear -IH1' Hlen Hp Ew.
        destruct (pv_maps (run os)) as [co to re is bo pa ta]. cbn [m_born] in IH1'.
        destruct p as [code a|q code|b i tok rt|b i tok rt|rt|rt old|rt old i|rt i|t|t|a|t|r]; cbn [OAuthModel.advance]; try done.
        - destruct (co !! code); [|done]. destruct (checks _ _ _ _); [done|]. split; [done|]. cbn. by apply timed_last.
        - split; [|done]. cbn. intros t j. destruct (decide (t = tok)) as [->|Hne]; [rewrite lookup_insert; by intros [= <-]|rewrite lookup_insert_ne by done; apply IH1'].
        - destruct (re !! rt); done.
        - destruct (to !! old); done.
        - split; [done|]. by apply timed_last.
        - destruct (to !! t); done.
        - destruct (re !! t); done.
        - destruct (to !! t) as [i|]; [|done]. destruct (i_exp i <? now) eqn:E; [done|]. split; [done|]. cbn. exists os, now, g1, g2, []. split; [done|]. split; [lia|lia]. }
      destruct (advance n now g1 g2 p (pv_maps (run os))) as [m' p']. cbn [fst snd] in H1, H2. split; [done|]. cbn. intros k c' p'' [[-> H]|[Hk H]]%lookup_insert_calls; [by simplify_eq|by eapply IH2'].
  Qed.
  Lemma calls_grow os os' : (length (pv_calls (run os)) <= length (pv_calls (run (os ++ os'))))%nat.
  Proof.
    induction os' as [|o os' IH] using rev_ind; [by rewrite app_nil_r|]. rewrite app_assoc, run_snoc. etrans; [exact IH|]. destruct o as [c g1 g2 now|n now g1 g2]; cbn [o_step]; [cbn; rewrite app_length; lia|].
    destruct (pv_calls _ !! n) as [[c p]|]; [|done]. destruct (wants p) as [[l md]|]; [|done]. destruct (available _ _ _ _); [|done]. destruct (advance n now g1 g2 p _) as [m' p']. cbn. by rewrite insert_length.
  Qed.
  Lemma expired os os' k c t rt sc T h1 h2 at0 i : fresh_gens (os ++ OStart (CValidate t) h1 h2 at0 :: os') → returned (run os) k c (RToken t rt sc) → (∀ o, o ∈ os → clock o <= T) →
    returned (run (os ++ OStart (CValidate t) h1 h2 at0 :: os')) (length (pv_calls (run os))) (CValidate t) (RInfo i) →
    ∃ now g1 g2, ORun (length (pv_calls (run os))) now g1 g2 ∈ os' ∧ now <= T + 3600.
  Proof.
    intros Hf Hk HT Hr. pose proof (fresh_app _ _ Hf) as Hf0. destruct (token_born os k c t rt sc Hf0 Hk) as [[j Hj] _]. set (all := os ++ OStart (CValidate t) h1 h2 at0 :: os') in *.
    destruct (proj1 (clocks_run os) _ _ Hj) as (o & Ho & Ee). specialize (HT o Ho).
    assert (m_born (pv_maps (run all)) !! t = Some j) as Hj' by (eapply lookup_weaken; [exact Hj|apply g_born, run_grows, Hf]).
    pose proof (proj1 (full_run all Hf) _ _ _ Hr) as Hok. cbn in Hok. destruct Hok as (t' & [= <-] & Hi). rewrite Hj' in Hi. simplify_eq.
    pose proof (proj2 (clocks_run all) _ _ _ Hr) as Hc. cbn in Hc. destruct Hc as (os1 & now & g1 & g2 & os2 & E & Hlt & Hle). exists now, g1, g2. split; [|lia].
    assert (length os < length os1)%nat as Hlen.
    { destruct (decide (length os < length os1)%nat) as [|Hn]; [done|]. exfalso. assert (∃ x, os = os1 ++ x) as [x ->].
      { exists (drop (length os1) os). assert (take (length os1) os = os1) as <-; [|rewrite take_length, Nat.min_l by lia; by rewrite take_drop].
        assert (take (length os1) all = take (length os1) os) as <- by (unfold all; by rewrite take_app_le by lia). rewrite E. by rewrite take_app. }
      pose proof (calls_grow os1 x). lia. }
    assert (all !! length os1 = Some (ORun (length (pv_calls (run os))) now g1 g2)) as Hl by (rewrite E; by apply list_lookup_middle).
    unfold all in Hl. rewrite lookup_app_r in Hl by lia. destruct (length os1 - length os)%nat as [|d] eqn:Ed; [lia|]. cbn in Hl. by apply elem_of_list_lookup_2 in Hl.
  Qed.

  (** ** Access tokens and refresh tokens are different *)
  Lemma disjoint_run os : fresh_gens os → ∀ x, is_Some (m_paired (pv_maps (run os)) !! x) → m_born (pv_maps (run os)) !! x = None.
  Proof.
    induction os as [|o os IH] using rev_ind; [intros _ x; cbn; rewrite lookup_empty; by intros []|]. intros Hf. pose proof (fresh_app _ _ Hf) as Hf'. specialize (IH Hf'). destruct (basic_run os Hf') as [_ Bp _]. rewrite run_snoc.
    destruct o as [c g1 g2 now|n now g1 g2]; cbn [o_step]; [done|].
    destruct (pv_calls (run os) !! n) as [[c p]|] eqn:En; [|done]. destruct (wants p) as [[l md]|]; [|done]. destruct (available _ _ _ _); [|done]. destruct (Bp n c p En) as [_ Hx].
    destruct (pv_maps (run os)) as [co to re is bo pa ta]. cbn [m_born m_paired] in *.
    destruct p as [code a|q code|b i tok rt|b i tok rt|rt|rt old|rt old i|rt i|t|t|a|t|r]; cbn [OAuthModel.advance]; cbn; try done.
    - destruct (co !! code); [|done]. by destruct (checks _ _ _ _).
    - intros x Hpx. rewrite lookup_insert_ne; [by apply IH|]. intros ->. destruct (Hx x) as [_ Hu]; [by left|]. apply Hu. right. by right.
    - intros x. rewrite insert_some. intros [->|Hpx]; [|by apply IH]. destruct (Hx rt) as [_ Hu]; [by left|]. destruct (bo !! rt) eqn:E; [|done]. exfalso. apply Hu. right. left. cbn. by rewrite E.
    - by destruct (re !! rt).
    - by destruct (to !! old).
    - by destruct (to !! t).
    - by destruct (re !! t).
    - destruct (to !! t) as [i|]; [|done]. by destruct (_ <? _).
  Qed.
  Lemma revoke_refresh_follow os os' rt h1 h2 at0 : fresh_gens (os ++ OStart (CRevoke rt) h1 h2 at0 :: os') → is_Some (m_paired (pv_maps (run os)) !! rt) →
    ∃ p, pv_calls (run (os ++ OStart (CRevoke rt) h1 h2 at0 :: os')) !! length (pv_calls (run os)) = Some (CRevoke rt, p) ∧ (p = PRevoke rt ∨ p = PRevoke2 rt ∨ dead (pv_maps (run (os ++ OStart (CRevoke rt) h1 h2 at0 :: os'))) rt).
  Proof.
    intros Hf Hb. destruct (follow os os' (CRevoke rt) h1 h2 at0 (λ m p, is_Some (m_paired m !! rt) ∧ (p = PRevoke rt ∨ p = PRevoke2 rt ∨ dead m rt)) Hf) as (p & H1 & _ & H2); [by split; [|left]| | |by exists p].
    - intros m m' p Hg [[i H1] H2]. split; [exists i; eapply lookup_weaken; [done|apply Hg]|]. destruct H2 as [->|[->|H2]]; [by left|by right; left|right; right; by apply Hg].
    - intros os1 n now g1 g2 p Hf1 Hok [[i H1] H2] a Hg; (split; [exists i; eapply lookup_weaken; [done|apply Hg]|]). destruct H2 as [->|[->|H2]]; [| |right; right; by apply Hg].
      + pose proof (disjoint_run os1 Hf1 rt (ex_intro _ _ H1)) as Hn. destruct (full_run os1 Hf1) as [_ (_ & _ & M3 & _)]. subst a. destruct (pv_maps (run os1)) as [co to re is bo pa ta]. cbn [OAuthModel.advance m_tokens m_born] in *.
        destruct (to !! rt) as [x|] eqn:E; [|right; by left]. exfalso. pose proof (lookup_weaken _ _ _ _ E M3). congruence.
      + right. right. subst a. destruct (pv_maps (run os1)) as [co to re is bo pa ta]. cbn [OAuthModel.advance] in *. destruct (re !! rt) eqn:E; cbn in *; split; cbn; try done; try (by rewrite H1). apply lookup_delete.
  Qed.

  (** ** Client secrets *)
  Definition resecret_pc (f : option text → option text) (p : pc) : pc := match p with PExchange q c => PExchange (resecret_req f q) c | _ => p end.
  Definition both (f : option text → option text) (x : call * pc) : call * pc := (resecret_call f x.1, resecret_pc f x.2).
  Lemma holds_resecret f p : holds (resecret_pc f p) = holds p. Proof. by destruct p. Qed.
  Lemma wants_resecret f p : wants (resecret_pc f p) = wants p. Proof. by destruct p. Qed.
  Lemma available_resecret f cs n l m : available (both f <$> cs) n l m = available cs n l m.
  Proof.
    unfold available. revert n. induction cs as [|[c p] cs IH]; intros [|n]; cbn; try done.
    - clear IH. induction cs as [|[c' p'] cs IH]; cbn; [done|]. rewrite holds_resecret. f_equal. apply IH.
    - rewrite holds_resecret. f_equal. apply IH.
  Qed.
  Lemma advance_resecret f n now g1 g2 p m : advance n now g1 g2 (resecret_pc f p) m = ((advance n now g1 g2 p m).1, resecret_pc f (advance n now g1 g2 p m).2).
  Proof.
    destruct m as [co to re is bo pa ta]. destruct p as [code a|q code|b i tok rt|b i tok rt|rt|rt old|rt old i|rt i|t|t|a|t|r]; cbn [OAuthModel.advance resecret_pc]; try done.
    - destruct (co !! code) as [a|]; [|done]. assert (checks s256 (resecret_req f q) a now = checks s256 q a now) as -> by done. by destruct (checks _ _ _ _).
    - by destruct (re !! rt).
    - by destruct (to !! old).
    - by destruct (to !! t).
    - by destruct (re !! t).
    - destruct (to !! t) as [i|]; [|done]. by destruct (_ <? _).
  Qed.
  Lemma begin_resecret f c g1 g2 now : begin (resecret_call f c) g1 g2 now = resecret_pc f (begin c g1 g2 now).
  Proof. destruct c as [cl u r sc ch me|q|cl u sc|rt|t|t]; try done. cbn. destruct (q_grant q); try done. by destruct (q_code q). Qed.
  Lemma run_resecret f os : run (resecret f <$> os) = MkProvider (pv_maps (run os)) (both f <$> pv_calls (run os)).
  Proof.
    induction os as [|o os IH] using rev_ind; [done|]. rewrite fmap_app. cbn [fmap list_fmap]. rewrite !run_snoc, IH. destruct o as [c g1 g2 now|n now g1 g2]; cbn [resecret o_step pv_calls pv_maps].
    - rewrite begin_resecret. f_equal. by rewrite fmap_app.
    - rewrite list_lookup_fmap. destruct (pv_calls (run os) !! n) as [[c p]|]; [|done]. cbn [fmap option_fmap option_map both fst snd]. rewrite wants_resecret. destruct (wants p) as [[l md]|]; [|done]. rewrite available_resecret.
      destruct (available _ _ _ _); [|done]. rewrite advance_resecret. destruct (advance n now g1 g2 p (pv_maps (run os))) as [m' p']. cbn [fst snd pv_maps pv_calls]. f_equal. by rewrite list_fmap_insert.
  Qed.
End oauth.
