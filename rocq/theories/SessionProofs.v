From Coq Require Import ZifyBool.
From stdpp Require Import gmap strings list sets fin_maps.
From Verif Require Import ListLib TextLib WhiteSpec SessionModel SessionSpec.

Section proofs.
Context (M : nat) (T : Z).
Notation exec m o := (sexec M T m o).1.
Notation sruns := (sruns M T).

Lemma sruns_snoc m h o : sruns m (h ++ [o]) = exec (sruns m h) o.
Proof. unfold SessionModel.sruns. by rewrite fold_left_app. Qed.
Lemma sruns_app m h h' : sruns m (h ++ h') = sruns (sruns m h) h'.
Proof. unfold SessionModel.sruns. by rewrite fold_left_app. Qed.

(** *** The session limit *)
(** Ids that get calls in progress will write back. *)
Definition pending_ids (m : smgr) : gset string :=
  list_to_set (omap (λ p : nat * pc, match p.2 with PGet _ id _ => Some id | _ => None end)
                    (map_to_list (calls m))).
Definition is_create (p : pc) : bool := match p with PCreate _ => true | _ => false end.
Definition is_get (p : pc) : bool := match p with PGet _ _ _ => true | _ => false end.
Definition creates (m : smgr) : nat := size (filter (λ p : nat * pc, is_create p.2 = true) (calls m)).
Definition potential (m : smgr) : nat := size (dom (sessions m) ∪ pending_ids m) + creates m.

Lemma elem_of_pending m id : id ∈ pending_ids m ↔ ∃ t v s, calls m !! t = Some (PGet v id s).
Proof.
  unfold pending_ids. rewrite elem_of_list_to_set, elem_of_list_omap. split.
  - intros ([t p] & Hin & Hp). apply elem_of_map_to_list in Hin. simpl in Hp.
    destruct p; try done. injection Hp as [= ->]. eauto.
  - intros (t & v & s & Ht). exists (t, PGet v id s). split; [by apply elem_of_map_to_list|done].
Qed.

Lemma creates_insert m t p : calls m !! t = None →
  creates (MkMgr (sessions m) (<[t := p]> (calls m))) = (if is_create p then 1 else 0) + creates m.
Proof.
  intros Ht. unfold creates. simpl. destruct (is_create p) eqn:E.
  - rewrite map_filter_insert_True by done. rewrite map_size_insert_None; [done|].
    apply map_filter_lookup_None. by left.
  - rewrite map_filter_insert_False by (simpl; congruence). by rewrite delete_notin.
Qed.

Lemma creates_delete ss c t p : c !! t = Some p →
  creates (MkMgr ss (delete t c)) + (if is_create p then 1 else 0) = creates (MkMgr ss c).
Proof.
  intros Ht. unfold creates. simpl.
  rewrite <- (insert_delete c t p Ht) at 2.
  destruct (is_create p) eqn:E.
  - rewrite map_filter_insert_True by done. rewrite map_size_insert_None; [lia|].
    apply map_filter_lookup_None. left. apply lookup_delete.
  - rewrite map_filter_insert_False by (simpl; congruence).
    rewrite (delete_notin (delete t c)); [lia|]. apply lookup_delete.
Qed.

Lemma creates_same_kind ss ss' c t p p' : c !! t = Some p → is_create p = false → is_create p' = false →
  creates (MkMgr ss' (<[t := p']> c)) = creates (MkMgr ss c).
Proof.
  intros Ht Hp Hp'. unfold creates. simpl.
  rewrite map_filter_insert_False by (simpl; congruence).
  pose proof (creates_delete ss c t p Ht) as H. rewrite Hp in H. unfold creates in H. simpl in H. lia.
Qed.

Lemma pending_creates_le m : size (pending_ids m) + creates m ≤ size (calls m).
Proof.
  destruct m as [ss c]. induction c as [|t p c Ht IH] using map_ind.
  - unfold pending_ids, creates. simpl. rewrite map_to_list_empty. simpl.
    rewrite map_filter_empty. done.
  - pose proof (creates_insert (MkMgr ss c) t p Ht) as Hc. simpl in Hc. simpl in *.
    rewrite Hc, map_size_insert_None by done.
    destruct p as [cl|v id s|id s|ids]; simpl in *.
    + assert (pending_ids (MkMgr ss (<[t:=PCreate cl]> c)) ⊆ pending_ids (MkMgr ss c)) as Hsub.
      { intros x. rewrite !elem_of_pending. simpl. intros (t' & v & s & H).
        apply lookup_insert_Some in H as [[? ?]|[? ?]]; [done|eauto]. }
      apply subseteq_size in Hsub. lia.
    + assert (pending_ids (MkMgr ss (<[t:=PGet v id s]> c)) ⊆ {[id]} ∪ pending_ids (MkMgr ss c)) as Hsub.
      { intros x. rewrite elem_of_union, !elem_of_pending. simpl. intros (t' & v' & s' & H).
        apply lookup_insert_Some in H as [[? ?]|[? ?]]; simplify_eq; [set_solver|eauto]. }
      apply subseteq_size in Hsub. rewrite size_union_alt in Hsub.
      assert (size (pending_ids (MkMgr ss c) ∖ {[id]}) ≤ size (pending_ids (MkMgr ss c))) as H2
        by (apply subseteq_size; set_solver).
      rewrite size_singleton in Hsub. lia.
    + assert (pending_ids (MkMgr ss (<[t:=PCheck id s]> c)) ⊆ pending_ids (MkMgr ss c)) as Hsub.
      { intros x. rewrite !elem_of_pending. simpl. intros (t' & v & s' & H).
        apply lookup_insert_Some in H as [[? ?]|[? ?]]; [done|eauto]. }
      apply subseteq_size in Hsub. lia.
    + assert (pending_ids (MkMgr ss (<[t:=PClean ids]> c)) ⊆ pending_ids (MkMgr ss c)) as Hsub.
      { intros x. rewrite !elem_of_pending. simpl. intros (t' & v & s' & H).
        apply lookup_insert_Some in H as [[? ?]|[? ?]]; [done|eauto]. }
      apply subseteq_size in Hsub. lia.
Qed.

Lemma union_size_le (X Y : gset string) : size (X ∪ Y) ≤ size X + size Y.
Proof.
  rewrite size_union_alt. assert (size (Y ∖ X) ≤ size Y) by (apply subseteq_size; set_solver). lia.
Qed.

(** Steps other than the limit check do not increase the potential. *)
Lemma potential_step m o : (∀ t c, o ≠ CreateCheck t c) → potential (exec m o) ≤ potential m.
Proof.
  intros Hno. destruct m as [ss c]. unfold potential.
  destruct o as [t cl|t id now|t v id now|t|t now|id f now|id|t now|t]; simpl; [by destruct (Hno t cl)|..].
  - destruct (c !! t) as [[cl|v' id' s'|id' s'|ids]|] eqn:Et; simpl; try lia.
    pose proof (creates_delete (<[id:=fresh_session id now T cl]> ss) c t _ Et) as Hc. simpl in Hc.
    assert (Hc2 : creates (MkMgr (<[id:=fresh_session id now T cl]> ss) c) = creates (MkMgr ss c)) by done.
    assert (Hsub : dom (<[id:=fresh_session id now T cl]> ss) ∪ pending_ids (MkMgr (<[id:=fresh_session id now T cl]> ss) (delete t c))
        ⊆ {[id]} ∪ (dom ss ∪ pending_ids (MkMgr ss c))).
    { rewrite dom_insert_L. intros x. rewrite !elem_of_union, !elem_of_pending. simpl.
      intros [[?|?]|(t' & v & s & H)]; [by left|right; by left|].
      apply lookup_delete_Some in H as [_ H]. right. right. eauto. }
    apply subseteq_size in Hsub. pose proof (union_size_le {[id]} (dom ss ∪ pending_ids (MkMgr ss c))) as Hu.
    rewrite size_singleton in Hu. lia.
  - destruct (c !! t) as [|] eqn:Et; simpl; [lia|].
    destruct (ss !! id) as [s|] eqn:Es; simpl; [|lia].
    pose proof (creates_insert (MkMgr ss c) t (PGet v id (touch now s)) Et) as Hc. simpl in Hc. rewrite Hc.
    assert (Hsub : dom ss ∪ pending_ids (MkMgr ss (<[t:=PGet v id (touch now s)]> c)) ⊆ dom ss ∪ pending_ids (MkMgr ss c)).
    { intros x. rewrite !elem_of_union, !elem_of_pending. simpl. intros [?|(t' & v' & s' & H)]; [by left|].
      apply lookup_insert_Some in H as [[? ?]|[? ?]]; simplify_eq; [left; by eapply elem_of_dom_2|right; eauto]. }
    apply subseteq_size in Hsub. lia.
  - destruct (c !! t) as [[cl|v' id' s'|id' s'|ids]|] eqn:Et; simpl; try lia.
    destruct v'; simpl.
    + assert (Hc : creates (MkMgr (<[id':=s']> ss) (<[t:=PCheck id' s']> c)) = creates (MkMgr ss c))
        by (by apply (creates_same_kind _ _ c t (PGet true id' s'))).
      assert (Hsub : dom (<[id':=s']> ss) ∪ pending_ids (MkMgr (<[id':=s']> ss) (<[t:=PCheck id' s']> c)) ⊆ dom ss ∪ pending_ids (MkMgr ss c)).
      { rewrite dom_insert_L. intros x. rewrite !elem_of_union, !elem_of_pending. simpl.
        intros [[Hx|?]|(t' & v' & s'' & H)]; [|by left|].
        - apply elem_of_singleton in Hx as ->. right. eauto.
        - apply lookup_insert_Some in H as [[? ?]|[? ?]]; [done|right; eauto]. }
      apply subseteq_size in Hsub. lia.
    + pose proof (creates_delete (<[id':=s']> ss) c t _ Et) as Hc. simpl in Hc.
      assert (Hc2 : creates (MkMgr (<[id':=s']> ss) c) = creates (MkMgr ss c)) by done.
      assert (Hsub : dom (<[id':=s']> ss) ∪ pending_ids (MkMgr (<[id':=s']> ss) (delete t c)) ⊆ dom ss ∪ pending_ids (MkMgr ss c)).
      { rewrite dom_insert_L. intros x. rewrite !elem_of_union, !elem_of_pending. simpl.
        intros [[Hx|?]|(t' & v' & s'' & H)]; [|by left|].
        - apply elem_of_singleton in Hx as ->. right. eauto.
        - apply lookup_delete_Some in H as [? ?]. right; eauto. }
      apply subseteq_size in Hsub. lia.
  - destruct (c !! t) as [[cl|v' id' s'|id' s'|ids]|] eqn:Et; simpl; try lia.
    assert (Hgen : ∀ ss', dom ss' ⊆ dom ss → size (dom ss' ∪ pending_ids (MkMgr ss' (delete t c))) + creates (MkMgr ss' (delete t c))
        ≤ size (dom ss ∪ pending_ids (MkMgr ss c)) + creates (MkMgr ss c)).
    { intros ss' Hss. pose proof (creates_delete ss' c t _ Et) as Hc. simpl in Hc.
      assert (Hc2 : creates (MkMgr ss' c) = creates (MkMgr ss c)) by done.
      assert (Hsub : dom ss' ∪ pending_ids (MkMgr ss' (delete t c)) ⊆ dom ss ∪ pending_ids (MkMgr ss c)).
      { intros x. rewrite !elem_of_union, !elem_of_pending. simpl.
        intros [?|(t' & v' & s'' & H)]; [left; by apply Hss|].
        apply lookup_delete_Some in H as [? ?]. right; eauto. }
      apply subseteq_size in Hsub. lia. }
    destruct (decide _); simpl; apply Hgen; [rewrite dom_delete_L|]; set_solver.
  - destruct (ss !! id) as [s|] eqn:Es; simpl; [|lia].
    rewrite dom_insert_lookup_L by eauto. done.
  - destruct (ss !! id) as [s|] eqn:Es; simpl; [|lia].
    assert (Hsub : dom (delete id ss) ∪ pending_ids (MkMgr (delete id ss) c) ⊆ dom ss ∪ pending_ids (MkMgr ss c)).
    { rewrite dom_delete_L. intros x. rewrite !elem_of_union, !elem_of_pending. set_solver. }
    apply subseteq_size in Hsub. assert (creates (MkMgr (delete id ss) c) = creates (MkMgr ss c)) by done. lia.
  - destruct (c !! t) as [|] eqn:Et; simpl; [lia|].
    match goal with |- context [PClean ?l] => set (old := l) end.
    pose proof (creates_insert (MkMgr ss c) t (PClean old) Et) as Hc. simpl in Hc. rewrite Hc.
    assert (Hsub : dom ss ∪ pending_ids (MkMgr ss (<[t:=PClean old]> c)) ⊆ dom ss ∪ pending_ids (MkMgr ss c)).
    { intros x. rewrite !elem_of_union, !elem_of_pending. simpl. intros [?|(t' & v' & s' & H)]; [by left|].
      apply lookup_insert_Some in H as [[? ?]|[? ?]]; [done|right; eauto]. }
    apply subseteq_size in Hsub. lia.
  - destruct (c !! t) as [[cl|v' id' s'|id' s'|[|id ids]]|] eqn:Et; simpl; try lia.
    + pose proof (creates_delete ss c t _ Et) as Hc. simpl in Hc.
      assert (Hsub : dom ss ∪ pending_ids (MkMgr ss (delete t c)) ⊆ dom ss ∪ pending_ids (MkMgr ss c)).
      { intros x. rewrite !elem_of_union, !elem_of_pending. simpl.
        intros [?|(t' & v' & s'' & H)]; [by left|].
        apply lookup_delete_Some in H as [? ?]. right; eauto. }
      apply subseteq_size in Hsub. lia.
    + assert (Hc : creates (MkMgr (delete id ss) (<[t:=PClean ids]> c)) = creates (MkMgr ss c))
        by (by apply (creates_same_kind _ _ c t (PClean (id :: ids)))).
      assert (Hsub : dom (delete id ss) ∪ pending_ids (MkMgr (delete id ss) (<[t:=PClean ids]> c)) ⊆ dom ss ∪ pending_ids (MkMgr ss c)).
      { rewrite dom_delete_L. intros x. rewrite !elem_of_union, !elem_of_pending. simpl.
        intros [?|(t' & v' & s'' & H)]; [left; set_solver|].
        apply lookup_insert_Some in H as [[? ?]|[? ?]]; [done|right; eauto]. }
      apply subseteq_size in Hsub. lia.
Qed.

Lemma potential_check m t cl C : size (calls (exec m (CreateCheck t cl))) ≤ C →
  potential (exec m (CreateCheck t cl)) ≤ Nat.max (potential m) (M - 1 + C).
Proof.
  destruct m as [ss c]. simpl. destruct (c !! t) as [|] eqn:Et; simpl; [lia|].
  destruct (decide (M ≤ size ss)) as [Hge|Hlt]; simpl; [lia|]. intros Hc.
  unfold potential. simpl.
  pose proof (pending_creates_le (MkMgr ss (<[t:=PCreate cl]> c))) as Hp. simpl in Hp.
  pose proof (union_size_le (dom ss) (pending_ids (MkMgr ss (<[t:=PCreate cl]> c)))) as Hu.
  rewrite size_dom in Hu. lia.
Qed.

Lemma session_limit C h : 
  (∀ h', h' `prefix_of` h → size (calls (sruns mgr0 h')) ≤ C) →
  size (sessions (sruns mgr0 h)) ≤ M + C - 1.
Proof.
  intros Hc.
  assert (Hpot : potential (sruns mgr0 h) ≤ M - 1 + C).
  { induction h as [|o h IH] using rev_ind.
    - unfold potential, creates, pending_ids. simpl. rewrite map_to_list_empty. simpl.
      rewrite dom_empty_L, map_filter_empty, map_size_empty. rewrite union_empty_l_L, size_empty. lia.
    - assert (IHh : potential (sruns mgr0 h) ≤ M - 1 + C).
      { apply IH. intros h' Hh'. apply Hc. by apply prefix_app_r. }
      specialize (Hc (h ++ [o]) ltac:(done)). rewrite sruns_snoc in *.
      assert ((∃ t c, o = CreateCheck t c) ∨ ¬ (∃ t c, o = CreateCheck t c)) as [(t & cl & ->)|Hn].
      { destruct o; try (right; by intros (? & ? & ?)). left; eauto. }
      + pose proof (potential_check (sruns mgr0 h) t cl C Hc). lia.
      + etrans; [apply potential_step|done]. intros t c ->. apply Hn. eauto. }
  destruct (decide (M = 0)) as [HM|HM].
  - (* no check ever passes *)
    assert (Hz : sessions (sruns mgr0 h) = ∅ ∧ (∀ t p, calls (sruns mgr0 h) !! t = Some p → ∃ ids, p = PClean ids)).
    { clear -HM. induction h as [|o h [IH1 IH2]] using rev_ind; [split; [done|]; intros t p; simpl; by rewrite lookup_empty|].
      rewrite sruns_snoc. destruct (sruns mgr0 h) as [ss c]. simpl in *. subst ss.
      destruct o as [t cl|t id now|t v id now|t|t now|id f now|id|t now|t]; simpl.
      - destruct (c !! t); [done|]. destruct (decide (M ≤ size (∅ : gmap string session))); [done|lia].
      - destruct (c !! t) as [[]|] eqn:E; try done. by destruct (IH2 _ _ E).
      - destruct (c !! t); [done|]. rewrite lookup_empty. done.
      - destruct (c !! t) as [[]|] eqn:E; try done. by destruct (IH2 _ _ E).
      - destruct (c !! t) as [[]|] eqn:E; try done. by destruct (IH2 _ _ E).
      - rewrite lookup_empty. done.
      - rewrite lookup_empty. done.
      - destruct (c !! t); [done|]. simpl. split; [done|]. intros t' p H.
        apply lookup_insert_Some in H as [[? <-]|[? ?]]; eauto.
      - destruct (c !! t) as [[| | |[|id ids]]|] eqn:E; simpl; try done.
        + split; [done|]. intros t' p H. apply lookup_delete_Some in H as [? ?]. eauto.
        + rewrite delete_empty. split; [done|]. intros t' p H.
          apply lookup_insert_Some in H as [[? <-]|[? ?]]; eauto. }
    destruct Hz as [-> _]. rewrite map_size_empty. lia.
  - unfold potential in Hpot. rewrite <- size_dom.
    assert (size (dom (sessions (sruns mgr0 h))) ≤ size (dom (sessions (sruns mgr0 h)) ∪ pending_ids (sruns mgr0 h)))
      by (apply subseteq_size; set_solver). lia.
Qed.

(** *** Destroyed sessions *)
(** A lookup that has read an entry keeps it until it writes it back. *)
Lemma reader_kept m t v id s h : calls m !! t = Some (PGet v id s) → GetWrite t ∉ h →
  calls (sruns m h) !! t = Some (PGet v id s).
Proof.
  revert m. induction h as [|o h IH]; intros m Hc Hn; [done|]. apply not_elem_of_cons in Hn as [Ho Hn].
  apply (IH (exec m o)); [|done]. clear IH Hn h.
  destruct o as [t' c|t' i now|t' v' i now|t'|t' now|i f now|i|t' now|t']; cbn [sexec];
    repeat case_match; cbn [fst calls]; try done;
    (destruct (decide (t' = t)) as [->|Ht]; [congruence|]; by rewrite ?lookup_insert_ne, ?lookup_delete_ne by done).
Qed.
Lemma written_back m t v id s h now : calls m !! t = None → sessions m !! id = Some s → GetWrite t ∉ h →
  sessions (sruns m (GetRead t v id now :: h ++ [GetWrite t])) !! id = Some (touch now s).
Proof.
  intros Hc Hs Hn. change (GetRead t v id now :: h ++ [GetWrite t]) with ([GetRead t v id now] ++ h ++ [GetWrite t]).
  rewrite sruns_app, sruns_snoc. set (m1 := sruns m [GetRead t v id now]).
  assert (calls m1 !! t = Some (PGet v id (touch now s))) as H1.
  { unfold m1, SessionModel.sruns. cbn [fold_left sexec]. rewrite Hc, Hs. cbn [fst calls]. by rewrite lookup_insert. }
  apply (reader_kept _ _ _ _ _ h) in H1; [|done]. cbn [sexec]. rewrite H1. destruct v; cbn [fst sessions]; by rewrite lookup_insert.
Qed.

(** All checks come before all insertions. *)
Lemma checks_pass m cs : size (sessions m) < M → NoDup cs.*1 → (∀ t, t ∈ cs.*1 → calls m !! t = None) →
  let m' := sruns m ((λ p, CreateCheck p.1 p.2) <$> cs) in
  sessions m' = sessions m ∧ ∀ t c, (t, c) ∈ cs → calls m' !! t = Some (PCreate c).
Proof.
  revert m. induction cs as [|[t c] cs IH]; intros m Hs Hn Hf; [split; [done|]; intros t c H; by apply elem_of_nil in H|].
  cbn [fmap list_fmap fst snd] in Hn. apply NoDup_cons in Hn as [Ht Hn].
  set (m1 := MkMgr (sessions m) (<[t := PCreate c]> (calls m))).
  assert (exec m (CreateCheck t c) = m1) as E1.
  { cbn [sexec]. rewrite Hf by (cbn; by left). rewrite decide_False by lia. done. }
  cbn zeta. change (sruns m ((λ p, CreateCheck p.1 p.2) <$> (t, c) :: cs)) with (sruns (exec m (CreateCheck t c)) ((λ p, CreateCheck p.1 p.2) <$> cs)).
  rewrite E1. destruct (IH m1) as [H1 H2]; [done|done| |].
  - intros t' Ht'. unfold m1; cbn [calls]. rewrite lookup_insert_ne by (intros ->; done). apply Hf. cbn. by right.
  - split; [exact H1|]. intros t' c' [Hin|Hin]%elem_of_cons; [|by apply H2]. injection Hin as -> ->.
    clear - Ht. assert (calls m1 !! t = Some (PCreate c)) as H by (unfold m1; cbn [calls]; by rewrite lookup_insert).
    clearbody m1. revert m1 H. induction cs as [|[t' c'] cs IH]; intros m1 H; [done|].
    cbn [fmap list_fmap fst snd] in Ht. apply not_elem_of_cons in Ht as [Hne Ht].
    change (calls (sruns (exec m1 (CreateCheck t' c')) ((λ p, CreateCheck p.1 p.2) <$> cs)) !! t = Some (PCreate c)).
    apply IH; [done|]. cbn [sexec]. destruct (calls m1 !! t') eqn:E; [done|]. destruct (decide _); [done|]. cbn [fst calls]. by rewrite lookup_insert_ne.
Qed.
Lemma inserts_pass m (is : list (nat * string * Z)) : NoDup is.*1.*1 → NoDup is.*1.*2 →
  (∀ t, t ∈ is.*1.*1 → ∃ c, calls m !! t = Some (PCreate c)) → (∀ id, id ∈ is.*1.*2 → sessions m !! id = None) →
  size (sessions (sruns m ((λ p, CreateInsert p.1.1 p.1.2 p.2) <$> is))) = size (sessions m) + length is.
Proof.
  revert m. induction is as [|[[t id] now] is IH]; intros m Hn Hi Hc Hs; [cbn; lia|].
  cbn [fmap list_fmap fst snd] in Hn, Hi. apply NoDup_cons in Hn as [Ht Hn]. apply NoDup_cons in Hi as [Hid Hi].
  destruct (Hc t) as [c Hct]; [cbn; by left|].
  change (sruns m ((λ p, CreateInsert p.1.1 p.1.2 p.2) <$> (t, id, now) :: is)) with (sruns (exec m (CreateInsert t id now)) ((λ p, CreateInsert p.1.1 p.1.2 p.2) <$> is)).
  assert (exec m (CreateInsert t id now) = MkMgr (<[id := fresh_session id now T c]> (sessions m)) (delete t (calls m))) as -> by (cbn [sexec]; by rewrite Hct).
  rewrite IH; cbn [sessions calls length]; [|done|done| |].
  - rewrite map_size_insert_None; [lia|]. apply Hs. cbn. by left.
  - intros t' Ht'. rewrite lookup_delete_ne by (intros ->; done). apply Hc. cbn. by right.
  - intros id' Hid'. rewrite lookup_insert_ne by (intros ->; done). apply Hs. cbn. by right.
Qed.
Lemma creates_exceed m (cs : list (nat * nat * string * Z)) : size (sessions m) < M →
  NoDup cs.*1.*1.*1 → NoDup cs.*1.*2 → (∀ t, t ∈ cs.*1.*1.*1 → calls m !! t = None) → (∀ id, id ∈ cs.*1.*2 → sessions m !! id = None) →
  size (sessions (sruns m (((λ p, CreateCheck p.1.1.1 p.1.1.2) <$> cs) ++ ((λ p, CreateInsert p.1.1.1 p.1.2 p.2) <$> cs))))
  = size (sessions m) + length cs.
Proof.
  intros Hs Hn Hi Hc Hf. rewrite sruns_app.
  replace ((λ p, CreateCheck p.1.1.1 p.1.1.2) <$> cs) with ((λ p, CreateCheck p.1 p.2) <$> cs.*1.*1) by (by rewrite <-!list_fmap_compose).
  destruct (checks_pass m cs.*1.*1 Hs Hn Hc) as [H1 H2].
  set (m' := SessionModel.sruns _ _ _ _) in *. clearbody m'.
  replace ((λ p, CreateInsert p.1.1.1 p.1.2 p.2) <$> cs) with ((λ p, CreateInsert p.1.1 p.1.2 p.2) <$> ((λ p, (p.1.1.1, p.1.2, p.2)) <$> cs)) by (by rewrite <-!list_fmap_compose).
  rewrite inserts_pass; rewrite ?fmap_length, ?H1; [done| | | |].
  - rewrite <-!list_fmap_compose. rewrite <-!list_fmap_compose in Hn. exact Hn.
  - rewrite <-!list_fmap_compose. rewrite <-!list_fmap_compose in Hi. exact Hi.
  - intros t. rewrite <-!list_fmap_compose. intros (p & -> & Hp)%elem_of_list_fmap. exists (p.1.1.2). apply H2.
    rewrite <-!list_fmap_compose. apply elem_of_list_fmap. exists p. split; [|done]. cbn. by destruct p as [[[??]?]?].
  - intros id Hid. apply Hf. rewrite <-!list_fmap_compose. rewrite <-!list_fmap_compose in Hid. exact Hid.
Qed.

Lemma gone_step m o id : sessions m !! id = None → no_reader id m →
  (∀ t now, o ≠ CreateInsert t id now) →
  sessions (exec m o) !! id = None ∧ no_reader id (exec m o).
Proof.
  intros Hs Hr Hno. destruct m as [ss c]. unfold no_reader in *. simpl in *.
  destruct o as [t cl|t id' now|t v id' now|t|t now|id' f now|id'|t now|t]; simpl.
  - destruct (c !! t) eqn:Et; [done|]. destruct (decide _); [done|]. simpl. split; [done|].
    intros t' v s H. apply lookup_insert_Some in H as [[? ?]|[? ?]]; [done|by eapply Hr].
  - destruct (c !! t) as [[]|] eqn:Et; try done. simpl.
    assert (id ≠ id') by (intros ->; by apply (Hno t now)).
    split; [by rewrite lookup_insert_ne|]. intros t' v s Hl.
    apply lookup_delete_Some in Hl as [? ?]. by eapply Hr.
  - destruct (c !! t) eqn:Et; [done|]. destruct (ss !! id') as [s|] eqn:E; [|done]. simpl.
    split; [done|]. intros t' v' s' H.
    apply lookup_insert_Some in H as [[? ?]|[? ?]]; simplify_eq. by eapply Hr.
  - destruct (c !! t) as [[|v id' s| |]|] eqn:Et; try done.
    assert (id ≠ id') by (intros ->; by apply (Hr t v s)).
    destruct v; simpl; (split; [by rewrite lookup_insert_ne|]); intros t' v' s' H'.
    + apply lookup_insert_Some in H' as [[? ?]|[? ?]]; [done|by eapply Hr].
    + apply lookup_delete_Some in H' as [? ?]. by eapply Hr.
  - destruct (c !! t) as [[| |id' s|]|] eqn:Et; try done.
    destruct (decide _); simpl; split; try done.
    + apply lookup_delete_None. by right.
    + intros t' v' s' H'. apply lookup_delete_Some in H' as [? ?]. by eapply Hr.
    + intros t' v' s' H'. apply lookup_delete_Some in H' as [? ?]. by eapply Hr.
  - destruct (ss !! id') as [s|] eqn:E; [|done]. simpl. split; [|done].
    rewrite lookup_insert_ne; [done|]. intros ->. congruence.
  - destruct (ss !! id') as [s|] eqn:E; [|done]. simpl. split; [|done].
    apply lookup_delete_None. by right.
  - destruct (c !! t) eqn:Et; [done|]. simpl. split; [done|]. intros t' v s H.
    apply lookup_insert_Some in H as [[? ?]|[? ?]]; [done|by eapply Hr].
  - destruct (c !! t) as [[| | |[|id' ids]]|] eqn:Et; try done; simpl.
    + split; [done|]. intros t' v' s' H'. apply lookup_delete_Some in H' as [? ?]. by eapply Hr.
    + split; [apply lookup_delete_None; by right|]. intros t' v' s' H'.
      apply lookup_insert_Some in H' as [[? ?]|[? ?]]; [done|by eapply Hr].
Qed.

Lemma gone_forever m id h : no_reader id m →
  (∀ t now, CreateInsert t id now ∉ h) →
  sessions (sruns (exec m (Destroy id)) h) !! id = None.
Proof.
  intros Hr Hno.
  assert (H0 : sessions (exec m (Destroy id)) !! id = None ∧ no_reader id (exec m (Destroy id))).
  { simpl. destruct (sessions m !! id) eqn:E; simpl; [|done]. split; [apply lookup_delete|done]. }
  assert (H : sessions (sruns (exec m (Destroy id)) h) !! id = None ∧ no_reader id (sruns (exec m (Destroy id)) h)); [|tauto].
  induction h as [|o h IH] using rev_ind; [done|]. rewrite sruns_snoc.
  destruct IH as [IH1 IH2]; [set_solver|]. apply gone_step; try done. intros t now ->.
  apply (Hno t now). set_solver.
Qed.

(** *** Expiry *)
Lemma validate_not_expired m t now s : (sexec M T m (ValidateEnd t now)).2 = RSession s →
  (now <= s_expires s)%Z ∧ ∃ id, calls m !! t = Some (PCheck id s).
Proof.
  simpl. destruct (calls m !! t) as [[| |id s'|]|] eqn:E; try done.
  destruct (decide _); simpl; [by destruct (sessions m !! id)|].
  intros [= ->]. split; [lia|eauto].
Qed.

(** Whole calls without interference. *)
Lemma get_session_spec m id now : calls m !! 0 = None →
  get_session M T m id now =
  match sessions m !! id with
  | Some s => (MkMgr (<[id := touch now s]> (sessions m)) (calls m), RSession (touch now s))
  | None => (m, RInvalid)
  end.
Proof.
  intros Hc. unfold get_session. simpl. rewrite Hc.
  destruct (sessions m !! id) as [s|]; [|done]. simpl. rewrite lookup_insert. simpl.
  by rewrite delete_insert.
Qed.

Lemma validate_session_spec m id now now' : calls m !! 0 = None →
  validate_session M T m id now now' =
  match sessions m !! id with
  | Some s => if decide (s_expires s < now')%Z
              then (MkMgr (delete id (sessions m)) (calls m), RExpired)
              else (MkMgr (<[id := touch now s]> (sessions m)) (calls m), RSession (touch now s))
  | None => (m, RInvalid)
  end.
Proof.
  intros Hc. unfold validate_session. simpl. rewrite Hc.
  destruct (sessions m !! id) as [s|] eqn:E; [|done]. simpl. rewrite lookup_insert. simpl.
  rewrite lookup_insert. simpl. rewrite !insert_insert, (delete_insert (calls m)) by done.
  destruct (decide (s_expires s < now')%Z); [|done].
  by rewrite lookup_insert, delete_insert_delete.
Qed.

Lemma clean_removes_spec m ids : calls m !! 0 = Some (PClean ids) →
  clean_removes M T m (S (length ids)) =
  MkMgr (foldl (λ ss id, delete id ss) (sessions m) ids) (delete 0 (calls m)).
Proof.
  revert m. induction ids as [|id ids IH]; intros m Hm.
  - simpl. by rewrite Hm.
  - change (length (id :: ids)) with (S (length ids)).
    change (clean_removes M T m (S (S (length ids)))) with
      (clean_removes M T (exec m (CleanRemove 0)) (S (length ids))).
    rewrite IH.
    + simpl. rewrite Hm. simpl. by rewrite delete_insert_delete.
    + simpl. rewrite Hm. simpl. apply lookup_insert.
Qed.

Lemma foldl_delete_lookup (ids : list string) (ss : gmap string session) x :
  foldl (λ ss id, delete id ss) ss ids !! x = if decide (x ∈ ids) then None else ss !! x.
Proof.
  revert ss. induction ids as [|id ids IH]; intros ss; cbn [foldl].
  - rewrite decide_False by set_solver. done.
  - rewrite IH. destruct (decide (x ∈ ids)).
    + rewrite decide_True by set_solver. done.
    + destruct (decide (x = id)) as [->|].
      * rewrite decide_True by set_solver. apply lookup_delete.
      * rewrite decide_False by set_solver. by apply lookup_delete_ne.
Qed.

Lemma cleanup_spec m now : calls m !! 0 = None →
  (∀ id, sessions (cleanup_expired M T m now) !! id =
    match sessions m !! id with
    | Some s => if decide (s_expires s < now)%Z then None else Some s
    | None => None
    end) ∧ calls (cleanup_expired M T m now) = calls m.
Proof.
  intros Hc. unfold cleanup_expired. cbn [sexec]. rewrite Hc. cbn [fst calls].
  rewrite lookup_insert. rewrite clean_removes_spec by (simpl; apply lookup_insert).
  cbn [sessions calls]. split; [|by rewrite delete_insert].
  intros id. rewrite foldl_delete_lookup.
  destruct (sessions m !! id) as [s|] eqn:E.
  - destruct (decide (s_expires s < now)%Z) as [Hx|Hx].
    + rewrite decide_True; [done|]. apply elem_of_list_filter. rewrite E. split.
      * by apply bool_decide_eq_true.
      * apply elem_of_list_fmap. exists (id, s). split; [done|]. by apply elem_of_map_to_list.
    + rewrite decide_False; [done|]. intros H. apply elem_of_list_filter in H as [H _].
      rewrite E in H. apply bool_decide_eq_true in H. done.
  - by destruct (decide _).
Qed.

(** Expiry is fixed at creation. *)
Definition good_session (id : string) (s : session) : Prop := s_id s = id ∧ s_expires s = (s_created s + T)%Z.
Definition good (m : smgr) : Prop :=
  (∀ id s, sessions m !! id = Some s → good_session id s) ∧
  (∀ t v id s, calls m !! t = Some (PGet v id s) → good_session id s) ∧
  (∀ t id s, calls m !! t = Some (PCheck id s) → good_session id s).

Lemma good_exec m o : keeps_expiry o → good m → good (exec m o).
Proof.
  intros Hk (H1 & H2 & H3). destruct m as [ss c]. simpl in *.
  destruct o as [t cl|t id' now|t v id' now|t|t now|id' f now|id'|t now|t]; simpl in *.
  - destruct (c !! t) eqn:Et; [done|]. destruct (decide _); [done|].
    split; [done|]. split; simpl; intros t'; intros *; rewrite lookup_insert_Some; intros [[? ?]|[? ?]]; try done; eauto.
  - destruct (c !! t) as [[]|] eqn:Et; try done. simpl. split_and!; simpl.
    + intros id s H. apply lookup_insert_Some in H as [[<- <-]|[? ?]]; [done|eauto].
    + intros t' v id s H. apply lookup_delete_Some in H as [? ?]. eauto.
    + intros t' id s H. apply lookup_delete_Some in H as [? ?]. eauto.
  - destruct (c !! t) eqn:Et; [done|]. destruct (ss !! id') as [s|] eqn:E; [|done]. simpl.
    split; [done|]. split; simpl.
    + intros t' v' id s' H. apply lookup_insert_Some in H as [[? ?]|[? ?]]; simplify_eq; [|eauto].
      destruct (H1 _ _ E) as [? ?]. split; done.
    + intros t' id s' H. apply lookup_insert_Some in H as [[? ?]|[? ?]]; [done|eauto].
  - destruct (c !! t) as [[|v id' s| |]|] eqn:Et; try done.
    destruct v; simpl; (split; [|split]; simpl).
    + intros id s' H. apply lookup_insert_Some in H as [[<- <-]|[? ?]]; eauto.
    + intros t' v' id s' H. apply lookup_insert_Some in H as [[? ?]|[? ?]]; [done|eauto].
    + intros t' id s' H. apply lookup_insert_Some in H as [[? ?]|[? ?]]; simplify_eq; eauto.
    + intros id s' H. apply lookup_insert_Some in H as [[<- <-]|[? ?]]; eauto.
    + intros t' v' id s' H. apply lookup_delete_Some in H as [? ?]. eauto.
    + intros t' id s' H. apply lookup_delete_Some in H as [? ?]. eauto.
  - destruct (c !! t) as [[| |id' s|]|] eqn:Et; try done.
    destruct (decide _); simpl; (split; [|split]); simpl.
    + intros id s' H. apply lookup_delete_Some in H as [? ?]. eauto.
    + intros t' v' id s' H. apply lookup_delete_Some in H as [? ?]. eauto.
    + intros t' id s' H. apply lookup_delete_Some in H as [? ?]. eauto.
    + done.
    + intros t' v' id s' H. apply lookup_delete_Some in H as [? ?]. eauto.
    + intros t' id s' H. apply lookup_delete_Some in H as [? ?]. eauto.
  - destruct (ss !! id') as [s|] eqn:E; [|done]. simpl. split; [|done]. simpl.
    intros id s' H. apply lookup_insert_Some in H as [[<- <-]|[? ?]]; [|eauto].
    destruct (H1 _ _ E) as [? ?]. destruct (Hk s) as (E1 & E2 & E3). split; simpl; congruence.
  - destruct (ss !! id') as [s|] eqn:E; [|done]. simpl. split; [|done]. simpl.
    intros id s' H. apply lookup_delete_Some in H as [? ?]. eauto.
  - destruct (c !! t) eqn:Et; [done|]. simpl. split; [done|]. split; simpl.
    + intros t' v' id s' H. apply lookup_insert_Some in H as [[? ?]|[? ?]]; [done|eauto].
    + intros t' id s' H. apply lookup_insert_Some in H as [[? ?]|[? ?]]; [done|eauto].
  - destruct (c !! t) as [[| | |[|id' ids]]|] eqn:Et; try done; simpl; (split; [|split]); simpl; try done.
    + intros t' v' id s' H. apply lookup_delete_Some in H as [? ?]. eauto.
    + intros t' id s' H. apply lookup_delete_Some in H as [? ?]. eauto.
    + intros id s' H. apply lookup_delete_Some in H as [? ?]. eauto.
    + intros t' v' id s' H. apply lookup_insert_Some in H as [[? ?]|[? ?]]; [done|eauto].
    + intros t' id s' H. apply lookup_insert_Some in H as [[? ?]|[? ?]]; [done|eauto].
Qed.

Lemma good_runs h : Forall keeps_expiry h → good (sruns mgr0 h).
Proof.
  induction h as [|o h IH] using rev_ind; intros Hf.
  - split; [|split]; simpl; intros *; by rewrite lookup_empty.
  - rewrite sruns_snoc. apply Forall_app in Hf as [Hf Ho]. inversion Ho; subst. apply good_exec; auto.
Qed.

(** *** Isolation *)
Lemma isolation m o id : target m o ≠ Some id → sessions (exec m o) !! id = sessions m !! id.
Proof.
  intros Ht. destruct m as [ss c]. simpl in *.
  destruct o as [t cl|t id' now|t v id' now|t|t now|id' f now|id'|t now|t]; simpl in *.
  - destruct (c !! t); [done|]. by destruct (decide _).
  - destruct (c !! t) as [[]|]; try done. simpl. rewrite lookup_insert_ne; congruence.
  - destruct (c !! t); [done|]. by destruct (ss !! id').
  - destruct (c !! t) as [[|[] id' s| |]|]; try done; simpl; rewrite lookup_insert_ne; congruence.
  - destruct (c !! t) as [[| |id' s|]|]; try done. destruct (decide _); [|done]. simpl.
    rewrite lookup_delete_ne; congruence.
  - destruct (ss !! id'); [|done]. simpl. rewrite lookup_insert_ne; congruence.
  - destruct (ss !! id'); [|done]. simpl. rewrite lookup_delete_ne; congruence.
  - by destruct (c !! t).
  - destruct (c !! t) as [[| | |[|id' ids]]|]; try done. simpl. rewrite lookup_delete_ne; congruence.
Qed.

End proofs.

(** *** Cookies *)
Lemma is_space_spec c : is_space c = true ↔ c ∈ white_space.
Proof. unfold is_space, white_space. rewrite !elem_of_cons, elem_of_nil. lia. Qed.
Lemma not_space c : c ∉ white_space → is_space c = false.
Proof. intros H. destruct (is_space c) eqn:E; [|done]. by apply is_space_spec in E. Qed.
Lemma space_not c : is_space c = false → c ∉ white_space.
Proof. intros H Hc. apply is_space_spec in Hc. congruence. Qed.
Lemma trim_render a n v b : cookie_ok (Named a n v b) → trim_by is_space (render_cookie (Named a n v b)) = n ++ equals :: v.
Proof.
  intros (Ha & Hb & He & _ & _ & Hh & Hl). cbn [render_cookie].
  replace (a ++ n ++ [61%N] ++ v ++ b) with (a ++ (n ++ equals :: v) ++ b) by (by rewrite <- !app_assoc).
  apply trim_by_pad.
  - intros x Hx. by apply is_space_spec, Ha.
  - intros x Hx. by apply is_space_spec, Hb.
  - destruct n as [|y n]; simpl; intros x [= <-]; [done|]. by apply not_space, Hh.
  - intros x Hx. rewrite last_app in Hx. rewrite last_cons in Hx.
    destruct (last v) eqn:E; injection Hx as [= <-]; [by apply not_space, Hl|done].
  - by destruct n.
Qed.
Lemma blank_without a x : blank a → is_space x = false → x ∉ a.
Proof. intros H Hx Hin. apply H, is_space_spec in Hin. congruence. Qed.
Lemma trim_bare t : equals ∉ t → equals ∉ trim_by is_space t.
Proof.
  intros H Hin. apply H. unfold trim_by in Hin. rewrite elem_of_reverse in Hin.
  destruct (drop_while_suffix is_space (reverse (drop_while is_space t))) as (k & E & _). rewrite E in Hin.
  apply elem_of_list_lookup in Hin as [i Hi]. rewrite lookup_drop in Hi. apply elem_of_list_lookup_2 in Hi. rewrite elem_of_reverse in Hi.
  destruct (drop_while_suffix is_space t) as (k2 & E2 & _). rewrite E2 in Hi. apply elem_of_list_lookup in Hi as [j Hj]. rewrite lookup_drop in Hj. by apply elem_of_list_lookup_2 in Hj.
Qed.
Lemma render_no_semi c : cookie_ok c → semicolon ∉ render_cookie c.
Proof.
  destruct c as [a n v b|t]; [|by intros [_ ?]]. intros (Ha & Hb & He & Hs1 & Hs2 & _ & _). cbn [render_cookie].
  rewrite !elem_of_app, elem_of_list_singleton.
  pose proof (blank_without a semicolon Ha eq_refl). pose proof (blank_without b semicolon Hb eq_refl).
  intros [?|[?|[?|[?|?]]]]; done.
Qed.

Lemma find_cookie_spec cs : Forall cookie_ok cs →
  find_cookie (render_cookie <$> cs) = first_value (lit "mcp-session-id") cs.
Proof.
  induction cs as [|c cs IH]; intros Hf; [done|]. inversion Hf as [|? ? Hc Hf']; subst.
  rewrite fmap_cons. destruct c as [a n v b|t]; cbn [find_cookie first_value].
  - rewrite trim_render by done. rewrite split_once_app by (by destruct Hc as (_ & _ & ? & _)).
    destruct (decide _); [done|]. by apply IH.
  - cbn [render_cookie]. rewrite (proj2 (split_once_None equals (trim_by is_space t))) by (apply trim_bare, Hc). by apply IH.
Qed.
Lemma extract_spec headers cs : cs ≠ [] → Forall cookie_ok cs →
  match headers !! "cookie"%string with Some v => Some v | None => headers !! "Cookie"%string end = Some (join_with [semicolon] (render_cookie <$> cs)) →
  extract_session_id headers =
  match first_value (lit "mcp-session-id") cs with
  | Some v => Some v
  | None => match headers !! "X-Session-ID"%string with
            | Some v => Some v | None => headers !! "x-session-id"%string end
  end.
Proof.
  intros Hne Hf Hc. unfold extract_session_id. rewrite Hc. cbn [mbind option_bind].
  rewrite split_on_join.
  - by rewrite find_cookie_spec.
  - by destruct cs.
  - apply Forall_fmap. eapply Forall_impl; [exact Hf|]. intros c Hc'. by apply render_no_semi.
Qed.
(** Every header value is made of such pieces. *)
Lemma drop_while_head {A} (p : A → bool) l x : head (drop_while p l) = Some x → p x = false.
Proof. induction l as [|y l IH]; [done|]. simpl. destruct (p y) eqn:E; [done|]. by intros [= <-]. Qed.
Lemma trim_ends t : ∃ a b, t = a ++ trim_by is_space t ++ b ∧ blank a ∧ blank b ∧
  (∀ x, head (trim_by is_space t) = Some x → x ∉ white_space) ∧ (∀ x, last (trim_by is_space t) = Some x → x ∉ white_space).
Proof.
  unfold trim_by. destruct (drop_while_suffix is_space t) as (k & E & Hf).
  assert (Hd : ∀ x, head (drop_while is_space t) = Some x → is_space x = false) by (intros x; apply drop_while_head). set (u := drop_while is_space t) in *.
  destruct (drop_while_suffix is_space (reverse u)) as (j & E2 & Hf2).
  assert (Hd2 : ∀ x, head (drop_while is_space (reverse u)) = Some x → is_space x = false) by (intros x; apply drop_while_head). set (w := drop_while is_space (reverse u)) in *.
  exists (take k t), (reverse (take j (reverse u))). split_and!.
  - rewrite E2, <-reverse_app, take_drop, reverse_involutive, E, take_drop. done.
  - intros c Hc. apply is_space_spec. exact (proj1 (Forall_forall _ _) Hf c Hc).
  - intros c Hc. rewrite elem_of_reverse in Hc. apply is_space_spec. exact (proj1 (Forall_forall _ _) Hf2 c Hc).
  - intros x Hx. apply space_not, Hd. assert (Hu : u = reverse w ++ reverse (take j (reverse u))) by (rewrite E2, <-reverse_app, take_drop, reverse_involutive; done).
    rewrite Hu. destruct (reverse w); [done|]. exact Hx.
  - intros x Hx. apply space_not, Hd2. rewrite <-Hx. rewrite <-(reverse_involutive w) at 1. by rewrite head_reverse.
Qed.
Lemma piece_cookie p : semicolon ∉ p → ∃ c, cookie_ok c ∧ render_cookie c = p.
Proof.
  intros Hs. destruct (split_once equals (trim_by is_space p)) as [[n v]|] eqn:E.
  - apply split_once_Some in E as [E Hn]. destruct (trim_ends p) as (a & b & Ep & Ha & Hb & Hh & Hl). rewrite E in Ep, Hh, Hl.
    exists (Named a n v b). assert (Hr : render_cookie (Named a n v b) = p) by (rewrite Ep; cbn [render_cookie]; by rewrite <-!app_assoc). split; [|done]. rewrite <-Hr in Hs. cbn [render_cookie] in Hs. rewrite !not_elem_of_app in Hs.
    cbn [cookie_ok]. split_and!; try done; try apply Hs.
    + intros x Hx. apply Hh. destruct n; [done|]. exact Hx.
    + intros x Hx. apply Hl. rewrite last_app, last_cons, Hx. done.
  - apply split_once_None in E. exists (Bare p). split; [|done]. split; [|done]. intros Hp. apply E.
    destruct (trim_ends p) as (a & b & Ep & Ha & Hb & _). rewrite Ep, !elem_of_app in Hp. destruct Hp as [Hp|[Hp|Hp]]; [|done|].
    + by apply (blank_without a equals) in Hp.
    + by apply (blank_without b equals) in Hp.
Qed.
Lemma header_cookies h : ∃ cs, cs ≠ [] ∧ Forall cookie_ok cs ∧ h = join_with [semicolon] (render_cookie <$> cs).
Proof.
  assert (∃ cs, Forall cookie_ok cs ∧ render_cookie <$> cs = split_on semicolon h) as (cs & Hok & E).
  { assert (Hall : Forall (λ p, semicolon ∉ p) (split_on semicolon h)) by (apply Forall_forall; intros p; apply split_on_pieces).
    induction Hall as [|p ps Hp Hps (cs & Hok & E)]; [by exists []|]. destruct (piece_cookie p Hp) as (c & Hc & <-). exists (c :: cs). split; [by constructor|]. rewrite fmap_cons. by rewrite E. }
  exists cs. split_and!; [|done|].
  - intros ->. by apply (split_on_nonempty semicolon h).
  - by rewrite E, join_split_on.
Qed.
