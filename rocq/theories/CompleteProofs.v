(** Proofs about completions and the elicitation builder. *)
From stdpp Require Import gmap sets list strings sorting.
From Verif Require Import ListLib TextLib JsonLib SerdeLib TypesModel CompleteModel CompleteSpec.
Local Open Scope N_scope.

(** *** Sorting *)
Lemma text_le_spec a b : text_le a b = true ↔ before_or_same a b.
Proof.
  revert b. induction a as [|x a IH]; intros b.
  - split; [intros _; left; by exists b|by destruct b].
  - destruct b as [|y b]; cbn [text_le].
    + split; [done|]. intros [[r H]|(p & x' & y' & ra & rb & _ & H & _)]; [done|by destruct p].
    + rewrite orb_true_iff, andb_true_iff, N.ltb_lt, N.eqb_eq, IH. split.
      * intros [Hl|[-> [[r ->]|(p & x' & y' & ra & rb & -> & -> & Hl)]]].
        -- right. by exists [], x, y, a, b.
        -- left. by exists r.
        -- right. by exists (y :: p), x', y', ra, rb.
      * intros [[r H]|(p & x' & y' & ra & rb & H1 & H2 & Hl)].
        -- injection H as -> ->. right. split; [done|]. left. by exists r.
        -- destruct p as [|z p]; [injection H1 as -> ->; injection H2 as -> ->; by left|]. injection H1 as -> ->. injection H2 as -> ->. right. split; [done|]. right. by exists p, x', y', ra, rb.
Qed.
Lemma text_le_total a b : text_le a b = false → text_le b a = true.
Proof.
  revert b. induction a as [|x a IH]; intros [|y b]; cbn [text_le]; try done. rewrite orb_false_iff, andb_false_iff, orb_true_iff, andb_true_iff, N.ltb_ge, N.ltb_lt, N.eqb_neq, N.eqb_eq.
  intros [H1 [H2|H2]]; [left; lia|]. destruct (N.eq_dec x y) as [->|]; [right; split; [done|by apply IH]|left; lia].
Qed.
Lemma text_le_trans a b c : text_le a b = true → text_le b c = true → text_le a c = true.
Proof.
  revert b c. induction a as [|x a IH]; intros [|y b] [|z c]; cbn [text_le]; try done. rewrite !orb_true_iff, !andb_true_iff, !N.ltb_lt, !N.eqb_eq.
  intros [H1|[-> H1]] [H2|[-> H2]]; [left; lia|left; lia|by left|right; split; [done|by eapply IH]].
Qed.
Lemma insert_perm i l : insert_item i l ≡ₚ i :: l.
Proof. induction l as [|j l IH]; [done|]. cbn [insert_item]. destruct (text_le _ _); [done|]. rewrite IH. apply Permutation_swap. Qed.
Lemma sort_perm l : sort_items l ≡ₚ l.
Proof. induction l as [|i l IH]; [done|]. cbn [sort_items foldr]. rewrite insert_perm. by constructor. Qed.
Lemma insert_sorted i l : StronglySorted (λ a b, text_le (fi_value a) (fi_value b) = true) l → StronglySorted (λ a b, text_le (fi_value a) (fi_value b) = true) (insert_item i l).
Proof.
  induction 1 as [|j l Hs IH Hj]; cbn [insert_item]; [by repeat constructor|]. destruct (text_le (fi_value i) (fi_value j)) eqn:E.
  - constructor; [by constructor|]. constructor; [done|]. eapply Forall_impl; [exact Hj|]. intros k Hk. by eapply text_le_trans.
  - constructor; [done|]. rewrite (insert_perm i l). constructor; [by apply text_le_total|done].
Qed.
Lemma sort_sorted l : StronglySorted (λ a b, before_or_same (fi_value a) (fi_value b)) (sort_items l).
Proof.
  assert (StronglySorted (λ a b, text_le (fi_value a) (fi_value b) = true) (sort_items l)) as H. { induction l as [|i l IH]; [constructor|]. cbn [sort_items foldr]. by apply insert_sorted. }
  revert H. generalize (sort_items l). intros l'. induction 1 as [|i l0 _ IH Hi]; constructor; [done|]. eapply Forall_impl; [exact Hi|]. intros j. apply text_le_spec.
Qed.

(** *** Paths *)
Lemma extension_spec name e : path_extension name = Some e ↔ extension_of name e.
Proof.
  unfold path_extension, extension_of. destruct (split_once 46 (reverse name)) as [[x b]|] eqn:E.
  - apply split_once_Some in E as [E Hx]. assert (name = reverse b ++ [46] ++ reverse x) as Hn. { rewrite <- (reverse_involutive name), E, reverse_app, reverse_cons. by rewrite <- app_assoc. }
    destruct (decide (b = [])) as [->|Hb].
    + rewrite bool_decide_true by done. split; [done|]. intros (b' & Hb' & Hn' & He). exfalso. rewrite Hn' in Hn. change (reverse []) with (@nil N) in Hn. cbn [app] in Hn.
      destruct b' as [|c b']; [done|]. injection Hn as -> Hn. apply Hx. apply elem_of_reverse. rewrite <- Hn. set_solver.
    + rewrite bool_decide_false by done. split.
      * intros [= <-]. exists (reverse b). split; [intros H; apply Hb; by apply (f_equal reverse) in H; rewrite reverse_involutive in H|]. split; [done|]. by rewrite elem_of_reverse.
      * intros (b' & Hb' & Hn' & He). f_equal. rewrite Hn' in Hn. apply (f_equal reverse) in Hn. rewrite !reverse_app, !reverse_involutive in Hn. change (reverse [46]) with [46] in Hn. rewrite <- !app_assoc in Hn. cbn [app] in Hn.
        pose proof (split_once_app 46 (reverse e) (reverse b')) as H1. rewrite elem_of_reverse in H1. specialize (H1 He). rewrite Hn in H1. rewrite split_once_app in H1 by done. injection H1 as -> _. by rewrite reverse_involutive.
  - apply split_once_None in E. split; [done|]. intros (b & _ & -> & _). exfalso. apply E. apply elem_of_reverse. set_solver.
Qed.
Lemma ext_ok_spec cf n d : ext_ok cf n d = true ↔ d = true ∨ match fc_exts cf with None => True | Some es => ∃ e, e ∈ es ∧ extension_of n e end.
Proof.
  unfold ext_ok. rewrite orb_true_iff. apply or_iff_compat_l. destruct (fc_exts cf) as [es|]; [|done]. destruct (path_extension n) as [e|] eqn:E.
  - rewrite bool_decide_eq_true. apply extension_spec in E. split; [intros H; by exists e|]. intros (e' & He & H'). apply extension_spec in E, H'. congruence.
  - split; [done|]. intros (e & _ & H). apply extension_spec in H. congruence.
Qed.
Lemma trim_segs_plain l : Forall plain_name l → trim_segs l = l.
Proof.
  intros H. unfold trim_segs. rewrite drop_while_id; [apply reverse_involutive|]. intros s Hs. destruct l as [|s' l' _] using rev_ind; [done|]. rewrite reverse_snoc in Hs. injection Hs as ->.
  apply Forall_app in H as [_ H]. apply Forall_singleton in H as (H1 & _ & H2 & _). unfold junk. by rewrite !bool_decide_false.
Qed.
Lemma concat_join (segs : list (list N)) (p : list N) : concat ((λ s, s ++ [47]) <$> segs) ++ p = join_with [47] (segs ++ [p]).
Proof.
  induction segs as [|s segs IH]; [done|]. rewrite fmap_cons. cbn [concat app]. rewrite <- !app_assoc. destruct (segs ++ [p]) as [|q l] eqn:E; [by destruct segs|].
  cbn [join_with]. change ([47] ++ (concat ((λ s0, s0 ++ [47]) <$> segs) ++ p)) with (47 :: (concat ((λ s0, s0 ++ [47]) <$> segs) ++ p)). rewrite IH. done.
Qed.
Lemma plain_first abs segs p : Forall plain_name segs → segs ≠ [] ∨ plain_start p ∧ p ≠ [] →
  path_start (dir_text abs segs ++ p) = (if abs then [47] else []) ∧ path_body (dir_text abs segs ++ p) = join_with [47] (segs ++ [p]).
Proof.
  intros Hs Hpn. assert (path_start (dir_text abs segs ++ p) = (if abs then [47] else [])) as E.
  { unfold path_start, dir_text. destruct abs; [done|]. cbn [app].
    assert (∃ s r, plain_name s ∧ concat ((λ s, s ++ [47]) <$> segs) ++ p = s ++ r ∧ (r = [] ∨ ∃ r', r = 47 :: r')) as (s & r & (Hs1 & Hs2 & Hs3 & _) & Er & Hr).
    { destruct segs as [|s segs].
      - destruct Hpn as [?|[(? & ? & ?) ?]]; [done|]. exists p, []. split; [done|]. rewrite app_nil_r. split; [done|]. by left.
      - apply Forall_cons in Hs as [Hs _]. exists s, (47 :: (concat ((λ s, s ++ [47]) <$> segs) ++ p)). split; [done|]. split; [rewrite fmap_cons; cbn [concat]; by rewrite <- !app_assoc|]. right. by eexists. }
    rewrite Er. assert (has_root (s ++ r) = false) as ->. { unfold has_root. destruct s as [|c s]; [done|]. cbn. rewrite andb_true_r. apply bool_decide_eq_false. intros <-. apply Hs2. left. }
    assert (leads_dot (s ++ r) = false) as ->; [|done]. unfold leads_dot. apply orb_false_iff. split.
    - apply bool_decide_eq_false. intros Hd. destruct Hr as [->|[r' ->]]; [rewrite app_nil_r in Hd; done|]. destruct s as [|c [|c' s]]; done.
    - destruct s as [|c s]; [done|]. cbn. destruct (decide (46 = c)) as [<-|Hc]; [|by rewrite bool_decide_false]. destruct s as [|c' s]; [done|]. cbn. rewrite bool_decide_true by done. cbn. rewrite andb_true_r. apply bool_decide_eq_false. intros <-. apply Hs2. set_solver. }
  split; [done|]. unfold path_body. rewrite E. rewrite <- concat_join. unfold dir_text. by destruct abs.
Qed.
Lemma plain_split abs segs p : Forall plain_name segs → plain_start p → p ≠ [] →
  split_partial (dir_text abs segs ++ p) = ((if abs then [47] else []) ++ join_with [47] segs, p).
Proof.
  intros Hs Hp Hn. destruct (plain_first abs segs p Hs (or_intror (conj Hp Hn))) as [E1 E2]. destruct Hp as (H1 & H2 & H3).
  assert (plain_name p) as Hpp by done. assert (path_segs (dir_text abs segs ++ p) = segs ++ [p]) as E3.
  { unfold path_segs. rewrite E2. rewrite split_on_join.
    - apply trim_segs_plain. apply Forall_app. split; [done|by apply Forall_singleton].
    - by destruct segs.
    - apply Forall_app. split; [|by apply Forall_singleton]. eapply Forall_impl; [exact Hs|]. by intros s (_ & ? & _). }
  unfold split_partial. rewrite bool_decide_false.
  - unfold path_parent, path_file_name. rewrite E3, E1, last_snoc. rewrite bool_decide_false by done. cbn [default]. f_equal.
    destruct (segs ++ [p]) as [|s l] eqn:E; [by destruct segs|]. rewrite <- E. rewrite app_length. cbn [length]. rewrite Nat.add_sub, take_app. rewrite trim_segs_plain by done. done.
  - intros Hl. apply last_Some in Hl as [l Hl]. destruct p as [|c p _] using rev_ind; [done|]. rewrite app_assoc in Hl. apply app_inj_tail in Hl as [_ ->]. apply H1. set_solver.
Qed.
Lemma dir_text_last abs segs : dir_text abs segs = [] ∨ last (dir_text abs segs) = Some 47.
Proof.
  unfold dir_text. destruct segs as [|s segs _] using rev_ind; [destruct abs; [by right|by left]|]. right. rewrite fmap_app, concat_app. cbn [fmap list_fmap concat]. rewrite app_nil_r, !app_assoc. apply last_snoc.
Qed.
Lemma dir_text_join abs segs : segs ≠ [] → dir_text abs segs = ((if abs then [47] else []) ++ join_with [47] segs) ++ [47].
Proof.
  intros H. unfold dir_text. rewrite <- app_assoc. f_equal. destruct segs as [|p segs _] using rev_ind; [done|]. rewrite <- concat_join, fmap_app, concat_app. cbn [fmap list_fmap concat]. by rewrite app_nil_r, app_assoc.
Qed.
Lemma root_dir_text abs segs : Forall plain_name segs → segs ≠ [] ∨ abs = true → has_root (dir_text abs segs) = abs ∧ has_root ((if abs then [47] else []) ++ join_with [47] segs) = abs.
Proof.
  intros Hs Hn. destruct abs; [done|]. destruct segs as [|s segs]; [by destruct Hn|]. apply Forall_cons in Hs as [(H1 & H2 & _) _]. destruct s as [|c s]; [done|].
  assert (47 ≠ c) as Hc by (intros <-; apply H2; left). unfold dir_text, has_root. rewrite fmap_cons. cbn [concat app starts_with join_with]. split; [by rewrite bool_decide_false|].
  destruct segs; cbn; by rewrite bool_decide_false.
Qed.
Lemma join_dir a n : last a ≠ Some 47 → a ≠ [] → has_root n = false → path_join a n = a ++ [47] ++ n.
Proof.
  intros Hl Hn Hr. unfold path_join. rewrite Hr. destruct (last a) as [c|] eqn:E; [|by apply last_None in E]. destruct (N.eqb_spec c SLASH) as [->|]; [done|]. done.
Qed.
Lemma join_slash a n : last a = Some 47 → has_root n = false → path_join a n = a ++ n.
Proof. intros Hl Hr. unfold path_join. by rewrite Hr, Hl. Qed.
Lemma join_base b n : b ≠ [] → has_root n = false → path_join b n = meant (Some b) false n.
Proof.
  intros Hb Hr. unfold meant. case_bool_decide as Hl; [by apply join_slash|]. by apply join_dir.
Qed.
Lemma meant_slash fs b x : fs_sane fs → x ≠ [] → fs (meant b false (x ++ [47])) = fs (meant b false x).
Proof.
  intros (Hs & _) Hx. unfold meant. destruct b as [b|].
  - case_bool_decide; rewrite !app_assoc; apply Hs; by destruct b, x.
  - destruct x as [|c x]; [done|]. cbn [app]. apply (Hs (c :: x)). done.
Qed.
Lemma search_meant cf fs abs segs p :
  fs_sane fs → Forall plain_name segs → plain_start p → fc_base cf ≠ Some [] → abs = true ∨ segs ≠ [] ∨ fc_base cf ≠ None ∨ p = [] →
  fs (search_dir cf (dir_text abs segs ++ p)) = fs (meant (fc_base cf) abs (dir_text abs segs)) ∧
  (split_partial (dir_text abs segs ++ p)).2 = p ∧
  ∀ name, plain_name name → (if bool_decide (dir_text abs segs ++ p = []) then name else path_join (split_partial (dir_text abs segs ++ p)).1 name) = dir_text abs segs ++ name.
Proof.
  intros Hfs Hs Hp Hb Hc. pose proof Hfs as (Hf1 & Hf2 & _).
  assert (∀ name, plain_name name → has_root name = false) as Hroot. { intros [|c name] (H1 & H2 & _); [done|]. unfold has_root. cbn. rewrite andb_true_r. apply bool_decide_eq_false. intros <-. apply H2. left. }
  destruct (decide (p = [])) as [->|Hp0].
  - rewrite app_nil_r. destruct (dir_text_last abs segs) as [Ed|El].
    + rewrite Ed. assert (abs = false ∧ segs = []) as [-> ->]. { unfold dir_text in Ed. destruct abs; [done|]. destruct segs as [|s segs]; [done|]. by destruct s. }
      split; [|split; [done|by intros name _]]. unfold search_dir. change (split_partial []) with ([46], @nil N). cbn [fst]. change (has_root [46]) with false. cbn [meant].
      destruct (fc_base cf) as [b|]; [|done]. rewrite join_base by (done || congruence). unfold meant. case_bool_decide as Hl.
      * apply last_Some in Hl as [l ->]. rewrite app_nil_r, <- app_assoc. apply Hf2.
      * apply Hf2.
    + assert (split_partial (dir_text abs segs) = (dir_text abs segs, [])) as E. { unfold split_partial. by rewrite bool_decide_true. }
      rewrite E. assert (dir_text abs segs ≠ []) as Hne by (intros H; by rewrite H in El). assert (segs ≠ [] ∨ abs = true) as Hsa. { unfold dir_text in Hne. destruct abs; [by right|]. left. by intros ->. }
      destruct (root_dir_text abs segs Hs Hsa) as [Hr _]. split; [|split; [done|]].
      * unfold search_dir. rewrite E. cbn [fst]. rewrite Hr. destruct abs; [done|]. destruct (fc_base cf) as [b|]; [by rewrite join_base by (done || congruence)|]. unfold meant. by destruct (dir_text false segs).
      * intros name Hn. rewrite bool_decide_false by done. cbn [fst]. apply join_slash; [done|by apply Hroot].
  - pose proof (plain_split abs segs p Hs Hp Hp0) as E. rewrite E. cbn [snd]. rewrite bool_decide_false by (by destruct (dir_text abs segs), p).
    destruct (decide (segs = [])) as [->|Hsn].
    + unfold search_dir. rewrite E. cbn [fst join_with]. rewrite app_nil_r. destruct abs.
      * split; [done|]. split; [done|]. intros name Hn. by apply join_slash, Hroot.
      * split; [|split; [done|intros name Hn; unfold path_join; by rewrite Hroot]]. destruct (fc_base cf) as [b|]; [|by destruct Hc as [?|[?|[?|?]]]]. change (has_root []) with false. by rewrite join_base by (done || congruence).
    + set (D := (if abs then [47] else []) ++ join_with [47] segs) in *. assert (dir_text abs segs = D ++ [47]) as Ed by by apply dir_text_join. destruct (root_dir_text abs segs Hs) as [_ Hr]; [by left|]. fold D in Hr.
      assert (∃ c, last D = Some c ∧ c ≠ 47) as (c & Hc1 & Hc2).
      { destruct segs as [|s segs' _] using rev_ind; [done|]. apply Forall_app in Hs as [_ Hs]. apply Forall_singleton in Hs as (H1 & H2 & _). destruct s as [|c s' _] using rev_ind; [done|]. exists c. split.
        - subst D. rewrite <- concat_join, !app_assoc. apply last_snoc.
        - intros ->. apply H2. set_solver. }
      assert (D ≠ []) as HD by (intros H; by rewrite H in Hc1).
      rewrite Ed. split; [|split; [done|]].
      * unfold search_dir. rewrite <- Ed, E. cbn [fst]. rewrite Hr, Ed. destruct abs; [unfold meant; symmetry; by apply Hf1|]. rewrite meant_slash by done. destruct (fc_base cf) as [b|]; [by rewrite join_base by (done || congruence)|]. unfold meant. by destruct D.
      * intros name Hn. cbn [fst]. rewrite join_dir; [by rewrite <- app_assoc|congruence|done|by apply Hroot].
Qed.
Lemma kept_filter {A} (P : A → Prop) (f : A → bool) l : (∀ x, f x = true ↔ P x) → kept P l (filter (λ x, f x = true) l).
Proof.
  intros H. induction l as [|x l IH]; [constructor|]. destruct (f x) eqn:E.
  - rewrite filter_cons_True by done. constructor; [by apply H|done].
  - rewrite filter_cons_False by congruence. constructor; [|done]. rewrite <- H. congruence.
Qed.
Lemma kept_wanted (cf : fconf) p (es : list (list N * bool)) : kept (wanted (fc_exts cf) p) es (filter (λ e, starts_with p e.1 && ext_ok cf e.1 e.2 = true) es).
Proof. apply kept_filter. intros e. rewrite andb_true_iff, starts_with_spec, ext_ok_spec. done. Qed.
Lemma static_kept items p : kept (λ it, begins p (ci_value it) ∨ ∃ l, ci_label it = Some l ∧ begins p l) items (static_complete items p).
Proof.
  apply kept_filter. intros it. rewrite orb_true_iff, starts_with_spec. apply or_iff_compat_l. destruct (ci_label it) as [l|].
  - rewrite starts_with_spec. split; [intros H; by exists l|by intros (? & [= <-] & ?)].
  - split; [done|by intros (? & ? & ?)].
Qed.
Lemma file_plain cf fs abs segs p :
  fs_sane fs → Forall plain_name segs → plain_start p → fc_base cf ≠ Some [] → abs = true ∨ segs ≠ [] ∨ fc_base cf ≠ None ∨ p = [] →
  ∃ ws, kept (wanted (fc_exts cf) p) (default [] (fs (meant (fc_base cf) abs (dir_text abs segs)))) ws ∧
    file_complete cf fs (dir_text abs segs ++ p) ≡ₚ (λ e, MkFItem (dir_text abs segs ++ e.1) e.1 e.2) <$> ws.
Proof.
  intros Hfs Hs Hp Hb Hc. destruct (search_meant cf fs abs segs p Hfs Hs Hp Hb Hc) as (E1 & E2 & E3). unfold file_complete. rewrite E1. set (es := default [] _).
  assert (∀ e, e ∈ es → plain_name e.1) as Hes. { intros e He. subst es. destruct (fs (meant (fc_base cf) abs (dir_text abs segs))) as [es|] eqn:E; [|by apply elem_of_nil in He]. destruct Hfs as (_ & _ & H). by apply (H _ _ _ E). }
  eexists. split; [apply kept_wanted|]. rewrite sort_perm. unfold file_items. destruct (split_partial _) as [dir pre]. cbn [fst snd] in *. subst pre.
  match goal with |- ?a ≡ₚ ?b => assert (a = b) as ->; [|done] end. apply list_fmap_ext. intros i e He. f_equal. apply E3. apply Hes. apply elem_of_list_lookup_2 in He. apply elem_of_list_filter in He. tauto.
Qed.
Lemma kept_elem {A} (P : A → Prop) l r x : kept P l r → x ∈ l → P x → x ∈ r.
Proof.
  intros H. induction H as [|y l r Hy H IH|y l r Hy H IH]; intros Hx HP; [done| |]; apply elem_of_cons in Hx as [->|Hx]; [left|right; by apply IH|done|by apply IH].
Qed.
Lemma path_parts x y : path_start x = path_start y → path_segs x = path_segs y → has_root x = has_root y → leads_dot x = leads_dot y → path_parent x = path_parent y ∧ path_file_name x = path_file_name y.
Proof. intros H1 H2 H3 H4. unfold path_parent, path_file_name. by rewrite H1, H2, H3, H4. Qed.
Lemma dot_parent cf fs abs segs s : Forall plain_name segs → plain_name s → file_complete cf fs (dir_text abs segs ++ s ++ [47; 46]) = file_complete cf fs (dir_text abs segs ++ s).
Proof.
  intros Hs Hps. pose proof Hps as (H1 & H2 & H3 & H4). assert (plain_start s) as Hp by done.
  pose proof (plain_split abs segs s Hs Hp H1) as E. assert (split_partial (dir_text abs segs ++ s ++ [47; 46]) = split_partial (dir_text abs segs ++ s)) as E'.
  { rewrite E. unfold split_partial. rewrite bool_decide_false by (change [47; 46] with ([47] ++ [46]); rewrite !app_assoc, last_snoc; done).
    assert (dir_text abs segs ++ s ++ [47; 46] = dir_text abs (segs ++ [s]) ++ [46]) as Et. { unfold dir_text. rewrite fmap_app, concat_app. cbn [fmap list_fmap concat]. rewrite app_nil_r, <- !app_assoc. done. }
    rewrite Et. destruct (plain_first abs (segs ++ [s]) [46]) as [E1 E2]; [apply Forall_app; split; [done|by apply Forall_singleton]|left; by destruct segs|].
    assert (path_segs (dir_text abs (segs ++ [s]) ++ [46]) = segs ++ [s]) as E3.
    { unfold path_segs. rewrite E2. rewrite split_on_join.
      - unfold trim_segs. rewrite reverse_snoc. cbn [drop_while]. change (junk [46]) with true. cbv iota. apply trim_segs_plain. apply Forall_app. split; [done|by apply Forall_singleton].
      - by destruct segs.
      - apply Forall_app. split; [|apply Forall_singleton; set_solver]. apply Forall_app. split; [|by apply Forall_singleton]. eapply Forall_impl; [exact Hs|]. by intros x (_ & ? & _). }
    unfold path_parent, path_file_name. rewrite E3, E1, last_snoc. rewrite bool_decide_false by done. cbn [default]. f_equal.
    destruct (segs ++ [s]) as [|s0 l] eqn:El; [by destruct segs|]. rewrite <- El. rewrite app_length. cbn [length]. rewrite Nat.add_sub, take_app. by rewrite trim_segs_plain. }
  unfold file_complete, file_items, search_dir. rewrite E'. rewrite !(bool_decide_false (_ = [])); [done|by destruct (dir_text abs segs), s|by destruct (dir_text abs segs), s].
Qed.
Lemma bare_name exts fs p : plain_start p → p ≠ [] → fs [] = None → file_complete (MkFConf None exts) fs p = [].
Proof.
  intros Hp Hn Hf. pose proof (plain_split false [] p (Forall_nil_2 _) Hp Hn) as E. change (dir_text false [] ++ p) with p in E. unfold file_complete, search_dir, file_items. rewrite E. cbn [fst fc_base app join_with]. cbv zeta. cbn [fst]. change (has_root []) with false. cbv iota. by rewrite Hf.
Qed.
Lemma dots_typed cf fs : fs_sane fs → fc_base cf ≠ None → fc_base cf ≠ Some [] → file_complete cf fs [46; 46] = file_complete cf fs [].
Proof.
  intros Hfs Hb1 Hb2. destruct (fc_base cf) as [b|] eqn:Eb; [|done]. pose proof Hfs as (Hf1 & Hf2 & Hf3).
  assert (fs (search_dir cf [46; 46]) = fs (search_dir cf [])) as E.
  { unfold search_dir. change (split_partial [46; 46]).1 with (@nil N). change (split_partial []).1 with [46]. change (has_root []) with false. change (has_root [46]) with false. rewrite Eb. rewrite !join_base by (done || congruence). unfold meant. case_bool_decide as Hl; [|symmetry; apply Hf2].
    apply last_Some in Hl as [l ->]. rewrite app_nil_r, <- app_assoc. symmetry. apply Hf2. }
  unfold file_complete. rewrite E. f_equal. set (es := default [] _).
  assert (∀ e, e ∈ es → plain_name e.1) as Hes. { intros e He. subst es. destruct (fs (search_dir cf [])) as [es|] eqn:E'; [|by apply elem_of_nil in He]. by apply (Hf3 _ _ _ E'). }
  unfold file_items. change (split_partial [46; 46]) with (@nil N, @nil N). change (split_partial []) with ([46], @nil N). cbv iota beta.
  apply list_fmap_ext. intros i e He. apply elem_of_list_lookup_2 in He. apply elem_of_list_filter in He as [_ He]. apply Hes in He. f_equal. rewrite bool_decide_false, bool_decide_true by done. unfold path_join. destruct (has_root e.1); done.
Qed.
(** Whatever is typed *)
Lemma file_general cf fs t it : it ∈ file_complete cf fs t →
  ∃ es, fs (search_dir cf t) = Some es ∧ (fi_label it, fi_dir it) ∈ es ∧
    (fi_dir it = true ∨ match fc_exts cf with None => True | Some xs => ∃ e, e ∈ xs ∧ extension_of (fi_label it) e end).
Proof.
  unfold file_complete. rewrite sort_perm. unfold file_items. destruct (split_partial t) as [dir pre]. intros H. apply elem_of_list_fmap in H as ([n d] & -> & H). apply elem_of_list_filter in H as [H1 H2]. cbn [fst snd fi_label fi_dir] in *.
  destruct (fs _) as [es|]; [|by apply elem_of_nil in H2]. exists es. split; [done|]. split; [done|]. apply andb_true_iff in H1 as [_ H1]. by apply ext_ok_spec in H1.
Qed.

(** *** Confinement *)
Lemma trim_sub l s : s ∈ trim_segs l → s ∈ l.
Proof.
  unfold trim_segs. rewrite elem_of_reverse. destruct (drop_while_suffix junk (reverse l)) as (k & -> & _). intros H. apply elem_of_list_lookup in H as [i H]. rewrite lookup_drop in H. apply elem_of_list_lookup_2 in H. by rewrite elem_of_reverse in H.
Qed.
Lemma trim_prefix m : ∃ k, trim_segs m = take k m.
Proof.
  unfold trim_segs. destruct (drop_while_suffix junk (reverse m)) as (k & -> & _). set (x := drop k (reverse m)). exists (length (reverse x)).
  assert (m = reverse x ++ reverse (take k (reverse m))) as E. { rewrite <- reverse_app. subst x. by rewrite take_drop, reverse_involutive. }
  rewrite E at 1. clearbody x. generalize dependent m. intros m E. rewrite E. by rewrite take_app.
Qed.
Lemma take_sub {A} n (l : list A) x : x ∈ take n l → x ∈ l.
Proof. intros H. rewrite <- (take_drop n l). apply elem_of_app. by left. Qed.
Lemma join_segs ls s : Forall (λ l, 47 ∉ l) ls → s ∈ split_on 47 (join_with [47] ls) → s ∈ ls ∨ s = [].
Proof.
  intros H Hs. destruct ls as [|l ls]; [right; by apply elem_of_list_singleton in Hs|]. left. by rewrite split_on_join in Hs by done.
Qed.
Lemma join_tail (l : list N) ls : join_with [47] (l :: ls) = l ++ match ls with [] => [] | _ => 47 :: join_with [47] ls end.
Proof. destruct ls; [by rewrite app_nil_r|done]. Qed.
Lemma split_partial_dots t : has_root t = false → [46; 46] ∉ split_on 47 t → has_root (split_partial t).1 = false ∧ [46; 46] ∉ split_on 47 (split_partial t).1.
Proof.
  intros Hr Hd. unfold split_partial. case_bool_decide as Hl; [done|]. cbn [fst]. unfold path_parent. assert (path_start t = if leads_dot t then [46] else []) as Est by (unfold path_start; by rewrite Hr).
  destruct (leads_dot t) eqn:Eld.
  - (* a leading dot *)
    assert (∃ ss, path_body t = [] ∧ ss = [] ∧ t = [46] ∨ path_body t = 47 :: join_with [47] ss ∧ ss ≠ [] ∧ Forall (λ l, 47 ∉ l) ss ∧ split_on 47 t = [46] :: ss) as (ss & Hss).
    { unfold path_body. rewrite Est. unfold leads_dot in Eld. apply orb_true_iff in Eld as [E|E].
      - apply bool_decide_eq_true in E as ->. exists []. by left.
      - apply starts_with_spec in E as [r ->]. exists (split_on 47 r). right. cbn [app length drop]. rewrite join_split_on. split; [done|]. split; [apply split_on_nonempty|]. split; [apply Forall_forall; intros l; apply split_on_pieces|].
        apply (split_on_app 47 [46] r). set_solver. }
    destruct (path_segs t) as [|s0 sg] eqn:Es; [rewrite Hr; split; [done|]; cbn; set_solver|]. cbn [default].
    destruct Hss as [(Hb & _ & ->)|(Hb & Hn & Hf & Hsp)]; [by vm_compute in Es|].
    unfold path_segs in Es. rewrite Hb in Es. change (47 :: join_with [47] ss) with ([] ++ SLASH :: join_with [47] ss) in Es. rewrite split_on_app in Es by set_solver. change SLASH with 47 in *. rewrite split_on_join in Es by done.
    set (l := take _ _). assert (∀ s, s ∈ trim_segs l → s ∈ [] :: ss) as Hsub. { intros s H. apply trim_sub in H. apply take_sub in H. rewrite <- Es in H. by apply trim_sub in H. }
    assert (trim_segs l = [] ∨ ∃ tl, trim_segs l = [] :: tl) as Htl.
    { destruct (trim_segs l) as [|h tl] eqn:Et; [by left|]. right. exists tl. f_equal.
      assert (∃ k, trim_segs l = take k ([] :: ss)) as [k Hk].
      { pose proof trim_prefix as Hpre.
        destruct (Hpre l) as [k1 H1]. destruct (Hpre ([] :: ss)) as [k2 H2]. rewrite H1. subst l. rewrite <- Es, H2, !take_take. by eexists. }
      rewrite Et in Hk. destruct k; [done|]. by injection Hk. }
    rewrite Est. destruct Htl as [->|[tl Etl]]; [split; [done|cbn; set_solver]|]. rewrite Etl, join_tail. destruct tl as [|h tl]; [split; [done|cbn; set_solver]|]. split; [done|].
    assert (split_on 47 ([46] ++ 47 :: join_with [47] (h :: tl)) = [46] :: split_on 47 (join_with [47] (h :: tl))) as Esl by (apply split_on_app; set_solver).
    intros H. change ([46; 46] ∈ split_on 47 ([46] ++ 47 :: join_with [47] (h :: tl))) in H. rewrite Esl in H. apply elem_of_cons in H as [H|H]; [done|].
    assert (Forall (λ l, 47 ∉ l) (h :: tl)) as Hft. { apply Forall_forall. intros s Hs. assert (s ∈ [] :: ss) as Hs' by (apply Hsub; rewrite Etl; by right). apply elem_of_cons in Hs' as [->|Hs']; [set_solver|]. by apply (proj1 (Forall_forall _ _) Hf). }
    apply join_segs in H as [H|H]; [|done|done]. assert ([46; 46] ∈ [] :: ss) as H' by (apply Hsub; rewrite Etl; by right). apply elem_of_cons in H' as [H'|H']; [done|]. apply Hd. rewrite Hsp. by right.
  - assert (path_body t = t) as Eb by (unfold path_body; by rewrite Est). assert (path_segs t = trim_segs (split_on 47 t)) as Eg by (unfold path_segs; by rewrite Eb).
    destruct (path_segs t) as [|s0 sg] eqn:Es; [rewrite Hr; split; [done|]; cbn; set_solver|]. cbn [default]. rewrite Est. cbn [app]. set (l := take _ _).
    assert (∀ s, s ∈ trim_segs l → s ∈ split_on 47 t) as Hsub. { intros s H. apply trim_sub in H. apply take_sub in H. rewrite Eg in H. by apply trim_sub in H. }
    assert (Forall (λ l, 47 ∉ l) (trim_segs l)) as Hft. { apply Forall_forall. intros s Hs. apply Hsub in Hs. by apply split_on_pieces in Hs. }
    split.
    + (* no root *)
      pose proof trim_prefix as Hpre.
      assert (∃ k, trim_segs l = take k (split_on 47 t)) as [k Hk]. { destruct (Hpre l) as [k1 H1]. destruct (Hpre (split_on 47 t)) as [k2 H2]. rewrite H1. subst l. rewrite Eg, H2, !take_take. by eexists. }
      rewrite Hk. destruct t as [|c t]; [by destruct k|]. unfold has_root in *. cbn in Hr. rewrite andb_true_r in Hr. apply bool_decide_eq_false in Hr.
      destruct (split_on 47 (c :: t)) as [|h tl] eqn:Esp; [by apply split_on_nonempty in Esp|]. pose proof (join_split_on 47 (c :: t)) as Hj. rewrite Esp, join_tail in Hj. destruct h as [|c' h]; [destruct tl; [done|]; by injection Hj as <- _|]. injection Hj as -> _.
      destruct k; [done|]. cbn [take]. rewrite join_tail. cbn. by rewrite bool_decide_false.
    + intros H. apply join_segs in H as [H|H]; [|done|done]. by apply Hd, Hsub.
Qed.
Lemma search_inside b exts t : b ≠ [] → has_root t = false → [46; 46] ∉ split_on 47 t → inside b (search_dir (MkFConf (Some b) exts) t).
Proof.
  intros Hb Hr Hd. destruct (split_partial_dots t Hr Hd) as [H1 H2]. unfold search_dir. rewrite H1. cbn [fc_base]. rewrite join_base by done. unfold meant, inside. case_bool_decide as Hl.
  - exists (split_partial t).1. split; [done|]. split; [by right; right|done].
  - exists ([47] ++ (split_partial t).1). split; [done|]. split; [by right; left|]. intros H. change ([46; 46] ∈ split_on 47 ([] ++ 47 :: (split_partial t).1)) in H.
    rewrite split_on_app in H by set_solver. by apply elem_of_cons in H as [H|H].
Qed.

(** *** The builder *)
Lemma latest_snoc {A B} (f : A → option B) os o : latest f (os ++ [o]) = match f o with Some x => Some x | None => latest f os end.
Proof. unfold latest. rewrite omap_app. cbn [omap list_omap]. destruct (f o) as [x|]; [apply last_snoc|by rewrite app_nil_r]. Qed.
Lemma built id ty prompt os :
  let b := eb_build id ty prompt os in
  eb_id b = default id (latest sets_id os) ∧ eb_type b = ty ∧ eb_prompt b = prompt ∧ eb_desc b = latest sets_desc os ∧ eb_default b = latest sets_default os ∧
  (∀ k, eb_meta b !! k = latest (sets_meta k) os) ∧
  match eb_val b with
  | None => ∀ o, o ∈ os → about_validation o = false
  | Some v => (∃ o, o ∈ os ∧ about_validation o = true) ∧ (v_required v = true ↔ ERequired ∈ os) ∧ v_min v = latest sets_min os ∧ v_max v = latest sets_max os ∧
      v_pattern v = latest sets_pattern os ∧ v_options v = latest sets_options os
  end.
Proof.
  induction os as [|o os IH] using rev_ind.
  - repeat split; try done. intros o Ho. by apply elem_of_nil in Ho.
  - unfold eb_build in *. rewrite fold_left_app. cbn [fold_left]. destruct (fold_left eb_step os (eb_new id ty prompt)) as [bi bt bp bd bf bv bm] eqn:E. cbv zeta in *. cbn [eb_id eb_type eb_prompt eb_desc eb_default eb_val eb_meta] in IH.
    destruct IH as (-> & -> & -> & -> & -> & Hm & Hv).
    assert (bv = None → (∀ o', o' ∈ os → about_validation o' = false) ∧ ERequired ∉ os ∧ latest sets_min os = None ∧ latest sets_max os = None ∧ latest sets_pattern os = None ∧ latest sets_options os = None) as Hnone.
    { intros ->. split; [done|]. split; [intros H; by apply Hv in H|]. clear -Hv. unfold latest. assert (∀ B (f : eop → option B), (∀ o, about_validation o = false → f o = None) → last (omap f os) = None) as H.
      { intros B f Hf. induction os as [|o os IH]; [done|]. cbn [omap list_omap]. rewrite Hf by (apply Hv; left). apply IH. intros o' Ho. apply Hv. by right. }
      repeat split; apply H; by intros []. }
    destruct o; cbn [eb_step]; (destruct bv as [vv|]; [clear Hnone; destruct Hv as (Hex & Hr & Hv1 & Hv2 & Hv3 & Hv4)|destruct (Hnone eq_refl) as (_ & Hr & Hv1 & Hv2 & Hv3 & Hv4)]);
      unfold upd_val; cbn [eb_id eb_type eb_prompt eb_desc eb_default eb_val eb_meta v_required v_min v_max v_pattern v_options];
      rewrite ?latest_snoc; cbn [sets_id sets_desc sets_default sets_min sets_max sets_pattern sets_options];
      (split; [done|]); (split; [done|]); (split; [done|]); (split; [done|]); (split; [done|]);
      (split; [intros k'; rewrite latest_snoc; cbn [sets_meta]; first [by apply Hm | case_decide; [subst; by rewrite lookup_insert|rewrite lookup_insert_ne by done; by apply Hm]]|]);
      first [ (* validation present, kept or changed *)
        split; [first [destruct Hex as (o' & ? & ?); exists o'; split; [apply elem_of_app; by left|done] | eexists; split; [apply elem_of_app; right; by apply elem_of_list_singleton|done]]|];
        split; [rewrite elem_of_app, elem_of_list_singleton; first [rewrite Hr; split; [by left|by intros [?|?]] | split; [by right|done] | split; [done|by intros [?|?]]]|];
        by rewrite ?Hv1, ?Hv2, ?Hv3, ?Hv4
      | intros o' Ho; apply elem_of_app in Ho as [Ho|Ho]; [by apply Hv|apply elem_of_list_singleton in Ho as ->; done] ].
Qed.

(** *** On the wire *)
Lemma lay_req n t v fs l : is_of t v → layout is_of fs l → layout is_of ((n, (Req, t)) :: fs) ((n, v) :: l).
Proof. intros H1 H2. by exists v, l. Qed.
Lemma lay_def n d t v fs l : is_of t v → layout is_of fs l → layout is_of ((n, (Def d, t)) :: fs) ((n, v) :: l).
Proof. intros H1 H2. by exists v, l. Qed.
Lemma lay_opt n t o fs l : (∀ v, o = Some v → v ≠ JNull ∧ is_of t v) → layout is_of fs l → layout is_of ((n, (Opt, t)) :: fs) (put n o l).
Proof. intros H1 H2. destruct o as [v|]; [right|by left]. destruct (H1 v eq_refl). by exists v, l. Qed.
Lemma lay_none n t fs l : layout is_of fs l → layout is_of ((n, (Opt, t)) :: fs) l.
Proof. by left. Qed.
Lemma val_is_of os v : Forall well_typed os → v_min v = latest sets_min os → v_max v = latest sets_max os → v_options v = latest sets_options os → is_of t_input_validation (val_json v).
Proof.
  intros Hw E1 E2 E4. assert (∀ {B} (f : eop → option B) x, latest f os = Some x → ∃ o, o ∈ os ∧ f o = Some x) as Hl.
  { intros B f x H. unfold latest in H. apply last_Some_elem_of in H. by apply elem_of_list_omap in H. }
  rewrite Forall_forall in Hw. unfold val_json. eexists _, []. rewrite app_nil_r. split; [reflexivity|]. split; [|done].
  apply lay_def; [by eexists|]. apply lay_opt.
  { intros x Hx. rewrite E1 in Hx. apply Hl in Hx as (o & Ho & Hx). apply Hw in Ho. destruct o; simplify_eq/=. split; [by destruct Ho as [[? ->]|[? ->]]|done]. }
  apply lay_opt.
  { intros x Hx. rewrite E2 in Hx. apply Hl in Hx as (o & Ho & Hx). apply Hw in Ho. destruct o; simplify_eq/=. split; [by destruct Ho as [[? ->]|[? ->]]|done]. }
  apply lay_opt. { intros x Hx. apply fmap_Some in Hx as (y & _ & ->). split; [done|by eexists]. }
  apply lay_opt. { intros x Hx. apply fmap_Some in Hx as (y & Hy & ->). split; [done|]. exists y. split; [done|]. rewrite E4 in Hy. apply Hl in Hy as (o & Ho & Hx). apply Hw in Ho. destruct o; try done. by injection Hx as ->. }
  by apply lay_none.
Qed.
Lemma elicit_is_of id ty prompt os meta : is_of t_input_type (JStr ty) → Forall well_typed os → Forall unambiguous os →
  meta ≡ₚ map_to_list (eb_meta (eb_build id ty prompt os)) → is_of t_elicit_request (elicit_json (eb_build id ty prompt os) meta).
Proof.
  intros Hty Hw Hu Hm. pose proof (built id ty prompt os) as Hb. cbv zeta in Hb. set (b := eb_build id ty prompt os) in *. destruct Hb as (_ & Et & _ & _ & Ed & Eme & Hv).
  assert (∀ {B} (f : eop → option B) x, latest f os = Some x → ∃ o, o ∈ os ∧ f o = Some x) as Hl.
  { intros B f x H. unfold latest in H. apply last_Some_elem_of in H. by apply elem_of_list_omap in H. }
  pose proof Hu as Hu'. rewrite Forall_forall in Hu'.
  exists ((lit "elicitationId", JStr (eb_id b)) :: (lit "inputType", JStr (eb_type b)) :: (lit "prompt", JStr (eb_prompt b)) ::
    put (lit "description") (JStr <$> eb_desc b) (put (lit "default") (eb_default b) (put (lit "validation") (val_json <$> eb_val b) []))), meta.
  split; [|split].
  - unfold elicit_json. do 4 f_equal. unfold put. by destruct (eb_desc b), (eb_default b), (eb_val b).
  - apply lay_req; [by eexists|]. apply lay_req; [by rewrite Et|]. apply lay_req; [by eexists|].
    apply lay_opt. { intros x Hx. apply fmap_Some in Hx as (y & _ & ->). split; [done|by eexists]. }
    apply lay_opt. { intros x Hx. split; [|done]. rewrite Ed in Hx. apply Hl in Hx as (o & Ho & Hx). apply Hu' in Ho. destruct o; try done. by injection Hx as ->. }
    apply lay_opt; [|done]. intros x Hx. apply fmap_Some in Hx as (y & Hy & ->). split; [done|]. rewrite Hy in Hv. destruct Hv as (_ & _ & E1 & E2 & _ & E4). by apply (val_is_of os).
  - cbn [extra_ok]. split; [rewrite Hm; apply NoDup_fst_map_to_list|]. intros k Hk. rewrite Hm in Hk. apply elem_of_list_fmap in Hk as ([k' v] & -> & Hk). apply elem_of_map_to_list in Hk. rewrite Eme in Hk. apply Hl in Hk as (o & Ho & Hx). apply Hu' in Ho.
    destruct o; try done. cbn [sets_meta] in Hx. cbn [unambiguous] in Ho. cbn [fst]. case_decide as Hk; [|done]. by rewrite Hk.
Qed.
