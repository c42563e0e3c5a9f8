From stdpp Require Import gmap strings list.
From Verif Require Import ManagersModel ManagersSpec.

(** *** Cancellation *)
Lemma k_run_snoc h o : k_run (h ++ [o]) = k_step (k_run h) o.
Proof. unfold k_run. by rewrite fold_left_app. Qed.
Definition created (h : list kstep) : nat := length (omap (λ o, match o with KCreate id => Some id | _ => None end) h).
Lemma reg_fold id h : (fold_left (reg_step id) h (0, None)).1 = created h.
Proof.
  induction h as [|o h IH] using rev_ind; [done|]. rewrite fold_left_app. cbn. unfold created in *. rewrite omap_app, app_length.
  destruct (fold_left _ h _) as [n r]. cbn in *. subst n. destruct o; cbn; lia.
Qed.
Lemma registered_snoc id h o : registered id (h ++ [o]) = (reg_step id (created h, registered id h) o).2.
Proof. unfold registered. rewrite fold_left_app. cbn. rewrite <-(reg_fold id h). by destruct (fold_left _ h _). Qed.
Lemma created_snoc h o : created (h ++ [o]) = created h + (match o with KCreate _ => 1 | _ => 0 end).
Proof. unfold created. rewrite omap_app, app_length. by destruct o. Qed.
Lemma tokens_registered h : k_next (k_run h) = created h ∧ ∀ id, k_tokens (k_run h) !! id = registered id h.
Proof.
  induction h as [|o h [Hn IH]] using rev_ind; [done|]. rewrite k_run_snoc, created_snoc.
  destruct o as [id'|id' r|i|id'| |t]; cbn [k_step].
  - cbn. split; [lia|]. intros id. rewrite registered_snoc. cbn. rewrite Hn. destruct (decide (id' = id)) as [->|]; simplify_map_eq; [done|apply IH].
  - destruct (k_tokens (k_run h) !! id') as [t|] eqn:E.
    + cbn. split; [lia|]. intros id. rewrite registered_snoc. cbn. destruct (decide (id' = id)) as [->|]; simplify_map_eq; [done|apply IH].
    + split; [lia|]. intros id. rewrite registered_snoc. cbn. destruct (decide (id' = id)) as [->|]; [done|apply IH].
  - destruct (k_taken (k_run h) !! i) as [[t n]|]; cbn; (split; [lia|]); intros id; rewrite registered_snoc; apply IH.
  - cbn. split; [lia|]. intros id. rewrite registered_snoc. cbn. destruct (decide (id' = id)) as [->|]; simplify_map_eq; [done|apply IH].
  - cbn. split; [lia|]. intros id. rewrite registered_snoc. done.
  - cbn. split; [lia|]. intros id. rewrite registered_snoc. apply IH.
Qed.
Lemma registered_lt id h t : registered id h = Some t → t < created h.
Proof.
  revert t. induction h as [|o h IH] using rev_ind; [done|]. intros t. rewrite registered_snoc, created_snoc.
  destruct o; cbn; intros Hr; repeat case_decide; simplify_eq; try lia; apply IH in Hr; lia.
Qed.
Lemma registered_inj id1 id2 h t : registered id1 h = Some t → registered id2 h = Some t → id1 = id2.
Proof.
  revert t. induction h as [|o h IH] using rev_ind; [done|]. intros t. rewrite !registered_snoc.
  destruct o; cbn; repeat case_decide; intros H1 H2; simplify_eq; try done; try by eapply IH.
  - apply registered_lt in H2. lia.
  - apply registered_lt in H1. lia.
Qed.
Lemma cancellations_snoc past h o : cancellations past (h ++ [o]) = cancellations past h ++ cancellations (past ++ h) [o].
Proof.
  revert past. induction h as [|x h IH]; intros past; [by rewrite app_nil_r|]. cbn [app cancellations]. rewrite IH. cbn [cancellations].
  rewrite <-!app_assoc. done.
Qed.
Lemma in_flight h : k_sent (k_run h) ++ (k_taken (k_run h)).*2 ≡ₚ (cancellations [] h).*2 ∧
  (∀ t, t ∈ k_cancelled (k_run h) ∨ t ∈ (k_taken (k_run h)).*1 ↔
    t ∈ (cancellations [] h).*1 ∨ (∃ h1 h2 id, h = h1 ++ KClear :: h2 ∧ registered id h1 = Some t) ∨ KOwn t ∈ h).
Proof.
  induction h as [|o h IH] using rev_ind.
  { split; [done|]. intros t. cbn. split.
    - intros [H|H]; [by apply elem_of_empty in H|inversion H].
    - intros [H|[(h1 & h2 & id & H & _)|H]]; [inversion H|by destruct h1|inversion H]. }
  rewrite k_run_snoc, cancellations_snoc. destruct IH as [IH1 IH2]. destruct (tokens_registered h) as [_ Htok].
  set (s := k_run h) in *. clearbody s. cbn [app].
  assert (Hclear : ∀ t, o ≠ KClear → (∃ h1 h2 id, h ++ [o] = h1 ++ KClear :: h2 ∧ registered id h1 = Some t) ↔
    (∃ h1 h2 id, h = h1 ++ KClear :: h2 ∧ registered id h1 = Some t)).
  { intros t Hne. split.
    - intros (h1 & h2 & id & Heq & Hr). destruct h2 as [|y h2 _] using rev_ind.
      + apply app_inj_tail in Heq as [_ ->]. done.
      + rewrite app_comm_cons, app_assoc in Heq. apply app_inj_tail in Heq as [-> _]. eauto.
    - intros (h1 & h2 & id & -> & Hr). exists h1, (h2 ++ [o]), id. by rewrite <-app_assoc. }
  assert (Hown : ∀ t, KOwn t ∈ h ++ [o] ↔ KOwn t ∈ h ∨ o = KOwn t).
  { intros t. rewrite elem_of_app, elem_of_list_singleton. naive_solver. }
  setoid_rewrite Hown.
  destruct o as [id'|id' r|i|id'| |t0]; cbn [k_step cancellations app].
  - rewrite !app_nil_r. split; [done|]. intros t. cbn. rewrite Hclear by done. specialize (IH2 t). naive_solver.
  - rewrite !app_nil_r. rewrite Htok. destruct (registered id' h) as [t1|] eqn:E; cbn.
    + unfold default_reason. split.
      * rewrite !fmap_app. cbn. rewrite app_assoc. by rewrite IH1.
      * intros t. rewrite Hclear by done. rewrite !fmap_app, !elem_of_app. specialize (IH2 t). cbn. rewrite elem_of_list_singleton. naive_solver.
    + rewrite app_nil_r. split; [done|]. intros t. rewrite Hclear by done. specialize (IH2 t). naive_solver.
  - rewrite !app_nil_r. destruct (k_taken s !! i) as [[t1 n]|] eqn:E; cbn.
    + pose proof (delete_Permutation _ _ _ E) as Hp. split.
      * rewrite <-IH1. rewrite Hp at 2. cbn. by rewrite <-app_assoc.
      * intros t. rewrite Hclear by done. specialize (IH2 t). rewrite Hp in IH2. cbn in IH2. rewrite elem_of_cons in IH2. rewrite elem_of_union, elem_of_singleton. naive_solver.
    + split; [done|]. intros t. rewrite Hclear by done. specialize (IH2 t). naive_solver.
  - rewrite !app_nil_r. split; [done|]. intros t. cbn. rewrite Hclear by done. specialize (IH2 t). naive_solver.
  - rewrite !app_nil_r. split; [done|]. intros t. cbn. rewrite elem_of_union, elem_of_list_to_set.
    assert (t ∈ (map_to_list (k_tokens s)).*2 ↔ ∃ id, registered id h = Some t) as ->.
    { rewrite elem_of_list_fmap. split.
      - intros ([id t'] & -> & Hin). apply elem_of_map_to_list in Hin. exists id. by rewrite <-Htok.
      - intros (id & Hr). exists (id, t). split; [done|]. apply elem_of_map_to_list. by rewrite Htok. }
    assert ((∃ h1 h2 id, h ++ [KClear] = h1 ++ KClear :: h2 ∧ registered id h1 = Some t) ↔
      (∃ h1 h2 id, h = h1 ++ KClear :: h2 ∧ registered id h1 = Some t) ∨ ∃ id, registered id h = Some t) as ->.
    { split.
      - intros (h1 & h2 & id & Heq & Hr). destruct h2 as [|y h2 _] using rev_ind.
        + apply app_inj_tail in Heq as [-> _]. eauto.
        + rewrite app_comm_cons, app_assoc in Heq. apply app_inj_tail in Heq as [-> _]. left. eauto.
      - intros [(h1 & h2 & id & -> & Hr)|(id & Hr)]; [exists h1, (h2 ++ [KClear]), id; by rewrite <-app_assoc|exists h, [], id; done]. }
    specialize (IH2 t). naive_solver.
  - rewrite !app_nil_r. split; [done|]. intros t. cbn. rewrite Hclear by done. rewrite elem_of_union, elem_of_singleton. specialize (IH2 t). naive_solver.
Qed.
Lemma cancellations_old h : (∀ t id, t ∈ (cancellations [] h).*1 → registered id h ≠ Some t) ∧
  (∀ t, t ∈ (cancellations [] h).*1 → t < created h) ∧ NoDup (cancellations [] h).*1.
Proof.
  induction h as [|o h (IH1 & IH2 & IH3)] using rev_ind.
  { split; [|split]; [intros t id H; inversion H|intros t H; inversion H|constructor]. }
  rewrite cancellations_snoc, fmap_app. cbn [app].
  destruct o as [id'|id' r|i|id'| |t0]; cbn [cancellations app]; rewrite ?app_nil_r; try (cbn; rewrite ?app_nil_r).
  - repeat split; [| |done].
    + intros t id Hin. rewrite registered_snoc. cbn. destruct (decide _); [|by apply IH1]. apply IH2 in Hin. intros [= <-]. lia.
    + intros t Hin. rewrite created_snoc. apply IH2 in Hin. lia.
  - destruct (registered id' h) as [t1|] eqn:E; cbn; rewrite ?app_nil_r.
    + repeat split.
      * intros t id. rewrite elem_of_app, elem_of_list_singleton, registered_snoc. cbn. intros [Hin| ->].
        -- destruct (decide _); [done|by apply IH1].
        -- destruct (decide _) as [|Hne]; [done|]. intros Hr. apply Hne. by eapply registered_inj.
      * intros t. rewrite elem_of_app, elem_of_list_singleton, created_snoc. intros [Hin| ->]; [apply IH2 in Hin; lia|apply registered_lt in E; lia].
      * apply NoDup_app. split; [done|]. split; [|apply NoDup_singleton]. intros t Hin. rewrite elem_of_list_singleton. intros ->. by eapply IH1.
    + repeat split; [| |done].
      * intros t id Hin. rewrite registered_snoc. cbn. destruct (decide _); [done|by apply IH1].
      * intros t Hin. rewrite created_snoc. apply IH2 in Hin. lia.
  - repeat split; [| |done]; intros t; [intros id|]; intros Hin; rewrite ?registered_snoc, ?created_snoc; cbn; [by apply IH1|apply IH2 in Hin; lia].
  - repeat split; [| |done]; intros t; [intros id|]; intros Hin; rewrite ?registered_snoc, ?created_snoc; cbn; [destruct (decide _); [done|by apply IH1]|apply IH2 in Hin; lia].
  - repeat split; [| |done]; intros t; [intros id|]; intros Hin; rewrite ?registered_snoc, ?created_snoc; cbn; [done|apply IH2 in Hin; lia].
  - repeat split; [| |done]; intros t; [intros id|]; intros Hin; rewrite ?registered_snoc, ?created_snoc; cbn; [by apply IH1|apply IH2 in Hin; lia].
Qed.
Lemma k_step_monotone s o t : t ∈ k_cancelled s → t ∈ k_cancelled (k_step s o).
Proof.
  intros Ht. destruct o as [id'|id' r|i|id'| |t0]; cbn; try done.
  - by destruct (k_tokens s !! id').
  - destruct (k_taken s !! i) as [[t1 n]|]; cbn; [|done]. apply elem_of_union. by right.
  - apply elem_of_union. by right.
  - apply elem_of_union. by right.
Qed.
(** While only the manager cancels tokens, no registered token is cancelled: is_cancelled is false. *)
Lemma cancelled_created h t : t ∈ k_cancelled (k_run h) ∨ t ∈ (k_taken (k_run h)).*1 → (∀ t, KOwn t ∉ h) → t < created h ∧ ∀ id, registered id h ≠ Some t.
Proof.
  intros Ht Hown. apply in_flight in Ht. destruct (cancellations_old h) as (H1 & H2 & _).
  destruct Ht as [Ht|[(h1 & h2 & id & -> & Hr)|Ht]]; [eauto| |by apply Hown in Ht].
  clear -Hr. assert (∀ h2, t < created ((h1 ++ [KClear]) ++ h2) ∧ ∀ id, registered id ((h1 ++ [KClear]) ++ h2) ≠ Some t) as H.
  { clear h2. induction h2 as [|o h2 [IH1 IH2]] using rev_ind.
    - rewrite app_nil_r. rewrite created_snoc. split; [apply registered_lt in Hr; lia|]. intros id'. by rewrite registered_snoc.
    - rewrite app_assoc, created_snoc. split; [lia|]. intros id'. rewrite registered_snoc.
      destruct o; cbn; try destruct (decide _); try done. intros [= <-]. lia. }
  specialize (H h2). by rewrite <-app_assoc in H.
Qed.

(** *** Subscriptions *)
Lemma pairs_snoc h o : pairs (h ++ [o]) = pairs_step (pairs h) o.
Proof. unfold pairs. by rewrite fold_left_app. Qed.
Definition represents (s : gmap string (gset string)) (p : gset (string * string)) : Prop :=
  (∀ u cs, s !! u = Some cs → cs ≠ ∅) ∧ ∀ u c, c ∈ default ∅ (s !! u) ↔ (u, c) ∈ p.
Lemma represents_step s p o : represents s p → represents (s_step s o) (pairs_step p o).
Proof.
  intros [Hne Hin]. destruct o as [u0 c0|u0 c0|c0]; cbn.
  - unfold subscribe. split.
    + intros u cs. destruct (decide (u0 = u)) as [->|]; simplify_map_eq; [|apply Hne]. intros [= <-]. set_solver.
    + intros u c. destruct (decide (u0 = u)) as [->|Hu]; simplify_map_eq.
      * rewrite !elem_of_union, !elem_of_singleton, Hin. naive_solver.
      * rewrite elem_of_union, elem_of_singleton, Hin. naive_solver.
  - unfold unsubscribe. destruct (s !! u0) as [cs0|] eqn:E.
    + case_decide as Hempty; split.
      * intros u cs. rewrite lookup_delete_Some. intros [_ ?]. by eapply Hne.
      * intros u c. rewrite elem_of_difference, elem_of_singleton, <-Hin. destruct (decide (u0 = u)) as [->|Hu].
        -- rewrite lookup_delete, E. cbn. set_solver.
        -- rewrite lookup_delete_ne by done. naive_solver.
      * intros u cs. destruct (decide (u0 = u)) as [->|]; simplify_map_eq; [|apply Hne]. by intros [= <-].
      * intros u c. rewrite elem_of_difference, elem_of_singleton, <-Hin. destruct (decide (u0 = u)) as [->|Hu]; simplify_map_eq.
        -- cbn. rewrite elem_of_difference, elem_of_singleton. naive_solver.
        -- naive_solver.
    + split; [done|]. intros u c. rewrite elem_of_difference, elem_of_singleton, <-Hin. split; [|naive_solver].
      intros Hc. split; [done|]. intros [= -> ->]. by rewrite E in Hc.
  - unfold unsubscribe_all. split.
    + intros u cs. rewrite map_filter_lookup_Some. by intros [_ ?].
    + intros u c. rewrite elem_of_filter, <-Hin. cbn.
      destruct (filter _ _ !! u) as [cs|] eqn:E.
      * apply map_filter_lookup_Some in E as [E _]. rewrite lookup_fmap in E. destruct (s !! u) as [cs0|]; cbn in *; [|done]. simplify_eq. set_solver.
      * apply map_filter_lookup_None in E as [E|E]; rewrite lookup_fmap in E.
        -- destruct (s !! u) as [cs0|]; cbn in *; [done|]. set_solver.
        -- destruct (s !! u) as [cs0|]; cbn in *; [|set_solver]. specialize (E _ eq_refl). cbn in E.
           assert (cs0 ∖ {[c0]} = ∅) as He by (apply dec_stable; tauto). set_solver.
Qed.
Lemma represents_run h : represents (s_run h) (pairs h).
Proof.
  induction h as [|o h IH] using rev_ind.
  - split; [done|]. intros u c. cbn. rewrite lookup_empty. cbn. set_solver.
  - rewrite pairs_snoc. unfold s_run. rewrite fold_left_app. by apply represents_step.
Qed.
Lemma size_of_list `{Countable A} (X : gset A) (l : list A) : NoDup l → (∀ x, x ∈ X ↔ x ∈ l) → size X = length l.
Proof.
  intros Hnd Hin. rewrite <-(size_list_to_set (C:=gset A) l Hnd). f_equal. apply set_eq. intros x. by rewrite elem_of_list_to_set.
Qed.
Lemma count_subscribers s p u : represents s p → size (default ∅ (s !! u) : gset string) = size (filter (λ x, x.1 = u) p).
Proof.
  intros [_ Hin]. symmetry.
  rewrite (size_of_list _ ((λ c, (u, c)) <$> elements (default ∅ (s !! u) : gset string))).
  - by rewrite fmap_length.
  - apply NoDup_fmap_2; [by intros ?? [= ]|]. apply NoDup_elements.
  - intros [u' c]. rewrite elem_of_filter, elem_of_list_fmap. cbn. split.
    + intros [-> Hp]. exists c. split; [done|]. by apply elem_of_elements, Hin.
    + intros (c' & [= -> ->] & Hc). split; [done|]. by apply Hin, elem_of_elements.
Qed.
Lemma pairs_list s p : represents s p →
  size p = stat_subscriptions s.
Proof.
  intros [Hne Hin]. unfold stat_subscriptions.
  set (l := map_to_list s). set (ps := l ≫= λ x : string * gset string, (λ c, (x.1, c)) <$> elements x.2).
  rewrite (size_of_list p ps).
  - unfold ps. clear. induction l as [|[u cs] l IH]; [done|]. cbn. rewrite app_length, fmap_length, IH. done.
  - unfold ps. assert (NoDup l.*1) as Hnd by apply NoDup_fst_map_to_list. clearbody l. clear -Hnd.
    induction l as [|[u cs] l IH]; cbn; [constructor|]. cbn in Hnd. apply NoDup_cons in Hnd as [Hni Hnd]. apply NoDup_app. split; [|split].
    + apply NoDup_fmap_2; [by intros ?? [= ]|]. apply NoDup_elements.
    + intros [u' c]. rewrite elem_of_list_fmap, elem_of_list_bind. intros (c' & [= -> ->] & _) ([u2 cs2] & Hx & Hl).
      apply elem_of_list_fmap in Hx as (c2 & [= -> ->] & _). apply Hni. apply elem_of_list_fmap. by exists (u2, cs2).
    + by apply IH.
  - intros [u c]. unfold ps. rewrite elem_of_list_bind, <-Hin. split.
    + destruct (s !! u) as [cs|] eqn:E; cbn; [|set_solver]. intros Hc. exists (u, cs). split; [|by apply elem_of_map_to_list].
      apply elem_of_list_fmap. exists c. split; [done|]. by apply elem_of_elements.
    + intros ([u2 cs2] & Hx & Hl). apply elem_of_list_fmap in Hx as (c2 & [= -> ->] & Hc). apply elem_of_map_to_list in Hl. rewrite Hl. by apply elem_of_elements in Hc.
Qed.
Lemma resources_count s p : represents s p → stat_resources s = size (set_map fst p : gset string).
Proof.
  intros [Hne Hin]. unfold stat_resources. rewrite <-size_dom. f_equal. apply set_eq. intros u. rewrite elem_of_dom, elem_of_map. split.
  - intros [cs Hcs]. destruct (set_choose_L cs) as [c Hc]; [by eapply Hne|]. exists (u, c). split; [done|]. apply Hin. by rewrite Hcs.
  - intros ([u' c] & -> & Hp). cbn. apply Hin in Hp. destruct (s !! u') eqn:E; [done|]. cbn in Hp. set_solver.
Qed.
Lemma subscribers_count s p : represents s p → stat_subscribers s = size (set_map snd p : gset string).
Proof.
  intros [Hne Hin]. unfold stat_subscribers. rewrite <-size_dom. f_equal. apply set_eq. intros c.
  assert (∀ cs (m : gmap string nat), c ∈ dom (foldr (λ c m, <[c := S (default 0 (m !! c))]> m) m cs) ↔ c ∈ cs ∨ c ∈ dom m) as H1.
  { induction cs as [|c0 cs IH]; intros m; cbn; [set_solver|]. rewrite dom_insert, elem_of_union, elem_of_singleton, IH, elem_of_cons. naive_solver. }
  assert (∀ l : list (gset string), c ∈ dom (foldr (λ cs m, foldr (λ c m, <[c := S (default 0 (m !! c))]> m) m (elements cs)) (∅ : gmap string nat) l) ↔ ∃ cs, cs ∈ l ∧ c ∈ cs) as H2.
  { induction l as [|cs l IH]; cbn; [rewrite dom_empty; set_solver|]. rewrite H1, IH, elem_of_elements. setoid_rewrite elem_of_cons. naive_solver. }
  rewrite H2, elem_of_map. split.
  - intros (cs & Hl & Hc). apply elem_of_list_fmap in Hl as ([u cs'] & -> & Hl). apply elem_of_map_to_list in Hl. exists (u, c). split; [done|]. apply Hin. by rewrite Hl.
  - intros ([u c'] & -> & Hp). cbn. apply Hin in Hp. destruct (s !! u) as [cs|] eqn:E; cbn in Hp; [|set_solver]. exists cs. split; [|done].
    apply elem_of_list_fmap. exists (u, cs). split; [done|]. by apply elem_of_map_to_list.
Qed.

(** *** Roots *)
Lemma prefix_acceptable uri : String.prefix "file://" uri = true ↔ acceptable uri.
Proof.
  unfold acceptable. split.
  - intros H. assert (∀ p s, String.prefix p s = true → ∃ r, s = String.append p r) as G.
    { clear. induction p as [|a p IH]; intros s H; [by exists s|]. destruct s as [|b s]; [done|]. cbn in H.
      destruct (Ascii.ascii_dec a b) as [->|]; [|done]. destruct (IH s H) as [r ->]. by exists r. }
    by apply G.
  - intros [r ->]. by destruct r.
Qed.
Lemma r_run_snoc h o : r_run (h ++ [o]) = (r_step (r_run h) o).1.
Proof. unfold r_run. by rewrite fold_left_app. Qed.
Definition accepted (h : list rop) : nat := length (omap (λ o, match o with RRegister u _ => if String.prefix "file://" u then Some u else None | _ => None end) h).
Lemma standing_fold h : (fold_left standing_step h (0, [])).1 = accepted h.
Proof.
  induction h as [|o h IH] using rev_ind; [done|]. rewrite fold_left_app. unfold accepted in *. rewrite omap_app, app_length. cbn.
  destruct (fold_left _ h _) as [n l]. cbn in *. subst n. destruct o as [u nm|i]; cbn; [|lia]. destruct (String.prefix _ u); cbn; lia.
Qed.
Lemma standing_snoc h o : standing (h ++ [o]) = (standing_step (accepted h, standing h) o).2.
Proof. unfold standing. rewrite fold_left_app. cbn. rewrite <-(standing_fold h). by destruct (fold_left _ h _). Qed.
Lemma accepted_snoc h o : accepted (h ++ [o]) = accepted h + (match o with RRegister u _ => if String.prefix "file://" u then 1 else 0 | _ => 0 end).
Proof. unfold accepted. rewrite omap_app, app_length. destruct o; cbn; [destruct (String.prefix _ _); cbn; lia|lia]. Qed.
Lemma changes_snoc past h o : changes past (h ++ [o]) = changes past h + changes (past ++ h) [o].
Proof.
  revert past. induction h as [|x h IH]; intros past; [by rewrite app_nil_r|]. cbn [app changes]. rewrite IH. cbn [changes]. rewrite <-!app_assoc. cbn. lia.
Qed.
Lemma remove_first_some uri l : uri ∈ root_uri <$> l → ∃ l', remove_first uri l = Some l' ∧ root_uri <$> l ≡ₚ uri :: (root_uri <$> l').
Proof.
  induction l as [|r l IH]; [by inversion 1|]. cbn. case_decide as Hd; [intros _; exists l; by rewrite Hd|].
  intros Hin. apply elem_of_cons in Hin as [->|Hin]; [done|]. destruct (IH Hin) as (l' & -> & Hp). exists (r :: l'). split; [done|]. cbn. rewrite Hp. constructor.
Qed.
Record rinv (s : roots) (h : list rop) : Prop := {
  ri_len : length (r_closures s) = accepted h;
  ri_cl : ∀ i uri, r_closures s !! i = Some (Some uri) ↔ ∃ nm, (i, MkRoot uri nm) ∈ standing h;
  ri_lt : ∀ i r, (i, r) ∈ standing h → i < accepted h;
  ri_nd : NoDup (standing h).*1;
  ri_uris : root_uri <$> r_roots s ≡ₚ (root_uri ∘ snd <$> standing h);
  ri_sent : r_sent s = changes [] h }.
Lemma filter_one {A} (l : list (nat * A)) i x : NoDup l.*1 → (i, x) ∈ l → l ≡ₚ (i, x) :: filter (λ y, y.1 ≠ i) l.
Proof.
  induction l as [|[j y] l IH]; [intros _ H; inversion H|]. intros Hnd Hin. cbn in Hnd. apply NoDup_cons in Hnd as [Hni Hnd].
  apply elem_of_cons in Hin as [[= <- <-]|Hin].
  - rewrite filter_cons_False by naive_solver. f_equiv. assert (filter (λ y, y.1 ≠ i) l = l) as ->; [|done].
    clear -Hni. induction l as [|[j y] l IH]; [done|]. cbn in Hni. apply not_elem_of_cons in Hni as [? ?]. rewrite filter_cons_True by (cbn; done). f_equal. by apply IH.
  - rewrite filter_cons_True. 2:{ cbn. intros ->. apply Hni. apply elem_of_list_fmap. by exists (i, x). }
    rewrite (IH Hnd Hin) at 1. constructor.
Qed.
Lemma rinv_run h : rinv (r_run h) h.
Proof.
  induction h as [|o h IH] using rev_ind.
  { split; try done; cbn; [intros i uri|intros i r H; inversion H|constructor]. rewrite lookup_nil. split; [done|]. intros [nm H]. inversion H. }
  rewrite r_run_snoc. destruct IH as [Hlen Hcl Hlt Hnd Huris Hsent]. set (s := r_run h) in *. clearbody s.
  destruct o as [uri name|i]; cbn [r_step].
  - unfold file_scheme. destruct (String.prefix "file://" uri) eqn:Ep; cbn [fst].
    + assert (standing (h ++ [RRegister uri name]) = standing h ++ [(accepted h, MkRoot uri name)]) as Hst by (rewrite standing_snoc; cbn [standing_step]; by rewrite Ep).
      split; cbn [r_roots r_closures r_sent].
      * rewrite app_length, accepted_snoc, Ep, Hlen. done.
      * intros j u. rewrite Hst. setoid_rewrite elem_of_app. setoid_rewrite elem_of_list_singleton. destruct (decide (j = accepted h)) as [->|Hj].
        -- rewrite <-Hlen at 1. rewrite lookup_app_r, Nat.sub_diag by lia. cbn. split; [intros [= <-]; eauto|].
           intros (nm & [Hin|[= -> ->]]); [apply Hlt in Hin; lia|done].
        -- rewrite <-Hlen in Hj. destruct (decide (j < length (r_closures s))).
           ++ rewrite lookup_app_l by done. rewrite Hcl. naive_solver.
           ++ rewrite lookup_app_r by lia. rewrite lookup_ge_None_2 by (cbn; lia). split; [done|]. intros (nm & [Hin|[= -> ->]]); [apply Hlt in Hin; lia|lia].
      * intros j r. rewrite Hst, elem_of_app, elem_of_list_singleton, accepted_snoc, Ep. intros [Hin|[= -> ->]]; [apply Hlt in Hin|]; lia.
      * rewrite Hst, fmap_app. apply NoDup_app. split; [done|]. split; [|apply NoDup_singleton]. intros j Hin. cbn. rewrite elem_of_list_singleton. intros ->.
        apply elem_of_list_fmap in Hin as ([j r] & Hj & Hin). apply Hlt in Hin. cbn in Hj. lia.
      * rewrite Hst, !fmap_app, Huris. done.
      * rewrite changes_snoc, Hsent. cbn [changes app]. rewrite decide_False; [lia|]. rewrite Hst, fmap_app. intros Hx. apply (f_equal length) in Hx. rewrite app_length in Hx. cbn in Hx. lia.
    + assert (standing (h ++ [RRegister uri name]) = standing h) as Hst by (rewrite standing_snoc; cbn [standing_step]; by rewrite Ep).
      split; rewrite ?accepted_snoc, ?Ep, ?Hst, ?Nat.add_0_r; try done. rewrite changes_snoc, Hsent. cbn [changes app]. rewrite Hst, decide_True by done. lia.
  - assert (standing (h ++ [RUnregister i]) = filter (λ x, x.1 ≠ i) (standing h)) as Hst by (by rewrite standing_snoc).
    destruct (r_closures s !! i) as [[uri|]|] eqn:E.
    + destruct (proj1 (Hcl i uri) E) as [nm Hin]. pose proof (filter_one _ _ _ Hnd Hin) as Hp.
      assert (uri ∈ root_uri <$> r_roots s) as Hu. { rewrite Huris. apply elem_of_list_fmap. by exists (i, MkRoot uri nm). }
      destruct (remove_first_some _ _ Hu) as (l' & -> & Hl'). cbn [fst]. split; cbn [r_roots r_closures r_sent].
      * by rewrite insert_length, accepted_snoc, Nat.add_0_r.
      * intros j u. rewrite Hst. setoid_rewrite elem_of_list_filter. cbn. destruct (decide (j = i)) as [->|Hj].
        -- rewrite list_lookup_insert by (by eapply lookup_lt_Some). naive_solver.
        -- rewrite list_lookup_insert_ne by done. rewrite Hcl. naive_solver.
      * intros j r. rewrite Hst, elem_of_list_filter, accepted_snoc. intros [_ Hj]. apply Hlt in Hj. lia.
      * rewrite Hst. rewrite Hp in Hnd. cbn in Hnd. by apply NoDup_cons in Hnd as [_ ?].
      * rewrite Hst. rewrite Hl' in Huris. rewrite Hp in Huris. cbn in Huris. by apply Permutation.Permutation_cons_inv in Huris.
      * rewrite changes_snoc, Hsent. cbn [changes app]. rewrite decide_False; [lia|]. rewrite Hst. intros Hx. apply (f_equal length) in Hx.
        rewrite !fmap_length in Hx. rewrite (Permutation_length Hp) in Hx. cbn in Hx. lia.
    + assert (Hst' : standing (h ++ [RUnregister i]) = standing h).
      { rewrite Hst. assert (∀ r, (i, r) ∉ standing h) as Hni by (intros [u nm] Hin; assert (r_closures s !! i = Some (Some u)) by (apply Hcl; eauto); congruence).
        clear -Hni. induction (standing h) as [|[j y] l IH]; [done|]. rewrite filter_cons_True.
        - f_equal. apply IH. intros r Hr. apply (Hni r). by right.
        - cbn. intros ->. apply (Hni y). by left. }
      cbn [fst]. split; rewrite ?accepted_snoc, ?Hst', ?Nat.add_0_r; try done. rewrite changes_snoc, Hsent. cbn [changes app]. rewrite Hst', decide_True by done. lia.
    + assert (Hst' : standing (h ++ [RUnregister i]) = standing h).
      { rewrite Hst. assert (∀ r, (i, r) ∉ standing h) as Hni by (intros [u nm] Hin; assert (r_closures s !! i = Some (Some u)) by (apply Hcl; eauto); congruence).
        clear -Hni. induction (standing h) as [|[j y] l IH]; [done|]. rewrite filter_cons_True.
        - f_equal. apply IH. intros r Hr. apply (Hni r). by right.
        - cbn. intros ->. apply (Hni y). by left. }
      cbn [fst]. split; rewrite ?accepted_snoc, ?Hst', ?Nat.add_0_r; try done. rewrite changes_snoc, Hsent. cbn [changes app]. rewrite Hst', decide_True by done. lia.
Qed.

(** *** Elicitation *)
Lemma e_run_snoc h o : e_run (h ++ [o]) = (e_step (e_run h) o).1.
Proof. unfold e_run. by rewrite fold_left_app. Qed.
Lemma asked_snoc h o : asked (h ++ [o]) = asked h ++ match o with EStart id => [id] | _ => [] end.
Proof. unfold asked. rewrite omap_app. by destruct o. Qed.
Lemma answers_snoc h o : answers (h ++ [o]) = answers h ++ match o with ERespond id => [id] | _ => [] end.
Proof. unfold answers. rewrite omap_app. by destruct o. Qed.
Definition ended (c : caller) : Prop := ∃ o, c_place c = Ended o.
(** What holds of one caller, given the identifiers asked and answered so far. *)
Definition caller_ok (A R : list string) (w : nat) (c : caller) : Prop :=
  A !! w = Some (c_id c) ∧
  (∀ a, c_slot c = Filled a → c_id c = answer_id a ∧ ∀ id n, a = Response id n → R !! n = Some id) ∧
  (∀ a, c_place c = Ended (Answered a) → c_slot c = Filled a) ∧
  (c_place c = Ended ChannelClosed → c_slot c = Dropped).
Record einv (s : elicit) (A R : list string) : Prop := {
  ei_next : e_next s = length A;
  ei_resp : e_responses s = length R;
  ei_ok : ∀ w c, e_callers s !! w = Some c → caller_ok A R w c;
  ei_pend : ∀ id w, e_pending s !! id = Some w → ∃ c, e_callers s !! w = Some c ∧ c_id c = id ∧ c_slot c = Empty ∧ ¬ ended c;
  ei_empty : ∀ w c, e_callers s !! w = Some c → c_slot c = Empty → e_pending s !! c_id c = Some w;
  ei_one : ∀ w1 w2 c1 c2 id n, e_callers s !! w1 = Some c1 → e_callers s !! w2 = Some c2 →
    c_slot c1 = Filled (Response id n) → c_slot c2 = Filled (Response id n) → w1 = w2 }.
Lemma alter_cases {V} (f : V → V) (m : gmap nat V) w w' c' : alter f w m !! w' = Some c' →
  (w' = w ∧ ∃ c, m !! w = Some c ∧ c' = f c) ∨ (w' ≠ w ∧ m !! w' = Some c').
Proof.
  destruct (decide (w = w')) as [->|]; [rewrite lookup_alter|rewrite lookup_alter_ne by done; eauto].
  destruct (m !! w'); cbn; [intros [= <-]; eauto|done].
Qed.
Lemma einv_place s A R w c p : einv s A R → e_callers s !! w = Some c →
  (∀ a, p = Ended (Answered a) → c_slot c = Filled a) → (p = Ended ChannelClosed → c_slot c = Dropped) → (∀ o, p = Ended o → c_slot c ≠ Empty) →
  einv (MkElicit (e_pending s) (alter (set_place p) w (e_callers s)) (e_next s) (e_responses s)) A R.
Proof.
  intros [H1 H2 H3 H4 H5 H6] Hc Hp1 Hp2 Hp3. split; cbn; try done.
  - intros w' c' [(-> & c0 & Hc0 & ->)|[_ Hw]]%alter_cases; [|by apply H3]. simplify_eq.
    destruct (H3 w c Hc) as (Ha & Hb & _ & _). unfold caller_ok. cbn. eauto.
  - intros id w' Hid. destruct (H4 id w' Hid) as (c' & Hc' & Hi & Hs & He). destruct (decide (w = w')) as [->|].
    + rewrite lookup_alter, Hc'. cbn. eexists. split; [done|]. cbn. split; [done|]. split; [done|]. intros [o Ho]. cbn in Ho. simplify_eq. by eapply Hp3.
    + rewrite lookup_alter_ne by done. eauto.
  - intros w' c' [(-> & c0 & Hc0 & ->)|[_ Hw]]%alter_cases; [|by apply H5]. cbn. by apply H5.
  - intros w1 w2 c1 c2 id n [(-> & c1' & Hc1 & ->)|[_ Hc1]]%alter_cases [(-> & c2' & Hc2 & ->)|[_ Hc2]]%alter_cases; cbn; eauto.
Qed.
Lemma einv_remove s A R id w x R' : einv s A R → e_pending s !! id = Some w → x ≠ Empty → (∀ i y, R !! i = Some y → R' !! i = Some y) →
  (∀ a, x = Filled a → answer_id a = id ∧ ∀ i n, a = Response i n → R' !! n = Some i ∧ n = length R) →
  einv (MkElicit (delete id (e_pending s)) (alter (set_slot x) w (e_callers s)) (e_next s) (length R')) A R'.
Proof.
  intros [H1 H2 H3 H4 H5 H6] Hid Hx HR Ha. destruct (H4 id w Hid) as (c & Hc & Hi & Hs & He).
  assert (Hnew : ∀ w' c' i, e_callers s !! w' = Some c' → c_slot c' ≠ Filled (Response i (length R))).
  { intros w' c' i Hc' Hf. destruct (H3 w' c' Hc') as (_ & Hb & _). destruct (Hb _ Hf) as [_ Hn]. specialize (Hn _ _ eq_refl). apply lookup_lt_Some in Hn. lia. }
  split; cbn; try done.
  - intros w' c' [(-> & c0 & Hc0 & ->)|[_ Hw]]%alter_cases; simplify_eq.
    + destruct (H3 w c Hc) as (Hq & Hb & _ & _). unfold caller_ok. cbn. split; [done|]. split; [|split].
      * intros a ->. destruct (Ha a eq_refl) as [<- Hn]. split; [done|]. intros i n ->. by destruct (Hn _ _ eq_refl).
      * intros a Hp. destruct He. by eexists.
      * intros Hp. destruct He. by eexists.
    + destruct (H3 w' c' Hw) as (Hq & Hb & Hc' & Hd). split; [done|]. split; [|done]. intros a Hf. destruct (Hb a Hf) as [? Hn]. split; [done|]. intros i n Heq. by apply HR, Hn.
  - intros id' w' Hid'. apply lookup_delete_Some in Hid' as [Hne Hid']. destruct (H4 id' w' Hid') as (c' & Hc' & Hi' & Hs' & He').
    exists c'. rewrite lookup_alter_ne; [done|]. intros ->. congruence.
  - intros w' c' [(-> & c0 & Hc0 & ->)|[Hne Hw]]%alter_cases; [cbn; done|]. intros Hs'. rewrite lookup_delete_ne; [by apply H5|].
    intros Heq. pose proof (H5 _ _ Hw Hs') as Hp. rewrite <-Heq in Hp. congruence.
  - intros w1 w2 c1 c2 i n [(-> & c1' & Hc1 & ->)|[_ Hc1]]%alter_cases [(-> & c2' & Hc2 & ->)|[_ Hc2]]%alter_cases; cbn; [done| | |by apply H6].
    + intros -> Hf. destruct (Ha _ eq_refl) as [_ Hn]. destruct (Hn _ _ eq_refl) as [_ ->]. by destruct (Hnew _ _ _ Hc2 Hf).
    + intros Hf ->. destruct (Ha _ eq_refl) as [_ Hn]. destruct (Hn _ _ eq_refl) as [_ ->]. by destruct (Hnew _ _ _ Hc1 Hf).
Qed.
Lemma einv_drop s A R id : einv s A R → einv (MkElicit (delete id (e_pending s)) (drop_sender id s) (e_next s) (e_responses s)) A R.
Proof.
  intros Hi. unfold drop_sender. destruct (e_pending s !! id) as [w|] eqn:E.
  - rewrite (ei_resp _ _ _ Hi). apply einv_remove with (R := R); try done.
  - rewrite delete_notin by done. by destruct s.
Qed.
Lemma einv_insert s A R id : einv s A R → e_pending s !! id = None →
  einv (MkElicit (<[id := e_next s]> (e_pending s)) (<[e_next s := MkCaller id Empty Sending]> (e_callers s)) (S (e_next s)) (e_responses s)) (A ++ [id]) R.
Proof.
  intros [H1 H2 H3 H4 H5 H6] Hid.
  assert (Hfresh : e_callers s !! e_next s = None).
  { destruct (e_callers s !! e_next s) as [c|] eqn:E; [|done]. destruct (H3 _ _ E) as (Hq & _). apply lookup_lt_Some in Hq. lia. }
  split; cbn; try done.
  - rewrite app_length. cbn. lia.
  - intros w c. destruct (decide (w = e_next s)) as [->|].
    + rewrite lookup_insert. intros [= <-]. unfold caller_ok. cbn. split; [|done]. rewrite H1. rewrite lookup_app_r, Nat.sub_diag by lia. done.
    + rewrite lookup_insert_ne by done. intros Hc. destruct (H3 w c Hc) as (Hq & ?). split; [|done]. by apply lookup_app_l_Some.
  - intros id' w. destruct (decide (id = id')) as [->|].
    + rewrite lookup_insert. intros [= <-]. rewrite lookup_insert. eexists. split; [done|]. cbn. split; [done|]. split; [done|]. by intros [o Ho].
    + rewrite lookup_insert_ne by done. intros Hp. destruct (H4 _ _ Hp) as (c & Hc & ?). exists c. rewrite lookup_insert_ne by congruence. done.
  - intros w c. destruct (decide (w = e_next s)) as [->|].
    + rewrite lookup_insert. intros [= <-] _. cbn. by rewrite lookup_insert.
    + rewrite lookup_insert_ne by done. intros Hc Hs. pose proof (H5 _ _ Hc Hs) as Hp. rewrite lookup_insert_ne by congruence. done.
  - intros w1 w2 c1 c2 i n. destruct (decide (w1 = e_next s)) as [->|]; [rewrite lookup_insert; by intros [= <-]|].
    destruct (decide (w2 = e_next s)) as [->|]; [rewrite (lookup_insert _ (e_next s)); by intros ? [= <-]|].
    rewrite !lookup_insert_ne by done. by apply H6.
Qed.
Lemma drop_sender_slot s A R w c : einv s A R → e_callers s !! w = Some c → ∃ c', drop_sender (c_id c) s !! w = Some c' ∧ c_slot c' ≠ Empty ∧
  (∀ a, c_slot c' = Filled a → c_slot c = Filled a) ∧ c_place c' = c_place c ∧ c_id c' = c_id c.
Proof.
  intros Hi Hc. unfold drop_sender. destruct (e_pending s !! c_id c) as [w'|] eqn:E.
  - destruct (decide (w' = w)) as [->|Hne].
    + rewrite lookup_alter, Hc. cbn. eexists. split; [done|]. done.
    + rewrite lookup_alter_ne by done. exists c. split; [done|]. split; [|done]. intros Hs. pose proof (ei_empty _ _ _ Hi _ _ Hc Hs). congruence.
  - exists c. split; [done|]. split; [|done]. intros Hs. pose proof (ei_empty _ _ _ Hi _ _ Hc Hs). congruence.
Qed.
Lemma receive_slot a c : ∃ x, receive a c = set_slot x c ∧ x ≠ Empty ∧ (x = Filled a ∨ x = Dropped).
Proof. unfold receive. destruct (c_place c); eexists; (split; [done|]); split; try done; eauto. Qed.
Lemma alter_receive a m w c x : m !! w = Some c → receive a c = set_slot x c → alter (receive a) w m = alter (set_slot x) w (m : gmap nat caller).
Proof.
  intros Hc Hr. apply map_eq. intros w'. destruct (decide (w = w')) as [->|]; [|by rewrite !lookup_alter_ne].
  rewrite !lookup_alter, Hc. cbn. by rewrite Hr.
Qed.
Lemma einv_receive s A R id w a R' : einv s A R → e_pending s !! id = Some w → (∀ i y, R !! i = Some y → R' !! i = Some y) →
  answer_id a = id → (∀ i n, a = Response i n → R' !! n = Some i ∧ n = length R) →
  einv (MkElicit (delete id (e_pending s)) (alter (receive a) w (e_callers s)) (e_next s) (length R')) A R'.
Proof.
  intros Hi Hp HR Ha Hn. destruct (ei_pend _ _ _ Hi _ _ Hp) as (c & Hc & _). destruct (receive_slot a c) as (x & Hx & Hxe & Hxa).
  rewrite (alter_receive a _ w c x) by done. apply einv_remove with (R := R); try done. intros a' ->. destruct Hxa as [[= ->]|]; done.
Qed.
Lemma einv_cancel_all s A R l : einv s A R → NoDup l.*1 → (∀ id w, (id, w) ∈ l → e_pending s !! id = Some w) →
  einv (MkElicit (foldr delete (e_pending s) l.*1) (foldr (λ p : string * nat, alter (receive (Cancelled p.1)) p.2) (e_callers s) l) (e_next s) (e_responses s)) A R.
Proof.
  intros Hi. induction l as [|[id w] l IH]; cbn [fmap list_fmap foldr fst snd]; [by destruct s|]. intros Hnd Hl. apply NoDup_cons in Hnd as [Hni Hnd].
  specialize (IH Hnd (λ i x Hx, Hl i x (elem_of_list_further _ _ _ Hx))).
  rewrite (ei_resp _ _ _ Hi). pose proof (einv_receive _ A R id w (Cancelled id) R IH) as H. cbn in H. apply H; try done.
  clear H.
  assert (∀ ks (m : gmap string nat), id ∉ ks → foldr delete m ks !! id = m !! id) as G.
  { clear. induction ks as [|k ks IH]; intros m Hni; [done|]. cbn. apply not_elem_of_cons in Hni as [? ?]. rewrite lookup_delete_ne by done. by apply IH. }
  rewrite G by done. apply Hl. by left.
Qed.
Lemma foldr_delete_all (m : gmap string nat) : foldr delete m (map_to_list m).*1 = ∅.
Proof.
  apply map_eq. intros k. rewrite lookup_empty. destruct (m !! k) as [w|] eqn:E.
  - assert (k ∈ (map_to_list m).*1) as Hin by (apply elem_of_list_fmap; exists (k, w); split; [done|by apply elem_of_map_to_list]).
    revert Hin. generalize (map_to_list m).*1 as ks. intros ks. induction ks as [|k' ks IH]; [by inversion 1|]. cbn.
    destruct (decide (k' = k)) as [->|]; [by rewrite lookup_delete|]. rewrite lookup_delete_ne by done. intros [?|?]%elem_of_cons; [done|by apply IH].
  - generalize (map_to_list m).*1 as ks. intros ks. induction ks as [|k' ks IH]; [done|]. cbn.
    destruct (decide (k' = k)) as [->|]; [by rewrite lookup_delete|]. by rewrite lookup_delete_ne.
Qed.
Lemma einv_run h : einv (e_run h) (asked h) (answers h).
Proof.
  induction h as [|o h IH] using rev_ind.
  { split; try done; cbn; intros *; rewrite ?lookup_empty; done. }
  rewrite e_run_snoc, asked_snoc, answers_snoc. set (s := e_run h) in *. set (A := asked h) in *. set (R := answers h) in *. clearbody s A R. clear h.
  destruct o as [id|w ok|w|w|w|w|id|id| |w]; cbn [e_step]; rewrite ?app_nil_r.
  - pose proof (einv_insert _ _ _ id (einv_drop s A R id IH)) as H. cbn in H. rewrite lookup_delete in H. specialize (H eq_refl).
    by rewrite insert_delete_insert in H.
  - unfold place_of. destruct (e_callers s !! w) as [c|] eqn:E; cbn; [|done]. destruct (c_place c) eqn:Ep; try done.
    eapply einv_place; try done; by destruct ok.
  - destruct (e_callers s !! w) as [[id sl pl]|] eqn:E; [|done]. destruct pl; try done.
    destruct (drop_sender_slot s A R w _ IH E) as (c' & Hc' & Hne & _). cbn [c_id] in Hc'.
    pose proof (einv_place _ A R w c' (Ended SendFailed) (einv_drop s A R id IH) Hc') as H. cbn in H. by apply H.
  - destruct (e_callers s !! w) as [[id sl pl]|] eqn:E; [|done]. destruct sl, pl; try done; cbn.
    + eapply einv_place; try done; cbn; naive_solver.
    + eapply einv_place; try done; cbn; naive_solver.
  - destruct (e_callers s !! w) as [[id sl pl]|] eqn:E; [|done]. destruct sl, pl; try done; cbn. by eapply einv_place.
  - destruct (e_callers s !! w) as [[id sl pl]|] eqn:E; [|done]. destruct pl; try done.
    destruct (drop_sender_slot s A R w _ IH E) as (c' & Hc' & Hne & _). cbn [c_id] in Hc'.
    pose proof (einv_place _ A R w c' (Ended TimedOut) (einv_drop s A R id IH) Hc') as H. cbn in H. by apply H.
  - assert (HR : ∀ i y, R !! i = Some y → (R ++ [id]) !! i = Some y) by (intros; by apply lookup_app_l_Some).
    destruct (e_pending s !! id) as [w|] eqn:E; cbn [fst].
    + pose proof (einv_receive s A R id w (Response id (e_responses s)) (R ++ [id]) IH E HR eq_refl) as H.
      rewrite app_length in H. cbn [length] in H. rewrite (ei_resp _ _ _ IH) in *. rewrite Nat.add_1_r in H. apply H. intros i n [= <- <-].
      split; [|done]. by rewrite lookup_app_r, Nat.sub_diag by lia.
    + destruct IH as [H1 H2 H3 H4 H5 H6]. split; cbn; try done; [rewrite app_length; cbn; lia|]. intros w c Hc.
      destruct (H3 w c Hc) as (Hq & Hb & Hd). split; [done|]. split; [|done]. intros a Hf. destruct (Hb a Hf) as [? Hn]. split; [done|]. intros i n Heq. by apply HR, Hn.
  - destruct (e_pending s !! id) as [w|] eqn:E; cbn [fst]; [|done].
    pose proof (einv_receive s A R id w (Cancelled id) R IH E) as H. rewrite (ei_resp _ _ _ IH). by apply H.
  - cbn [fst]. rewrite <-(foldr_delete_all (e_pending s)). apply einv_cancel_all; [done|apply NoDup_fst_map_to_list|].
    intros id w Hin. by apply elem_of_map_to_list.
  - unfold place_of. destruct (e_callers s !! w) as [c|] eqn:E; cbn; [|done]. destruct (c_place c) eqn:Ep; try done; by eapply einv_place.
Qed.
(** Without reuse of identifiers no call loses its sender while it waits. *)
Lemma exclusive_snoc h o : exclusive (h ++ [o]) → exclusive h.
Proof. intros He h1 id h2 w c -> Hc Hi. eapply (He h1 id (h2 ++ [o])); [by rewrite <-app_assoc|done|done]. Qed.
Definition steady (c : caller) : Prop := (c_place c = Sending ∨ c_place c = Waiting → c_slot c ≠ Dropped) ∧ c_place c ≠ Ended ChannelClosed.
Record xinv (s : elicit) : Prop := {
  xi_one : ∀ w1 w2 c1 c2, e_callers s !! w1 = Some c1 → e_callers s !! w2 = Some c2 → c_id c1 = c_id c2 → ¬ ended c1 → ¬ ended c2 → w1 = w2;
  xi_steady : ∀ w c, e_callers s !! w = Some c → steady c }.
(** Changes that keep identifiers and never un-end a call. *)
Lemma xinv_alter s f w p n r : xinv s → (∀ c, e_callers s !! w = Some c → c_id (f c) = c_id c ∧ (ended c → ended (f c)) ∧ steady (f c)) →
  xinv (MkElicit p (alter f w (e_callers s)) n r).
Proof.
  intros [H1 H2] Hf.
  assert (Hb : ∀ w' c', alter f w (e_callers s) !! w' = Some c' → ∃ c, e_callers s !! w' = Some c ∧ c_id c = c_id c' ∧ (ended c → ended c') ∧ steady c').
  { intros w' c' [(-> & c & Hc & ->)|[_ Hc]]%alter_cases.
    - destruct (Hf c Hc) as (? & ? & ?). eauto.
    - eexists. split; [done|]. split; [done|]. split; [done|]. by eapply H2. }
  split; cbn.
  - intros w1 w2 c1 c2 Hc1 Hc2 Hid He1 He2. destruct (Hb _ _ Hc1) as (b1 & Hb1 & Hi1 & Hn1 & _). destruct (Hb _ _ Hc2) as (b2 & Hb2 & Hi2 & Hn2 & _).
    eapply (H1 w1 w2 b1 b2); [done|done|congruence|tauto|tauto].
  - intros w' c' Hc'. by destruct (Hb _ _ Hc') as (_ & _ & _ & _ & ?).
Qed.
Lemma steady_receive a c : steady c → steady (receive a c).
Proof. unfold steady, receive. intros [H1 H2]. destruct (c_place c) eqn:E; cbn; rewrite ?E; (split; [|done]); try done; intros [?|?]; done. Qed.
Lemma ended_receive a c : c_id (receive a c) = c_id c ∧ (ended c → ended (receive a c)).
Proof. unfold receive, ended. destruct (c_place c) eqn:E; cbn; rewrite ?E; done. Qed.
Lemma xinv_run h : exclusive h → xinv (e_run h).
Proof.
  induction h as [|o h IH] using rev_ind; [done|]. intros He. specialize (IH (exclusive_snoc _ _ He)). rewrite e_run_snoc.
  pose proof (einv_run h) as Hi.
  destruct o as [id|w ok|w|w|w|w|id|id| |w]; cbn [e_step].
  - (* a start: nobody is pending under this identifier *)
    assert (Hend : ∀ w c, e_callers (e_run h) !! w = Some c → c_id c = id → ended c) by (intros w c; by apply (He h id [])).
    assert (drop_sender id (e_run h) = e_callers (e_run h)) as ->.
    { unfold drop_sender. destruct (e_pending (e_run h) !! id) as [w|] eqn:E; [|done]. destruct (ei_pend _ _ _ Hi _ _ E) as (c & Hc & Hid & _ & Hn). destruct Hn. by eapply Hend. }
    destruct IH as [H1 H2]. split; cbn.
    + intros w1 w2 c1 c2 Hc1 Hc2 Hid Hn1 Hn2. apply lookup_insert_Some in Hc1 as [[<- <-]|[Hw1 Hc1]]; apply lookup_insert_Some in Hc2 as [[<- <-]|[Hw2 Hc2]]; [done| | |by eapply H1].
      * destruct Hn2. eapply Hend; [done|]. by cbn in Hid.
      * destruct Hn1. by eapply Hend.
    + intros w c. rewrite lookup_insert_Some. intros [[_ <-]|[_ Hc]]; [split; [by intros _|done]|by eapply H2].
  - unfold place_of. destruct (e_callers (e_run h) !! w) as [c|] eqn:E; [|done]. cbn. destruct (c_place c) eqn:Ep; try done. cbn.
    apply xinv_alter; [done|]. intros c' Hc'. simplify_eq. split; [done|]. split; [intros [o Ho]; congruence|].
    destruct (xi_steady _ IH _ _ E) as [Hs _]. split; cbn; [|by destruct ok]. intros _. apply Hs. by left.
  - destruct (e_callers (e_run h) !! w) as [[id sl pl]|] eqn:E; [|done]. destruct pl; try done. cbn.
    set (s := e_run h) in *. clearbody s.
    assert (Hd : drop_sender id s = e_callers s ∨ drop_sender id s = alter (set_slot Dropped) w (e_callers s)).
    { unfold drop_sender. destruct (e_pending s !! id) as [w'|] eqn:Ep; [|by left]. right. f_equal.
      destruct (ei_pend _ _ _ Hi _ _ Ep) as (c & Hc & Hid & _ & Hn). eapply (xi_one _ IH w' w c); [done|done|done|done|]. by intros [o Ho]. }
    destruct Hd as [->| ->].
    + apply xinv_alter; [done|]. intros c Hc. simplify_eq. cbn. split; [done|]. split; [intros [o Ho]; done|]. split; cbn; [by intros [?|?]|done].
    + rewrite <-alter_compose. apply xinv_alter; [done|]. intros c Hc. simplify_eq. cbn. split; [done|]. split; [intros [o Ho]; done|]. split; cbn; [by intros [?|?]|done].
  - destruct (e_callers (e_run h) !! w) as [[id sl pl]|] eqn:E; [|done]. destruct sl, pl; try done; cbn.
    + apply xinv_alter; [done|]. intros c Hc. simplify_eq. cbn. split; [done|]. split; [intros [o Ho]; done|]. split; cbn; [by intros [?|?]|done].
    + destruct (xi_steady _ IH _ _ E) as [Hs _]. cbn in Hs. destruct Hs; eauto.
  - destruct (e_callers (e_run h) !! w) as [[id sl pl]|] eqn:E; [|done]. destruct sl, pl; try done; cbn.
    apply xinv_alter; [done|]. intros c Hc. simplify_eq. cbn. split; [done|]. split; [intros [o Ho]; done|]. split; cbn; [by intros [?|?]|done].
  - destruct (e_callers (e_run h) !! w) as [[id sl pl]|] eqn:E; [|done]. destruct pl; try done. cbn.
    set (s := e_run h) in *. clearbody s.
    assert (Hd : drop_sender id s = e_callers s ∨ drop_sender id s = alter (set_slot Dropped) w (e_callers s)).
    { unfold drop_sender. destruct (e_pending s !! id) as [w'|] eqn:Ep; [|by left]. right. f_equal.
      destruct (ei_pend _ _ _ Hi _ _ Ep) as (c & Hc & Hid & _ & Hn). eapply (xi_one _ IH w' w c); [done|done|done|done|]. by intros [o Ho]. }
    destruct Hd as [->| ->].
    + apply xinv_alter; [done|]. intros c Hc. simplify_eq. cbn. split; [done|]. split; [intros [o Ho]; done|]. split; cbn; [by intros [?|?]|done].
    + rewrite <-alter_compose. apply xinv_alter; [done|]. intros c Hc. simplify_eq. cbn. split; [done|]. split; [intros [o Ho]; done|]. split; cbn; [by intros [?|?]|done].
  - destruct (e_pending (e_run h) !! id) as [w|]; cbn; [|by destruct IH]. apply xinv_alter; [done|]. intros c Hc.
    destruct (ended_receive (Response id (e_responses (e_run h))) c). split; [done|]. split; [done|]. apply steady_receive. by eapply xi_steady.
  - destruct (e_pending (e_run h) !! id) as [w|]; cbn; [|done]. apply xinv_alter; [done|]. intros c Hc.
    destruct (ended_receive (Cancelled id) c). split; [done|]. split; [done|]. apply steady_receive. by eapply xi_steady.
  - cbn. generalize (map_to_list (e_pending (e_run h))) as l. intros l.
    assert (∀ p n r, xinv (MkElicit p (foldr (λ p : string * nat, alter (receive (Cancelled p.1)) p.2) (e_callers (e_run h)) l) n r)) as G; [|apply G].
    induction l as [|[id w] l IHl]; intros p n r; cbn; [by destruct IH|]. specialize (IHl p n r).
    apply (xinv_alter (MkElicit p (foldr (λ p : string * nat, alter (receive (Cancelled p.1)) p.2) (e_callers (e_run h)) l) n r)); [done|].
    intros c Hc. destruct (ended_receive (Cancelled id) c). split; [done|]. split; [done|]. apply steady_receive. by eapply xi_steady.
  - unfold place_of. destruct (e_callers (e_run h) !! w) as [c|] eqn:E; [|done]. cbn.
    destruct (c_place c) eqn:Ep; try done; cbn; apply xinv_alter; try done; intros c' Hc'; simplify_eq; (split; [done|]); (split; [intros [o Ho]; congruence|]); split; cbn; try done; by intros [?|?].
Qed.

(** Roots with distinct URIs. *)
Lemma remove_first_one i r (l : list (nat * root)) : NoDup l.*1 → NoDup (root_uri <$> l.*2) → (i, r) ∈ l →
  remove_first (root_uri r) l.*2 = Some (filter (λ x, x.1 ≠ i) l).*2.
Proof.
  induction l as [|[j y] l IH]; [intros _ _ H; inversion H|]. intros Hn Hu Hin. cbn in Hn, Hu. apply NoDup_cons in Hn as [Hni Hn]. apply NoDup_cons in Hu as [Hnu Hu].
  apply elem_of_cons in Hin as [[= <- <-]|Hin].
  - cbn [fmap list_fmap remove_first snd]. rewrite decide_True by done. rewrite filter_cons_False by naive_solver. f_equal. f_equal.
    clear -Hni. induction l as [|[k y] l IH]; [done|]. cbn in Hni. apply not_elem_of_cons in Hni as [? ?]. rewrite filter_cons_True by (cbn; done). f_equal. by apply IH.
  - cbn [fmap list_fmap remove_first snd]. rewrite decide_False.
    + rewrite filter_cons_True. 2:{ cbn. intros ->. apply Hni. apply elem_of_list_fmap. by exists (i, r). }
      cbn. change (list_fmap (nat * root)%type root snd l) with l.*2. rewrite (IH Hn Hu Hin). done.
    + intros Heq. apply Hnu. rewrite Heq. apply elem_of_list_fmap. exists r. split; [done|]. apply elem_of_list_fmap. by exists (i, r).
Qed.
Lemma roots_distinct h : distinct_roots h → r_roots (r_run h) = (standing h).*2.
Proof.
  induction h as [|o h IH] using rev_ind; [done|]. intros Hd.
  assert (Hd' : distinct_roots h) by (intros h1 h2 ->; apply (Hd h1 (h2 ++ [o])); by rewrite app_assoc).
  specialize (IH Hd'). pose proof (rinv_run h) as Hr. pose proof (Hd' h [] (eq_sym (app_nil_r h))) as Hnd.
  rewrite r_run_snoc. destruct o as [uri name|i]; cbn [r_step].
  - unfold file_scheme. rewrite standing_snoc. cbn [standing_step]. destruct (String.prefix "file://" uri); cbn; [|done]. rewrite IH, fmap_app. done.
  - assert (standing (h ++ [RUnregister i]) = filter (λ x, x.1 ≠ i) (standing h)) as Hst by (by rewrite standing_snoc).
    assert (Hsame : (∀ r, (i, r) ∉ standing h) → filter (λ x, x.1 ≠ i) (standing h) = standing h).
    { clear. intros Hni. induction (standing h) as [|[j y] l IH]; [done|]. rewrite filter_cons_True.
      - f_equal. apply IH. intros r Hr. apply (Hni r). by right.
      - cbn. intros ->. apply (Hni y). by left. }
    rewrite Hst. destruct (r_closures (r_run h) !! i) as [[uri|]|] eqn:E.
    + destruct (proj1 (ri_cl _ _ Hr i uri) E) as [nm Hin]. pose proof (remove_first_one i _ _ (ri_nd _ _ Hr) Hnd Hin) as Hrf.
      cbn in Hrf. rewrite IH. change (list_fmap (nat * root)%type root snd) with (fmap (M:=list) (@snd nat root)) in Hrf. rewrite Hrf. done.
    + cbn. rewrite Hsame; [done|]. intros [u nm] Hin. assert (r_closures (r_run h) !! i = Some (Some u)) by (apply (ri_cl _ _ Hr); eauto). congruence.
    + cbn. rewrite Hsame; [done|]. intros [u nm] Hin. assert (r_closures (r_run h) !! i = Some (Some u)) by (apply (ri_cl _ _ Hr); eauto). congruence.
Qed.
