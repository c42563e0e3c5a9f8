(** Lemmas about runtime configuration. *)
From stdpp Require Import gmap strings list.
From Verif Require Import TextLib JsonLib SerdeLib TypesModel RpcModel ServerModel DynModel DynSpec.

Section dyn.
  Context (cf : config).
  Local Notation run := (d_run cf).
  Lemma run_snoc os o m : run (os ++ [o]) m = (d_step cf (run os m) o).1.
  Proof. unfold d_run. by rewrite fold_left_app. Qed.
  Lemma run_app os os' m : run (os ++ os') m = run os' (run os m).
  Proof. unfold d_run. by rewrite fold_left_app. Qed.
  Lemma step_tool m o n : mg_tools (d_step cf m o).1 !! n = match o with DAddTool k h => if decide (k = n) then Some h else mg_tools m !! n | DRemoveTool k => if decide (k = n) then None else mg_tools m !! n | DClearTools => None | _ => mg_tools m !! n end.
  Proof.
    destruct o as [k h|k|k h|k|h|h| | |]; cbn; try done.
    - destruct (decide (k = n)) as [->|]; [by rewrite lookup_insert|by rewrite lookup_insert_ne].
    - destruct (mg_tools m !! k) eqn:E; cbn; destruct (decide (k = n)) as [->|]; [by rewrite lookup_delete|by rewrite lookup_delete_ne|done|done].
    - by destruct (mg_prompts m !! k).
  Qed.
  Lemma step_prompt m o n : mg_prompts (d_step cf m o).1 !! n = match o with DAddPrompt k h => if decide (k = n) then Some h else mg_prompts m !! n | DRemovePrompt k => if decide (k = n) then None else mg_prompts m !! n | DClearPrompts => None | _ => mg_prompts m !! n end.
  Proof.
    destruct o as [k h|k|k h|k|h|h| | |]; cbn; try done.
    - by destruct (mg_tools m !! k).
    - destruct (decide (k = n)) as [->|]; [by rewrite lookup_insert|by rewrite lookup_insert_ne].
    - destruct (mg_prompts m !! k) eqn:E; cbn; destruct (decide (k = n)) as [->|]; [by rewrite lookup_delete|by rewrite lookup_delete_ne|done|done].
  Qed.
  Lemma added_snoc_tool n h os o : last_added_tool n h (os ++ [o]) ↔ (o = DAddTool n h) ∨ (¬ about_tool n o ∧ last_added_tool n h os).
  Proof.
    split.
    - intros (l1 & l2 & E & Hl). destruct l2 as [|x l2 _] using rev_ind.
      + left. change (l1 ++ [DAddTool n h]) with (l1 ++ [DAddTool n h]) in E. by apply app_inj_tail in E as [_ ->].
      + right. change (DAddTool n h :: l2 ++ [x]) with ((DAddTool n h :: l2) ++ [x]) in E. rewrite app_assoc in E. apply app_inj_tail in E as [-> ->]. split; [apply Hl, elem_of_app; right; by left|].
        exists l1, l2. split; [done|]. intros o Ho. apply Hl, elem_of_app. by left.
    - intros [->|(Ho & l1 & l2 & -> & Hl)]; [exists os, []; split; [done|by intros ? ?%elem_of_nil]|]. exists l1, (l2 ++ [o]). split; [by rewrite <- app_assoc|]. intros x [H|H%elem_of_list_singleton]%elem_of_app; [by apply Hl|by subst].
  Qed.
  Lemma added_snoc_prompt n h os o : last_added_prompt n h (os ++ [o]) ↔ (o = DAddPrompt n h) ∨ (¬ about_prompt n o ∧ last_added_prompt n h os).
  Proof.
    split.
    - intros (l1 & l2 & E & Hl). destruct l2 as [|x l2 _] using rev_ind.
      + left. by apply app_inj_tail in E as [_ ->].
      + right. change (DAddPrompt n h :: l2 ++ [x]) with ((DAddPrompt n h :: l2) ++ [x]) in E. rewrite app_assoc in E. apply app_inj_tail in E as [-> ->]. split; [apply Hl, elem_of_app; right; by left|].
        exists l1, l2. split; [done|]. intros o Ho. apply Hl, elem_of_app. by left.
    - intros [->|(Ho & l1 & l2 & -> & Hl)]; [exists os, []; split; [done|by intros ? ?%elem_of_nil]|]. exists l1, (l2 ++ [o]). split; [by rewrite <- app_assoc|]. intros x [H|H%elem_of_list_singleton]%elem_of_app; [by apply Hl|by subst].
  Qed.
  Lemma tools_run os n h : mg_tools (run os manager_new) !! n = Some h ↔ last_added_tool n h os.
  Proof.
    induction os as [|o os IH] using rev_ind.
    - cbn. rewrite lookup_empty. split; [done|]. intros (l1 & l2 & E & _). by destruct l1.
    - rewrite run_snoc, step_tool, added_snoc_tool. unfold about_tool. destruct o as [k h'|k|k h'|k|x|x| | |]; try (rewrite IH; split; [intros H; right; split; [naive_solver|done]|naive_solver]).
      + destruct (decide (k = n)) as [->|Hk]; [|rewrite IH]; split; [intros [= ->]; by left|naive_solver|intros H; right; split; [naive_solver|done]|naive_solver].
      + destruct (decide (k = n)) as [->|Hk]; [|rewrite IH]; split; [done|naive_solver|intros H; right; split; [naive_solver|done]|naive_solver].
      + split; [done|naive_solver].
  Qed.
  Lemma prompts_run os n h : mg_prompts (run os manager_new) !! n = Some h ↔ last_added_prompt n h os.
  Proof.
    induction os as [|o os IH] using rev_ind.
    - cbn. rewrite lookup_empty. split; [done|]. intros (l1 & l2 & E & _). by destruct l1.
    - rewrite run_snoc, step_prompt, added_snoc_prompt. unfold about_prompt. destruct o as [k h'|k|k h'|k|x|x| | |]; try (rewrite IH; split; [intros H; right; split; [naive_solver|done]|naive_solver]).
      + destruct (decide (k = n)) as [->|Hk]; [|rewrite IH]; split; [intros [= ->]; by left|naive_solver|intros H; right; split; [naive_solver|done]|naive_solver].
      + destruct (decide (k = n)) as [->|Hk]; [|rewrite IH]; split; [done|naive_solver|intros H; right; split; [naive_solver|done]|naive_solver].
      + split; [done|naive_solver].
  Qed.
  (** A reload without interference *)
  Lemma add_tools l m n : NoDup l.*1 → mg_tools (run ((λ x, DAddTool x.1 x.2) <$> l) m) !! n = match (list_to_map l : gmap (list N) nat) !! n with Some h => Some h | None => mg_tools m !! n end.
  Proof.
    revert m. induction l as [|[k h] l IH]; intros m Hn; [cbn; by rewrite lookup_empty|]. cbn in Hn. apply NoDup_cons in Hn as [Hk Hn]. unfold d_run in *. cbn [fmap list_fmap fold_left]. rewrite IH by done. cbn [list_to_map foldr fst snd uncurry].
    rewrite step_tool. cbn [fst snd]. destruct (decide (k = n)) as [->|Hne]; [|by rewrite lookup_insert_ne]. rewrite lookup_insert. by rewrite (not_elem_of_list_to_map_1 _ _ Hk).
  Qed.
  Lemma add_prompts l m n : NoDup l.*1 → mg_prompts (run ((λ x, DAddPrompt x.1 x.2) <$> l) m) !! n = match (list_to_map l : gmap (list N) nat) !! n with Some h => Some h | None => mg_prompts m !! n end.
  Proof.
    revert m. induction l as [|[k h] l IH]; intros m Hn; [cbn; by rewrite lookup_empty|]. cbn in Hn. apply NoDup_cons in Hn as [Hk Hn]. unfold d_run in *. cbn [fmap list_fmap fold_left]. rewrite IH by done. cbn [list_to_map foldr fst snd uncurry].
    rewrite step_prompt. cbn [fst snd]. destruct (decide (k = n)) as [->|Hne]; [|by rewrite lookup_insert_ne]. rewrite lookup_insert. by rewrite (not_elem_of_list_to_map_1 _ _ Hk).
  Qed.
  Lemma tools_other os m n : (∀ o, o ∈ os → ¬ about_tool n o) → mg_tools (run os m) !! n = mg_tools m !! n.
  Proof.
    induction os as [|o os IH] using rev_ind; intros H; [done|]. rewrite run_snoc, step_tool, IH by (intros x Hx; apply H, elem_of_app; by left).
    assert (¬ about_tool n o) as Ho by (apply H, elem_of_app; right; by left). unfold about_tool in Ho. destruct o as [k h'|k|k h'|k|x|x| | |]; try done; [destruct (decide (k = n)); naive_solver..|naive_solver].
  Qed.
  Lemma prompts_other os m n : (∀ o, o ∈ os → ¬ about_prompt n o) → mg_prompts (run os m) !! n = mg_prompts m !! n.
  Proof.
    induction os as [|o os IH] using rev_ind; intros H; [done|]. rewrite run_snoc, step_prompt, IH by (intros x Hx; apply H, elem_of_app; by left).
    assert (¬ about_prompt n o) as Ho by (apply H, elem_of_app; right; by left). unfold about_prompt in Ho. destruct o as [k h'|k|k h'|k|x|x| | |]; try done; [destruct (decide (k = n)); naive_solver..|naive_solver].
  Qed.
  Lemma reload_tools c m : mg_tools (run (reload c) m) = dc_tools c ∧ mg_prompts (run (reload c) m) = dc_prompts c.
  Proof.
    unfold reload. rewrite !run_app. set (rest := match dc_resources c with Some h => [DResources (Some h)] | None => [] end). set (rest2 := match dc_sampling c with Some h => [DSampling (Some h)] | None => [] end).
    assert (∀ n o, o ∈ rest ∨ o ∈ rest2 → ¬ about_tool n o ∧ ¬ about_prompt n o) as W.
    { intros n o. unfold rest, rest2. destruct (dc_resources c), (dc_sampling c); rewrite ?elem_of_list_singleton, ?elem_of_nil; unfold about_tool, about_prompt; naive_solver. }
    split; apply map_eq; intros n.
    - rewrite (tools_other rest2), (tools_other rest) by (intros o Ho; eapply W; eauto). rewrite tools_other by (intros o Ho; apply elem_of_list_fmap in Ho as (? & -> & _); unfold about_tool; naive_solver).
      rewrite add_tools by apply NoDup_fst_map_to_list. rewrite list_to_map_to_list. cbn. rewrite lookup_empty. by destruct (dc_tools c !! n).
    - rewrite (prompts_other rest2), (prompts_other rest) by (intros o Ho; eapply W; eauto).
      rewrite add_prompts by apply NoDup_fst_map_to_list. rewrite list_to_map_to_list. rewrite prompts_other by (intros o Ho; apply elem_of_list_fmap in Ho as (? & -> & _); unfold about_prompt; naive_solver).
      cbn. rewrite lookup_empty. by destruct (dc_prompts c !! n).
  Qed.
  (** Announcements *)
  Lemma told_last m l v t : (l < mg_listeners m)%nat → mg_told t = mg_told m ++ ((λ l, (l, v)) <$> seq 0 (mg_listeners m)) → last_told t l = Some v.
  Proof.
    intros Hl E. unfold last_told. rewrite E, filter_app. assert (∀ a k, (a <= l < a + k)%nat → filter (λ x : nat * scaps, x.1 = l) ((λ l, (l, v)) <$> seq a k) = [(l, v)]) as W.
    { intros a k. revert a. induction k as [|k IH]; intros a Hk; [lia|]. cbn [seq fmap list_fmap]. destruct (decide (a = l)) as [->|Hne].
      - rewrite filter_cons_True by done. f_equal. clear. assert (∀ b, (l < b)%nat → filter (λ x : nat * scaps, x.1 = l) ((λ l, (l, v)) <$> seq b k) = []) as H; [|apply H; lia].
        induction k as [|k IH]; intros b Hb; [done|]. cbn [seq fmap list_fmap]. rewrite filter_cons_False by (cbn; lia). apply IH. lia.
      - rewrite filter_cons_False by (cbn; lia). apply IH. lia. }
    rewrite (W 0%nat) by lia. by rewrite last_snoc.
  Qed.
  Lemma listened os m : (∀ l c, (l, c) ∈ mg_told m → (l < mg_listeners m)%nat) →
    mg_listeners (run os m) = (mg_listeners m + listeners os)%nat ∧ ∀ l c, (l, c) ∈ mg_told (run os m) → (l < mg_listeners (run os m))%nat.
  Proof.
    revert m. induction os as [|o os IH]; intros m Hm; [cbn; split; [lia|done]|]. change (run (o :: os) m) with (run os (d_step cf m o).1).
    assert ((∀ l c, (l, c) ∈ mg_told (d_step cf m o).1 → (l < mg_listeners (d_step cf m o).1)%nat) ∧ mg_listeners (d_step cf m o).1 = (mg_listeners m + listeners [o])%nat) as [H1 H2].
    { assert (∀ f m', mg_listeners m' = mg_listeners m → mg_told m' = mg_told m → (∀ l c, (l, c) ∈ mg_told (announce cf f m') → (l < mg_listeners (announce cf f m'))%nat) ∧ mg_listeners (announce cf f m') = (mg_listeners m + 0)%nat) as Ha.
      { intros f m' E1 E2. unfold announce. cbn [mg_told mg_listeners]. rewrite E1, E2. split; [|lia]. intros l c [H|H]%elem_of_app; [by eapply Hm|].
        apply elem_of_list_fmap in H as (l' & [= -> ->] & H). apply elem_of_seq in H. lia. }
      destruct o as [k h'|k|k h'|k|x|x| | |]; cbn [d_step fst listeners]; try (by apply Ha); try (by case_match; [by apply Ha|split; [done|cbn; lia]]).
      - cbn [mg_told mg_listeners]. split; [|lia]. intros l c H. apply Hm in H. lia.
      - split; [done|cbn; lia].
      - split; [done|cbn; lia]. }
    destruct (IH _ H1) as [H3 H4]. split; [|done]. rewrite H3, H2. destruct o; cbn [listeners]; lia.
  Qed.
End dyn.
