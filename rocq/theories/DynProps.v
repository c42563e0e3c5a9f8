(** The properties of runtime configuration. *)
From stdpp Require Import gmap strings list.
From Verif Require Import TextLib JsonLib SerdeLib TypesModel RpcModel ServerModel DynModel DynSpec DynProofs.

Definition ex_conf : config := MkConfig (lit "s") (lit "1") scaps_default {[ lit "echo" := 0%nat ]} ∅ None None.
Definition ex_ops : list dop := [DListen; DAddTool (lit "a") 1; DAddTool (lit "b") 2; DAddPrompt (lit "p") 3; DAddTool (lit "a") 4; DRemoveTool (lit "b"); DRemoveTool (lit "b")].

(** ** C53: dynamic registration is last-writer-wins per name *)
Theorem C53_tools : ∀ cf os n h, mg_tools (d_run cf os manager_new) !! n = Some h ↔ last_added_tool n h os.
Proof. exact tools_run. Qed.
Print Assumptions C53_tools.
Theorem C53_prompts : ∀ cf os n h, mg_prompts (d_run cf os manager_new) !! n = Some h ↔ last_added_prompt n h os.
Proof. exact prompts_run. Qed.
Print Assumptions C53_prompts.
(** has_tool and has_prompt: registered with the server, or added last. *)
Theorem C53_has : ∀ cf os n, (dyn_has_tool cf (d_run cf os manager_new) n = true ↔ is_Some (cf_tools cf !! n) ∨ ∃ h, last_added_tool n h os) ∧
  (dyn_has_prompt cf (d_run cf os manager_new) n = true ↔ is_Some (cf_prompts cf !! n) ∨ ∃ h, last_added_prompt n h os).
Proof.
  intros cf os n. unfold dyn_has_tool, dyn_has_prompt. rewrite !orb_true_iff, !bool_decide_eq_true. unfold is_Some. setoid_rewrite tools_run. setoid_rewrite prompts_run. tauto.
Qed.
Print Assumptions C53_has.
(** Removing fails exactly when the name is absent, and then changes nothing. *)
Theorem C53_remove : ∀ cf os n, let m := d_run cf os manager_new in
  ((∃ e, (d_step cf m (DRemoveTool n)).2 = DNotFound e) ↔ ¬ ∃ h, last_added_tool n h os) ∧ ((∃ e, (d_step cf m (DRemovePrompt n)).2 = DNotFound e) ↔ ¬ ∃ h, last_added_prompt n h os) ∧
  ((¬ ∃ h, last_added_tool n h os) → (d_step cf m (DRemoveTool n)).1 = m) ∧ ((¬ ∃ h, last_added_prompt n h os) → (d_step cf m (DRemovePrompt n)).1 = m).
Proof.
  intros cf os n m. assert ((∃ h, last_added_tool n h os) ↔ is_Some (mg_tools m !! n)) as -> by (unfold is_Some, m; by setoid_rewrite tools_run).
  assert ((∃ h, last_added_prompt n h os) ↔ is_Some (mg_prompts m !! n)) as -> by (unfold is_Some, m; by setoid_rewrite prompts_run). cbn [d_step].
  destruct (mg_tools m !! n) as [h|], (mg_prompts m !! n) as [h'|]; (split; [|split; [|split]]); try (by intros []; eauto); cbn [snd fst]; split;
    try (by intros [e He]); try (intros H; destruct H; by eexists); try (intros _ [? ?]; done); try (intros _; by eexists); try (intros _; by intros [? ?]).
Qed.
Print Assumptions C53_remove.
(** A reload nobody interferes with leaves exactly the new tools and prompts. *)
Theorem C53_reload : ∀ cf c m, mg_tools (d_run cf (reload c) m) = dc_tools c ∧ mg_prompts (d_run cf (reload c) m) = dc_prompts c.
Proof. exact reload_tools. Qed.
Print Assumptions C53_reload.
Example C53_example : mg_tools (d_run ex_conf ex_ops manager_new) !! lit "a" = Some 4%nat ∧ mg_tools (d_run ex_conf ex_ops manager_new) !! lit "b" = None ∧
  mg_tools (d_run ex_conf (reload (MkDconfig {[ lit "c" := 7%nat ]} ∅ None None)) (d_run ex_conf ex_ops manager_new)) !! lit "a" = None.
Proof. repeat split; by vm_compute. Qed.

(** ** C54: listeners see the accumulated capabilities *)
(** What a listener is told after an operation: the server's own capabilities, changed by that one
    operation. *)
Theorem C54_one_partial : ∀ cf m l n h, (l < mg_listeners m)%nat → let own := cf_caps cf in
  let told o c := last_told (d_step cf m o).1 l = Some c in
  told (DAddTool n h) (MkScaps (Some (JObj [(lit "listChanged", JBool true)])) (sc_prompts own) (sc_resources own) (sc_logging own) (sc_completions own) (sc_sampling own) (sc_experimental own)) ∧
  told (DAddPrompt n h) (MkScaps (sc_tools own) (Some (JObj [(lit "listChanged", JBool true)])) (sc_resources own) (sc_logging own) (sc_completions own) (sc_sampling own) (sc_experimental own)) ∧
  told (DResources (Some h)) (MkScaps (sc_tools own) (sc_prompts own) (Some (JObj [(lit "subscribe", JBool true); (lit "listChanged", JBool true)])) (sc_logging own) (sc_completions own) (sc_sampling own) (sc_experimental own)) ∧
  told (DResources None) (MkScaps (sc_tools own) (sc_prompts own) None (sc_logging own) (sc_completions own) (sc_sampling own) (sc_experimental own)) ∧
  told (DSampling (Some h)) (MkScaps (sc_tools own) (sc_prompts own) (sc_resources own) (sc_logging own) (sc_completions own) (Some (JObj [])) (sc_experimental own)) ∧
  told (DSampling None) (MkScaps (sc_tools own) (sc_prompts own) (sc_resources own) (sc_logging own) (sc_completions own) None (sc_experimental own)).
Proof. intros cf m l n h Hl own told. repeat split; by apply (told_last m). Qed.
Print Assumptions C54_one_partial.
(** A listener is told something only if it was added. *)
Theorem C54_added : ∀ cf os, let m := d_run cf os manager_new in mg_listeners m = listeners os ∧ ∀ l c, (l, c) ∈ mg_told m → (l < listeners os)%nat.
Proof.
  intros cf os m. unfold m. destruct (listened cf os manager_new) as [H1 H2]; [by intros l c H; inversion H|]. rewrite H1. split; [done|]. rewrite H1 in H2. exact H2.
Qed.
Print Assumptions C54_added.
(** Refuted: the capabilities announced on adding a prompt say nothing of the tools added before, and
    the other way round – unless the server had them from the start. *)
Theorem C54_accumulated_refuted : ∀ cf os l n h n' h', sc_tools (cf_caps cf) = None → last_added_tool n' h' os → let m := d_run cf os manager_new in (l < mg_listeners m)%nat →
  let m' := (d_step cf m (DAddPrompt n h)).1 in ∃ c, last_told m' l = Some c ∧ sc_tools c = None ∧ is_Some (mg_tools m' !! n').
Proof.
  intros cf os l n h n' h' Hc Ha m Hl m'. exists (with_prompts (cf_caps cf)). split; [by apply (told_last m)|]. split; [done|]. unfold m'. rewrite step_tool. eexists. by apply tools_run.
Qed.
Print Assumptions C54_accumulated_refuted.
(** Refuted for removal: removing the one prompt while a tool is there announces no tools. *)
Theorem C54_removed_refuted : ∀ cf os l n h n' h', sc_tools (cf_caps cf) = None → last_added_tool n' h' os → last_added_prompt n h os → let m := d_run cf os manager_new in (l < mg_listeners m)%nat →
  let m' := (d_step cf m (DRemovePrompt n)).1 in ∃ c, last_told m' l = Some c ∧ sc_tools c = None ∧ is_Some (mg_tools m' !! n').
Proof.
  intros cf os l n h n' h' Hc Ha Hp m Hl m'. exists (cf_caps cf). apply (prompts_run cf) in Hp. split; [|split; [done|]].
  - apply (told_last m); [done|]. unfold m'. cbn [d_step]. fold m in Hp. by rewrite Hp.
  - unfold m'. rewrite step_tool. eexists. by apply tools_run.
Qed.
Print Assumptions C54_removed_refuted.
Example C54_example : last_told (d_run ex_conf (take 3 ex_ops) manager_new) 0 = Some (with_tools scaps_default) ∧ last_told (d_run ex_conf (take 4 ex_ops) manager_new) 0 = Some (with_prompts scaps_default) ∧
  mg_listeners (d_run ex_conf ex_ops manager_new) = 1%nat.
Proof. repeat split; by vm_compute. Qed.

(** ** C105: a reload is seen as a whole *)
(** Afterwards (see C53_reload); refuted meanwhile: there is a moment when no runtime tool is there, not
    even one that is in the old and in the new configuration. *)
Theorem C105_reload_partial : ∀ cf c m n, let m' := d_run cf (reload c) m in
  (dyn_has_tool cf m' n = true ↔ is_Some (dc_tools c !! n) ∨ is_Some (cf_tools cf !! n)) ∧
  (dyn_has_prompt cf m' n = true ↔ is_Some (dc_prompts c !! n) ∨ is_Some (cf_prompts cf !! n)) ∧
  (∀ h, dc_resources c = Some h → mg_resources m' = Some h) ∧ (∀ h, dc_sampling c = Some h → mg_sampling m' = Some h).
Proof.
  intros cf c m n m'. unfold dyn_has_tool, dyn_has_prompt. destruct (reload_tools cf c m) as [E1 E2]. unfold m'. rewrite E1, E2.
  rewrite !orb_true_iff, !bool_decide_eq_true. split; [done|]. split; [done|]. unfold reload. rewrite !app_assoc. split; intros h Hh; rewrite Hh.
  - rewrite run_app, run_snoc. destruct (dc_sampling c); done.
  - by rewrite run_snoc.
Qed.
Print Assumptions C105_reload_partial.
(** While a reload that nobody interferes with goes on, a reader of the tools sees some of the new configuration's and
    nothing of the old one's; likewise for prompts, from the second step on. *)
Lemma only_new_tools (cf : config) (T : gmap (list N) nat) os : (∀ n h, DAddTool n h ∈ os → T !! n = Some h) → ∀ m, mg_tools m ⊆ T → mg_tools (d_run cf os m) ⊆ T.
Proof.
  induction os as [|o os IH] using rev_ind; intros H m Hm; [done|]. rewrite run_snoc. specialize (IH ltac:(intros n h Hin; apply H, elem_of_app; by left) m Hm).
  apply map_subseteq_spec. intros n h. rewrite step_tool. rewrite map_subseteq_spec in IH.
  assert (∀ k h', o = DAddTool k h' → T !! k = Some h') as Ho by (intros k h' ->; apply H, elem_of_app; right; by left).
  destruct o as [k h'|k|k h'|k|x|x| | |]; try apply IH; try (by intros [=]); destruct (decide _) as [->|]; try apply IH; try (by intros [=]). intros [= <-]. by apply Ho.
Qed.
Lemma only_new_prompts (cf : config) (T : gmap (list N) nat) os : (∀ n h, DAddPrompt n h ∈ os → T !! n = Some h) → ∀ m, mg_prompts m ⊆ T → mg_prompts (d_run cf os m) ⊆ T.
Proof.
  induction os as [|o os IH] using rev_ind; intros H m Hm; [done|]. rewrite run_snoc. specialize (IH ltac:(intros n h Hin; apply H, elem_of_app; by left) m Hm).
  apply map_subseteq_spec. intros n h. rewrite step_prompt. rewrite map_subseteq_spec in IH.
  assert (∀ k h', o = DAddPrompt k h' → T !! k = Some h') as Ho by (intros k h' ->; apply H, elem_of_app; right; by left).
  destruct o as [k h'|k|k h'|k|x|x| | |]; try apply IH; try (by intros [=]); destruct (decide _) as [->|]; try apply IH; try (by intros [=]). intros [= <-]. by apply Ho.
Qed.
Lemma reload_adds c : (∀ n h, DAddTool n h ∈ reload c → dc_tools c !! n = Some h) ∧ (∀ n h, DAddPrompt n h ∈ reload c → dc_prompts c !! n = Some h).
Proof.
  split; intros n h; unfold reload; rewrite !elem_of_app; intros [H|[H|[H|[H|H]]]].
  1,6: by repeat (apply elem_of_cons in H as [H|H]; [discriminate H|]); apply elem_of_nil in H.
  1,2,5,6: apply elem_of_list_fmap in H as ([k v] & [= -> ->] & H); by apply elem_of_map_to_list in H.
  1,3: destruct (dc_resources c); [by apply elem_of_list_singleton in H|by apply elem_of_nil in H].
  all: destruct (dc_sampling c); [by apply elem_of_list_singleton in H|by apply elem_of_nil in H].
Qed.
Theorem C105_during_partial : ∀ cf c m done rest, reload c = done ++ rest →
  (1 <= length done → mg_tools (d_run cf done m) ⊆ dc_tools c)%nat ∧ (2 <= length done → mg_prompts (d_run cf done m) ⊆ dc_prompts c)%nat.
Proof.
  intros cf c m l rest E. destruct (reload_adds c) as [H1 H2]. rewrite E in H1, H2. split; intros Hl.
  - destruct l as [|o l]; [cbn in Hl; lia|]. assert (o = DClearTools) as -> by (unfold reload in E; cbn in E; congruence). change (d_run cf (DClearTools :: l) m) with (d_run cf l (set_tools ∅ m)).
    apply only_new_tools; [|apply map_empty_subseteq]. intros n h Hin. apply H1, elem_of_app. left. by right.
  - destruct l as [|o [|o' l]]; [cbn in Hl; lia..|]. assert (o = DClearTools ∧ o' = DClearPrompts) as [-> ->] by (unfold reload in E; cbn in E; split; congruence). change (d_run cf (DClearTools :: DClearPrompts :: l) m) with (d_run cf l (set_prompts ∅ (set_tools ∅ m))).
    apply only_new_prompts; [|apply map_empty_subseteq]. intros n h Hin. apply H2, elem_of_app. left. by right; right.
Qed.
Print Assumptions C105_during_partial.
(** Refuted for two reloads at the same time: if both clear before either adds, the tools of both stay. *)
Theorem C105_mixed_refuted : ∀ cf c1 c2 m,
  mg_tools (d_run cf (take 2 (reload c1) ++ take 2 (reload c2) ++ drop 2 (reload c1) ++ drop 2 (reload c2)) m) = dc_tools c2 ∪ dc_tools c1.
Proof.
  intros cf c1 c2 m. assert (∀ c m n, mg_tools (d_run cf (drop 2 (reload c)) m) !! n = (dc_tools c ∪ mg_tools m) !! n) as H.
  { clear. intros c m n. set (adds := (λ x : list N * nat, DAddTool x.1 x.2) <$> map_to_list (dc_tools c)).
    assert (drop 2 (reload c) = adds ++ ((λ x : list N * nat, DAddPrompt x.1 x.2) <$> map_to_list (dc_prompts c)) ++ match dc_resources c with Some h => [DResources (Some h)] | None => [] end ++ match dc_sampling c with Some h => [DSampling (Some h)] | None => [] end) as -> by done.
    rewrite run_app. rewrite tools_other.
    - unfold adds. rewrite add_tools by apply NoDup_fst_map_to_list. rewrite list_to_map_to_list, lookup_union. destruct (dc_tools c !! n), (mg_tools m !! n); done.
    - intros o. rewrite !elem_of_app. intros [Ho|[Ho|Ho]]; unfold about_tool.
      + apply elem_of_list_fmap in Ho as (? & -> & _). naive_solver.
      + destruct (dc_resources c); [apply elem_of_list_singleton in Ho as ->|by apply elem_of_nil in Ho]. naive_solver.
      + destruct (dc_sampling c); [apply elem_of_list_singleton in Ho as ->|by apply elem_of_nil in Ho]. naive_solver. }
  apply map_eq. intros n. rewrite !run_app, H, !lookup_union, H, lookup_union. assert (∀ x, mg_tools (d_run cf (take 2 (reload c2)) x) = ∅) as -> by done. rewrite lookup_empty. by destruct (dc_tools c2 !! n), (dc_tools c1 !! n).
Qed.
Print Assumptions C105_mixed_refuted.
Theorem C105_gap_refuted : ∀ cf c m n, cf_tools cf !! n = None → ∃ l1 l2, reload c = l1 ++ l2 ∧ dyn_has_tool cf (d_run cf l1 m) n = false.
Proof. intros cf c m n Hn. exists [DClearTools], (drop 1 (reload c)). split; [done|]. unfold dyn_has_tool. cbn. rewrite Hn, lookup_empty. done. Qed.
Print Assumptions C105_gap_refuted.
(** Refuted: a reload does not remove a resource or sampling handler the new configuration has none of. *)
Theorem C105_handlers_refuted : ∀ cf m tools prompts, let m' := d_run cf (reload (MkDconfig tools prompts None None)) m in mg_resources m' = mg_resources m ∧ mg_sampling m' = mg_sampling m.
Proof.
  intros cf m tools prompts. unfold reload. cbn [dc_tools dc_prompts dc_resources dc_sampling]. rewrite !app_nil_r. cbn zeta.
  assert (∀ os m, Forall (λ o, match o with DResources _ | DSampling _ => False | _ => True end) os → mg_resources (d_run cf os m) = mg_resources m ∧ mg_sampling (d_run cf os m) = mg_sampling m) as W.
  { clear. intros os. induction os as [|o os IH] using rev_ind; intros m H; [done|]. apply Forall_app in H as [H Ho]. rewrite Forall_singleton in Ho. rewrite run_snoc. destruct (IH m H) as [<- <-].
    destruct o as [k h|k|k h|k|h|h| | |]; try done; cbn; [by destruct (mg_tools _ !! k)|by destruct (mg_prompts _ !! k)]. }
  apply W. rewrite !Forall_app. split; [by repeat constructor|]. split; apply Forall_forall; intros o (? & -> & _)%elem_of_list_fmap; done.
Qed.
Print Assumptions C105_handlers_refuted.
Example C105_example : let m := d_run ex_conf ex_ops manager_new in let c := MkDconfig {[ lit "a" := 7%nat ]} ∅ None None in
  dyn_has_tool ex_conf m (lit "a") = true ∧ dyn_has_tool ex_conf (d_run ex_conf [DClearTools] m) (lit "a") = false ∧ dyn_has_tool ex_conf (d_run ex_conf (reload c) m) (lit "a") = true.
Proof. repeat split; by vm_compute. Qed.

(** ** C106: a tool added at runtime can be called *)
(** Refuted: whatever was added at runtime, the server answers a call of a tool it was not built with
    by "not found", and calls no handler; nor does it list the tool. *)
Theorem C106_call_refuted : ∀ cf os behave key id n h args s, cf_tools cf !! n = None → last_added_tool n h os →
  dyn_has_tool cf (d_run cf os manager_new) n = true ∧
  handle_request cf behave key id (RClient CCallTool (JObj [(lit "name", JStr n); (lit "arguments", args)])) s =
    (s, Some (create_response id (inr (ENotFound (lit "Tool" ++ lit " '" ++ n ++ lit "' not found"))))) ∧
  n ∉ (map_to_list (cf_tools cf)).*1.
Proof.
  intros cf os behave key id n h args s Hn Ha. split; [apply C53_has; right; by eexists|]. split.
  - cbn [handle_request process_client_request]. assert (text_of (field "name" (JObj [(lit "name", JStr n); (lit "arguments", args)])) = n) as -> by done. by rewrite Hn.
  - intros ([k x] & -> & Hin)%elem_of_list_fmap. apply elem_of_map_to_list in Hin. cbn in Hn. congruence.
Qed.
Print Assumptions C106_call_refuted.
(** What is known from the start stays: no runtime operation hides it. *)
Theorem C106_static_partial : ∀ cf os m n, is_Some (cf_tools cf !! n) → dyn_has_tool cf (d_run cf os m) n = true.
Proof. intros cf os m n H. unfold dyn_has_tool. rewrite (bool_decide_eq_true_2 (is_Some (cf_tools cf !! n))) by done. apply orb_true_r. Qed.
Print Assumptions C106_static_partial.
Example C106_example : cf_tools ex_conf !! lit "a" = None ∧ last_added_tool (lit "a") 4 ex_ops ∧ dyn_has_tool ex_conf (d_run ex_conf ex_ops manager_new) (lit "echo") = true.
Proof. split; [by vm_compute|]. split; [|by vm_compute]. apply (tools_run ex_conf). by vm_compute. Qed.
