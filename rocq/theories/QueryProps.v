(** C223, C224: what a server says about itself; reloading built configurations. *)
From stdpp Require Import gmap strings list.
From Verif Require Import TextLib JsonLib SerdeLib TypesModel RpcModel RpcSpec RpcProofs ManagersModel ServerModel ServerSpec ServerProofs ServerProps DynModel DynSpec DynProofs QueryModel.

(** ** C223: the queries of a server tell the truth *)
(** [has_tool] and [has_prompt] say which names the builder was given … *)
Theorem C223_registered : ∀ os cf n, build os = inl cf →
  (has_tool cf n = true ↔ ∃ h, BTool n h ∈ os) ∧ (has_prompt cf n = true ↔ ∃ h, BPrompt n h ∈ os).
Proof.
  assert (∀ (A : Type) (f : bop → option A) os, is_Some (last (omap f os)) ↔ ∃ o a, o ∈ os ∧ f o = Some a) as W.
  { intros A f os. rewrite last_is_Some. split.
    - destruct (omap f os) as [|a l] eqn:E; [done|]. intros _. assert (a ∈ omap f os) as (o & Ho & Hf)%elem_of_list_omap by (rewrite E; left). eauto.
    - intros (o & a & Ho & Hf) E. assert (a ∈ omap f os) as Ha by (apply elem_of_list_omap; eauto). rewrite E in Ha. by apply elem_of_nil in Ha. }
  intros os cf n Hb. destruct (built _ _ Hb) as [H1 H2 _ _ _ _]. unfold has_tool, has_prompt. rewrite H1, H2. split.
  - transitivity (is_Some (told (tool_of n) os)); [destruct (told (tool_of n) os); split; [by eexists|done..|by intros []]|]. unfold told. rewrite W. split.
    + intros ([] & a & Ho & Hf); cbn [tool_of] in Hf; try done. case_decide; [|done]. subst. eauto.
    + intros [h Hh]. exists (BTool n h), h. split; [done|]. cbn [tool_of]. by rewrite decide_True.
  - transitivity (is_Some (told (prompt_of n) os)); [destruct (told (prompt_of n) os); split; [by eexists|done..|by intros []]|]. unfold told. rewrite W. split.
    + intros ([] & a & Ho & Hf); cbn [prompt_of] in Hf; try done. case_decide; [|done]. subst. eauto.
    + intros [h Hh]. exists (BPrompt n h), h. split; [done|]. cbn [prompt_of]. by rewrite decide_True.
Qed.
Print Assumptions C223_registered.
(** … and whether a call of that name reaches a handler. *)
Theorem C223_called : ∀ cf behave key id n args s,
  let tool := handle_request cf behave key id (RClient CCallTool (call_params n args)) s in
  let prompt := handle_request cf behave key id (RClient CGetPrompt (call_params n args)) s in
  length (sv_calls tool.1) = (length (sv_calls s) + if has_tool cf n then 1 else 0)%nat ∧
  length (sv_calls prompt.1) = (length (sv_calls s) + if has_prompt cf n then 1 else 0)%nat ∧
  (has_tool cf n = false → ∃ e, tool.2 = Some (failure id e)) ∧ (has_prompt cf n = false → ∃ e, prompt.2 = Some (failure id e)).
Proof.
  intros cf behave key id n args s tool prompt. unfold tool, prompt, has_tool, has_prompt. cbn [handle_request process_client_request].
  assert (text_of (field "name" (call_params n args)) = n) as -> by done.
  split; [|split; [|split]].
  - destruct (cf_tools cf !! n); cbn; rewrite ?app_length; cbn; lia.
  - destruct (cf_prompts cf !! n); cbn; rewrite ?app_length; cbn; lia.
  - destruct (cf_tools cf !! n); [done|]. intros _. by eexists.
  - destruct (cf_prompts cf !! n); [done|]. intros _. by eexists.
Qed.
Print Assumptions C223_called.
(** Whatever fails or panics: the client's capabilities are those of the last initialize request among
    the messages up to the one at which the server stopped, and the server says it is initialized
    exactly when there was one. *)
Theorem C223_initialized : ∀ cf behave key es, ∃ es1 es2, es = es1 ++ es2 ∧
  get_client_capabilities (v_run cf behave key es) = last (omap initialize_of es1) ∧
  (is_initialized (v_run cf behave key es) = true ↔ omap initialize_of es1 ≠ []) ∧
  (es2 = [] ∨ sv_listening (v_run cf behave key es1) = false).
Proof.
  intros cf behave key es. unfold get_client_capabilities, is_initialized. induction es as [|e es (es1 & es2 & -> & H1 & H2 & H3)] using rev_ind; [exists [], []; split; [done|]; split; [done|]; split; [by split|by left]|].
  destruct (sv_listening (v_run cf behave key (es1 ++ es2))) eqn:El.
  - assert (es2 = []) as ->.
    { destruct H3 as [->|H3]; [done|]. exfalso. rewrite <-not_false_iff_true in El. apply El. clear -H3. induction es2 as [|e es2 IH] using rev_ind; [by rewrite app_nil_r|].
      rewrite app_assoc. unfold v_run in *. rewrite fold_left_app. cbn [fold_left]. destruct e; cbn [v_step]; [by rewrite IH|done|..]; by case_match. }
    rewrite app_nil_r in El. rewrite app_nil_r in H1. rewrite app_nil_r in H2. exists (es1 ++ [e]), []. rewrite !app_nil_r. split; [done|].
    replace (v_run cf behave key (es1 ++ [e])) with (v_step cf behave key (v_run cf behave key es1) e) by (unfold v_run; by rewrite fold_left_app).
    destruct (init_step cf behave key (v_run cf behave key es1) e El) as [-> ->]. rewrite omap_app, last_app. cbn. destruct (initialize_of e) as [c|]; cbn.
    + split; [done|]. split; [|by left]. split; [|done]. intros _. by destruct (omap initialize_of es1).
    + rewrite app_nil_r. split; [done|]. split; [done|]. by left.
  - exists es1, (es2 ++ [e]). split; [by rewrite app_assoc|].
    assert (sv_client (v_run cf behave key ((es1 ++ es2) ++ [e])) = sv_client (v_run cf behave key (es1 ++ es2)) ∧ sv_initialized (v_run cf behave key ((es1 ++ es2) ++ [e])) = sv_initialized (v_run cf behave key (es1 ++ es2))) as [-> ->].
    { unfold v_run in *. rewrite fold_left_app. cbn [fold_left]. destruct e; cbn [v_step]; [by rewrite El|done|..]; by case_match. }
    split; [done|]. split; [done|]. destruct H3 as [->|H3]; [|by right]. right. by rewrite app_nil_r in El.
Qed.
Print Assumptions C223_initialized.
(** The two agree at all times, and an initialized server stays so. *)
Theorem C223_agree : ∀ cf behave key es, is_initialized (v_run cf behave key es) = true ↔ is_Some (get_client_capabilities (v_run cf behave key es)).
Proof. intros cf behave key es. destruct (C223_initialized cf behave key es) as (es1 & es2 & _ & -> & -> & _). by rewrite last_is_Some. Qed.
Print Assumptions C223_agree.
Theorem C223_stays : ∀ cf behave key es es', is_initialized (v_run cf behave key es) = true → is_initialized (v_run cf behave key (es ++ es')) = true.
Proof.
  intros cf behave key es es' H. induction es' as [|e es' IH] using rev_ind; [by rewrite app_nil_r|]. unfold is_initialized in *. rewrite app_assoc. unfold v_run in *. rewrite fold_left_app. cbn [fold_left].
  set (s := fold_left (v_step cf behave key) (es ++ es') server_new) in *. destruct (sv_listening s) eqn:El.
  - destruct (init_step cf behave key s e El) as [_ ->]. by destruct (initialize_of e).
  - destruct e; cbn [v_step]; [by rewrite El|done|..]; by case_match.
Qed.
Print Assumptions C223_stays.
(** Refuted: "initialized" does not mean the handshake has completed.  A server that could not even send
    its answer to the first initialize request says it is initialized. *)
Theorem C223_handshake_refuted : ∀ cf behave key es id p, omap initialize_of es = [] → sv_listening (v_run cf behave key es) = true →
  let s := v_run cf behave key (es ++ [EMessage (MsgRequest id (RClient CInitialize p)) false]) in
  is_initialized s = true ∧ sv_sent s = sv_sent (v_run cf behave key es) ∧ is_initialized (v_run cf behave key es) = false.
Proof.
  intros cf behave key es id p Hn Hl s. assert (s = v_step cf behave key (v_run cf behave key es) (EMessage (MsgRequest id (RClient CInitialize p)) false)) as -> by (unfold s, v_run; by rewrite fold_left_app).
  cbn [v_step]. rewrite Hl. split; [done|]. split; [done|]. destruct (C223_initialized cf behave key es) as (es1 & es2 & -> & _ & Hi & _).
  rewrite omap_app in Hn. apply app_nil in Hn as [Hn _]. destruct (is_initialized _); [|done]. by destruct (proj1 Hi eq_refl).
Qed.
Print Assumptions C223_handshake_refuted.
Definition q_ops : list bop := [BName (lit "s"); BVersion (lit "1"); BTool (lit "add") 1; BPrompt (lit "p") 2; BTool (lit "add") 3].
Definition q_hello (c : json) : event := EMessage (MsgRequest (IdNum 1) (RClient CInitialize (JObj [(lit "protocolVersion", JStr (lit "x")); (lit "capabilities", c); (lit "clientInfo", JObj [])]))) true.
Example C223_example : match build q_ops with inl cf => (has_tool cf (lit "add"), has_tool cf (lit "p"), has_prompt cf (lit "p"), has_prompt cf (lit "add")) | inr _ => (false, false, false, false) end = (true, false, true, false) ∧
  match build q_ops with inl cf => let run es := v_run cf (λ _, HPanic) (λ _, ""%string) es in
    (is_initialized (run []), get_client_capabilities (run [q_hello (JObj []); q_hello JNull]), get_client_capabilities (run [q_hello (JObj []); EReceiveError; q_hello JNull]), is_initialized (run [EReceiveError; q_hello JNull]))
  | inr _ => (true, None, None, true) end = (false, Some JNull, Some (JObj []), false).
Proof. split; by vm_compute. Qed.

(** ** C224: reloading a built configuration *)
(** What the builder of a configuration was told last. *)
Definition put_last {A} (f : cbop → option A) (os : list cbop) : option A := last (omap f os).
Definition cb_tool (n : list N) (o : cbop) : option nat := match o with CbTool m h => if decide (m = n) then Some h else None | _ => None end.
Definition cb_prompt (n : list N) (o : cbop) : option nat := match o with CbPrompt m h => if decide (m = n) then Some h else None | _ => None end.
Definition cb_resources (o : cbop) : option nat := match o with CbResources h => Some h | _ => None end.
Definition cb_sampling (o : cbop) : option nat := match o with CbSampling h => Some h | _ => None end.
Lemma put_snoc {A} (f : cbop → option A) os o : put_last f (os ++ [o]) = match f o with Some a => Some a | None => put_last f os end.
Proof. unfold put_last. rewrite omap_app, last_app. cbn. by destruct (f o). Qed.
Lemma cb_built os : (∀ n, dc_tools (cb_build os) !! n = put_last (cb_tool n) os) ∧ (∀ n, dc_prompts (cb_build os) !! n = put_last (cb_prompt n) os) ∧
  dc_resources (cb_build os) = put_last cb_resources os ∧ dc_sampling (cb_build os) = put_last cb_sampling os.
Proof.
  induction os as [|o os (H1 & H2 & H3 & H4)] using rev_ind; [done|]. unfold cb_build in *. rewrite fold_left_app. cbn [fold_left]. rewrite !put_snoc.
  split; [|split; [|split]]; intros; rewrite ?put_snoc; destruct o as [m h|m h|h|h]; cbn; rewrite ?H1, ?H2, ?H3, ?H4; try done.
  - destruct (decide (m = n)) as [->|Hn]; [by rewrite lookup_insert|]. rewrite lookup_insert_ne by done. apply H1.
  - destruct (decide (m = n)) as [->|Hn]; [by rewrite lookup_insert|]. rewrite lookup_insert_ne by done. apply H2.
Qed.
(** After a reload nobody interferes with, whatever was registered before: under each name the handler
    the builder was given last for it and under other names none; a resource or sampling handler if the
    builder was given one is the last. *)
Theorem C224_reloaded : ∀ cf m os n, let m' := d_run cf (reload (cb_build os)) m in
  mg_tools m' !! n = put_last (cb_tool n) os ∧ mg_prompts m' !! n = put_last (cb_prompt n) os ∧
  mg_resources m' = (match put_last cb_resources os with Some h => Some h | None => mg_resources m end) ∧
  mg_sampling m' = (match put_last cb_sampling os with Some h => Some h | None => mg_sampling m end).
Proof.
  intros cf m os n m'. destruct (cb_built os) as (H1 & H2 & H3 & H4). destruct (reload_tools cf (cb_build os) m) as [E1 E2]. unfold m'. rewrite E1, E2, H1, H2. split; [done|]. split; [done|].
  rewrite <-H3, <-H4. generalize (cb_build os) as c. clear. intros c. unfold reload. rewrite !run_app. set (m0 := d_run cf [DClearTools; DClearPrompts] m).
  assert (∀ l m, mg_resources (d_run cf ((λ x : list N * nat, DAddTool x.1 x.2) <$> l) m) = mg_resources m ∧ mg_sampling (d_run cf ((λ x : list N * nat, DAddTool x.1 x.2) <$> l) m) = mg_sampling m) as W1.
  { clear. intros l. induction l as [|x l IH]; intros m; [done|]. cbn [fmap list_fmap d_run fold_left]. destruct (IH (d_step cf m (DAddTool x.1 x.2)).1) as [E1 E2]. unfold d_run in E1, E2. by rewrite E1, E2. }
  assert (∀ l m, mg_resources (d_run cf ((λ x : list N * nat, DAddPrompt x.1 x.2) <$> l) m) = mg_resources m ∧ mg_sampling (d_run cf ((λ x : list N * nat, DAddPrompt x.1 x.2) <$> l) m) = mg_sampling m) as W2.
  { clear. intros l. induction l as [|x l IH]; intros m; [done|]. cbn [fmap list_fmap d_run fold_left]. destruct (IH (d_step cf m (DAddPrompt x.1 x.2)).1) as [E1 E2]. unfold d_run in E1, E2. by rewrite E1, E2. }
  assert (mg_resources m0 = mg_resources m ∧ mg_sampling m0 = mg_sampling m) as [<- <-] by done. clearbody m0.
  destruct (W1 (map_to_list (dc_tools c)) m0) as [<- <-]. set (m1 := d_run cf _ m0). clearbody m1. destruct (W2 (map_to_list (dc_prompts c)) m1) as [<- <-]. set (m2 := d_run cf _ m1). clearbody m2.
  by destruct (dc_resources c), (dc_sampling c).
Qed.
Print Assumptions C224_reloaded.
(** So the order in which different names are given does not matter, nor what was given under a name
    before: builders told the same last give the same registry. *)
Theorem C224_order : ∀ cf m os os', (∀ n, put_last (cb_tool n) os = put_last (cb_tool n) os') → (∀ n, put_last (cb_prompt n) os = put_last (cb_prompt n) os') →
  put_last cb_resources os = put_last cb_resources os' → put_last cb_sampling os = put_last cb_sampling os' →
  d_run cf (reload (cb_build os)) m = d_run cf (reload (cb_build os')) m.
Proof.
  intros cf m os os' H1 H2 H3 H4. destruct (cb_built os) as (E1 & E2 & E3 & E4), (cb_built os') as (F1 & F2 & F3 & F4).
  assert (cb_build os = cb_build os') as ->; [|done]. destruct (cb_build os), (cb_build os'). cbn in *. f_equal; [apply map_eq; intros n; congruence..|congruence|congruence].
Qed.
Print Assumptions C224_order.
(** Every listener hears of each handler of the new configuration once. *)
Theorem C224_told : ∀ cf m os l, (l < mg_listeners m)%nat → let c := cb_build os in
  length (filter (λ x, x.1 = l) (mg_told (d_run cf (reload c) m))) =
  (length (filter (λ x, x.1 = l) (mg_told m)) + size (dom (dc_tools c)) + size (dom (dc_prompts c)) + (if dc_resources c then 1 else 0) + (if dc_sampling c then 1 else 0))%nat.
Proof.
  intros cf m os l Hl c. set (tells := λ o, match o with DAddTool _ _ | DAddPrompt _ _ | DResources (Some _) | DSampling (Some _) => true | _ => false end).
  assert (∀ f k, (l < k)%nat → length (filter (λ x : nat * scaps, x.1 = l) ((λ l, (l, f)) <$> seq 0 k)) = 1%nat) as W0.
  { clear. intros f k Hk. assert (∀ k a, length (filter (λ x : nat * scaps, x.1 = l) ((λ l, (l, f)) <$> seq a k)) = if decide (a <= l < a + k) then 1 else 0)%nat as W.
    { clear. induction k as [|k IH]; intros a; [cbn; by rewrite decide_False by lia|]. change (seq a (S k)) with (a :: seq (S a) k). rewrite fmap_cons, filter_cons. cbn [fst]. destruct (decide (a = l)) as [->|Hn].
      - cbn [length]. rewrite IH, decide_False, decide_True by lia. done.
      - rewrite IH. destruct (decide (S a <= l < S a + k)%nat); [rewrite decide_True by lia|rewrite decide_False by lia]; done. }
    rewrite W, decide_True by lia. done. }
  assert (∀ ds m, (l < mg_listeners m)%nat → Forall (λ o, tells o = true ∨ o = DClearTools ∨ o = DClearPrompts) ds →
    length (filter (λ x, x.1 = l) (mg_told (d_run cf ds m))) = (length (filter (λ x, x.1 = l) (mg_told m)) + length (filter (λ o, tells o = true) ds))%nat) as W.
  { clear -W0. induction ds as [|o ds IH]; intros m Hl Hf; [cbn; lia|]. apply Forall_cons in Hf as [Ho Hf]. change (d_run cf (o :: ds) m) with (d_run cf ds (d_step cf m o).1). rewrite filter_cons.
    destruct Ho as [Ho|Ho].
    - rewrite decide_True by done. rewrite IH; [|destruct o as [| | | |[]|[]| | |]; done|done]. cbn [length].
      assert (∃ f, mg_told (d_step cf m o).1 = mg_told m ++ ((λ l, (l, f)) <$> seq 0 (mg_listeners m))) as [f ->] by (destruct o as [| | | |[]|[]| | |]; try done; by eexists).
      rewrite filter_app, app_length, W0 by done. lia.
    - rewrite decide_False by (destruct Ho as [->| ->]; done). rewrite IH; [destruct Ho as [->| ->]; done|destruct Ho as [->| ->]; done|done]. }
  rewrite W; [|done|].
  - rewrite !size_dom. unfold reload. rewrite !filter_app, !app_length.
    assert (∀ (x : gmap (list N) nat) g, (∀ y, tells (g y) = true) → length (filter (λ o, tells o = true) (g <$> map_to_list x)) = size x) as Ws.
    { clear. intros x g Hg. unfold size, map_size. generalize (map_to_list x) as y. induction y as [|z y IH]; [done|]. cbn [fmap list_fmap]. rewrite filter_cons, decide_True by done. cbn. by f_equal. }
    rewrite !Ws by done. generalize (size (dc_tools c)) (size (dc_prompts c)) (length (filter (λ x : nat * scaps, x.1 = l) (mg_told m))). intros a b k. destruct (dc_resources c), (dc_sampling c); cbn; rewrite ?(decide_False (P := false = true)), ?(decide_True (P := true = true)) by done; cbn; lia.
  - unfold reload. rewrite !Forall_app. split; [repeat constructor; tauto|]. split; [apply Forall_forall; intros o (? & -> & _)%elem_of_list_fmap; by left|].
    split; [apply Forall_forall; intros o (? & -> & _)%elem_of_list_fmap; by left|]. split; [destruct (dc_resources c)|destruct (dc_sampling c)]; repeat constructor.
Qed.
Print Assumptions C224_told.
(** Refuted: listeners are not told of what a reload takes away.  Reloading the empty configuration
    removes all dynamic tools and prompts and tells nobody. *)
Theorem C224_silent_refuted : ∀ cf m, let m' := d_run cf (reload (cb_build [])) m in mg_told m' = mg_told m ∧ mg_tools m' = ∅ ∧ mg_prompts m' = ∅.
Proof. intros cf m m'. done. Qed.
Print Assumptions C224_silent_refuted.
Definition cb_ops : list cbop := [CbTool (lit "a") 1; CbPrompt (lit "p") 2; CbTool (lit "a") 3; CbSampling 4; CbTool (lit "b") 5].
Example C224_example : let m := d_run (MkConfig (lit "s") (lit "1") scaps_default ∅ ∅ None None) (reload (cb_build cb_ops)) (MkManager {[ lit "old" := 9%nat ]} ∅ (Some 8%nat) (Some 7%nat) 2 []) in
  (mg_tools m !! lit "a", mg_tools m !! lit "old", mg_prompts m !! lit "p", mg_resources m, mg_sampling m, length (mg_told m)) = (Some 3%nat, None, Some 2%nat, Some 8%nat, Some 4%nat, 8%nat).
Proof. by vm_compute. Qed.
