(** C203-C207: the attribute macros. *)
From stdpp Require Import sets list strings.
From Verif Require Import ListLib TextLib JsonLib SerdeLib TypesModel MacrosModel MacrosSpec MacrosProofs.
Local Open Scope N_scope.

(** ** C203: a tool has the name and description its attribute gives *)
(** For every attribute, however it is spaced and whatever else it says, if its texts have no quotes and
    backslashes and none can be taken for a key. *)
Theorem C203_read_partial : ∀ opening sep closing kvs, punctuation opening sep closing → Forall (λ kv, letter_key kv.1 ∧ plain kv.2) kvs →
  unmistakable (lit "name") kvs → unmistakable (lit "description") kvs →
  parse_tool_attribute (attribute opening sep closing kvs) = (λ d, (assoc (lit "name") kvs, d)) <$> assoc (lit "description") kvs.
Proof.
  intros opening sep closing kvs (Ho & Hs & Hc & (a & c & Ea & Hac) & (b & d & Eb & Hbd)) Hk Hn Hd. rewrite parse_values.
  assert (Forall (λ kv, 34 ∉ kv.1 ∧ plain kv.2) kvs) as Hp.
  { eapply Forall_impl; [exact Hk|]. intros kv [Hl Hp]. split; [|done]. intros H. apply (proj1 (Forall_forall _ _) Hl) in H. lia. }
  assert (∃ a c, opening = a ++ [c] ∧ ¬ (97 <= c <= 122 \/ c = 95)) as P1 by (exists a, c; split; [done|lia]).
  assert (∃ a c, sep = a ++ [c] ∧ ¬ (97 <= c <= 122 \/ c = 95)) as P2 by (exists b, d; split; [done|lia]).
  rewrite (found (lit "description")), (found (lit "name")); try done.
  all: unfold letter_key; by apply (bool_decide_unpack _); vm_compute.
Qed.
Print Assumptions C203_read_partial.
(** False: a description with a quote in it is cut there; what is left has the backslash of the escape. *)
Theorem C203_quote_refuted : ∀ opening sep closing kvs a b, punctuation opening sep closing → plain a →
  ∃ n, parse_tool_attribute (attribute opening sep closing ((lit "description", a ++ 34 :: b) :: kvs)) = Some (n, a ++ [92]).
Proof.
  intros opening sep closing kvs a b (Ho & Hs & Hc & _) [Hq Hb]. rewrite parse_values.
  assert (∃ r, attribute opening sep closing ((lit "description", a ++ 34 :: b) :: kvs) = (opening ++ lit "description" ++ lit " = ") ++ 34 :: (a ++ [92]) ++ 34 :: r) as [r ->].
  { assert (∃ r, literal (a ++ 34 :: b) = 34 :: (a ++ [92]) ++ 34 :: r) as [r Er].
    { assert (concat ((λ c, if bool_decide (c = 34 ∨ c = 92) then [92; c] else [c]) <$> a) = a) as Ea.
      { clear Ho Hs Hc. induction a as [|c a IH]; [done|]. cbn [fmap list_fmap concat]. rewrite bool_decide_false by set_solver. cbn [app]. f_equal. apply IH; set_solver. }
      exists (concat ((λ c, if bool_decide (c = 34 ∨ c = 92) then [92; c] else [c]) <$> b) ++ [34]). unfold literal. rewrite fmap_app, concat_app, Ea. cbn [fmap list_fmap concat].
      rewrite bool_decide_true by (by left). rewrite <- !app_assoc. done. }
    unfold attribute. cbn [fmap list_fmap]. unfold pair_text at 1. cbn [fst snd]. rewrite Er.
    destruct (pair_text <$> kvs); cbn [join_with]; eexists; rewrite <- !app_assoc; cbn [app]; rewrite <- !app_assoc; cbn [app]; rewrite <- ?app_assoc; reflexivity. }
  assert (∀ o, upto_quote ((a ++ [92]) ++ 34 :: o) = Some (a ++ [92])) as Eu by (intros o; unfold upto_quote; rewrite split_once_app; [done|set_solver]).
  unfold value_of at 2. rewrite after_hit; [|by apply (bool_decide_unpack _); vm_compute|done]. cbn [mbind option_bind]. rewrite Eu. by eexists.
Qed.
Print Assumptions C203_quote_refuted.
(** False: after a description that ends in "name = " the name that follows is not read. *)
Theorem C203_name_refuted : ∀ opening sep closing a n, punctuation opening sep closing → plain a → plain n → 32 ∉ n →
  ∃ n' d, parse_tool_attribute (attribute opening sep closing [(lit "description", a ++ lit "name = "); (lit "name", n)]) = Some (Some n', d) ∧ n' ≠ n.
Proof.
  intros opening sep closing a n (Ho & Hs & Hc & (x & c & Ex & Hac) & _) [Ha1 Ha2] [Hn1 Hn2] Hn. rewrite parse_values.
  assert (34 ∉ lit "name = " ∧ 92 ∉ lit "name = " ∧ 34 ∉ lit "description = " ∧ 34 ∉ lit "description" ++ lit " = " ∧ 34 ∉ lit "name" ++ lit " = ") as (L1 & L2 & L3 & L4 & L5) by (split_and!; by apply (bool_decide_unpack _); vm_compute).
  rewrite attribute_cons; [cbn [fst snd]|by split; cbn [snd]; set_solver].
  unfold value_of. rewrite (after_hit (lit "description" ++ lit " = ")); [|done|done]. cbn [mbind option_bind]. rewrite upto_app by set_solver. cbn [fmap option_fmap option_map].
  rewrite after_skip; [|done| |].
  - change (a ++ lit "name = ") with (a ++ lit "name" ++ lit " = "). rewrite after_hit; [|done|done]. cbn [mbind option_bind].
    rewrite attribute_cons by done. cbn [fst snd]. unfold upto_quote. rewrite split_once_app; [|set_solver]. eexists _, _. split; [reflexivity|]. cbn [fst]. intros En. apply Hn. rewrite <- En, !elem_of_app. right. right. by apply (bool_decide_unpack _); vm_compute.
  - set_solver.
  - intros [z E]. revert E. change (lit "description") with (lit "descript" ++ lit "ion"). rewrite !app_assoc. intros E%app_inv_tail. apply (f_equal last) in E.
    change (lit "name") with (lit "nam" ++ [101]) in E. change (lit "ion") with (lit "io" ++ [110]) in E. rewrite !app_assoc, !last_snoc in E. discriminate E.
Qed.
Print Assumptions C203_name_refuted.
Definition an_attr : list (list N * list N) := [(lit "description", lit "Adds, e.g. 1 = 2"); (lit "name", lit "add")].
Example C203_example : punctuation (lit "#[tool(") (lit ", ") (lit ")]") ∧ Forall (λ kv, letter_key kv.1 ∧ plain kv.2) an_attr ∧
  parse_tool_attribute (lit "#[tool(description = ""Adds, e.g. 1 = 2"", name = ""add"")]") = Some (Some (lit "add"), lit "Adds, e.g. 1 = 2") ∧
  attribute (lit "#[tool(") (lit ", ") (lit ")]") an_attr = lit "#[tool(description = ""Adds, e.g. 1 = 2"", name = ""add"")]" ∧
  parse_tool_attribute (attribute (lit "#[tool(") (lit ", ") (lit ")]") [(lit "description", lit "Sets name = "); (lit "name", lit "set")]) = Some (Some (lit ", name = "), lit "Sets name = ").
Proof.
  split_and!; [|by apply (bool_decide_unpack _); vm_compute|by vm_compute..].
  split_and!; try by apply (bool_decide_unpack _); vm_compute. - exists (lit "#[tool"), 40. auto. - exists (lit ","), 32. auto.
Qed.
Example C203_example_keys : unmistakable (lit "name") an_attr ∧ unmistakable (lit "description") an_attr.
Proof.
  assert (∀ k v x y, last k = Some x → last v = Some y → x ≠ y → ¬ ends_in k v) as H.
  { intros k v x y Hk Hv Hxy [a ->]. apply last_Some in Hk as [k' ->]. rewrite app_assoc, last_snoc in Hv. congruence. }
  split; apply Forall_cons; (split; [|apply Forall_singleton]); cbn [fst snd]; (split; [intros He; first [done|exfalso; revert He; eapply H; by vm_compute]|eapply H; by vm_compute]).
Qed.

(** ** C204: a tool that is listed is called by its name *)
(** The tools of a block are its annotated methods, in order. *)
Theorem C204_listed : ∀ items ms, expand_tool_router items = Some ms →
  tm_method <$> ms = omap (λ x, (λ _, x.1) <$> x.2) items ∧ ms ≠ [] ∧ (λ t, t.1.1) <$> tools ms = tm_tool <$> ms ∧
  ∀ m, m ∈ ms → ∃ a n, (tm_method m, Some a) ∈ items ∧ parse_tool_attribute a = Some (n, tm_description m) ∧ tm_tool m = match n with Some n => n | None => tm_method m end.
Proof.
  intros items ms H. assert (collect_tool_methods items = Some ms ∧ ms ≠ []) as [Hc Hn].
  { unfold expand_tool_router in H. destruct (collect_tool_methods items) as [[|m l]|]; try discriminate H. by injection H as <-. }
  assert (tm_method <$> ms = omap (λ x, (λ _, x.1) <$> x.2) items ∧ ∀ m, m ∈ ms → ∃ a n, (tm_method m, Some a) ∈ items ∧ parse_tool_attribute a = Some (n, tm_description m) ∧ tm_tool m = match n with Some n => n | None => tm_method m end) as [H1 H2].
  { clear H Hn. revert ms Hc. induction items as [|[m [a|]] items IH]; intros ms Hc; cbn [collect_tool_methods] in Hc.
    - injection Hc as <-. split; [done|]. intros m []%elem_of_nil.
    - destruct (parse_tool_attribute a) as [[n d]|] eqn:E; [|discriminate Hc]. destruct (collect_tool_methods items) as [l|]; [|discriminate Hc]. injection Hc as <-.
      destruct (IH l eq_refl) as [E1 E2]. split; [cbn; by rewrite E1|]. intros m' [->|Hm]%elem_of_cons; [exists a, n; split; [by left|]; cbn; split; [done|by destruct n]|].
      destruct (E2 m' Hm) as (a' & n' & ? & ?). exists a', n'. split; [by right|done].
    - destruct (IH ms Hc) as [E1 E2]. split; [done|]. intros m' Hm. destruct (E2 m' Hm) as (a' & n' & ? & ?). exists a', n'. split; [by right|done]. }
  split_and!; [done|done| |done]. unfold tools. rewrite <- list_fmap_compose. done.
Qed.
Print Assumptions C204_listed.
(** A name is unknown exactly when no tool is listed with it; the tool called is the first with the name, and
    its value or error is the answer. *)
Theorem C204_called : ∀ ms call name args,
  (handle_tool ms call name args = RUnknown ↔ name ∉ tm_tool <$> ms) ∧
  ∀ a m b, ms = a ++ m :: b → tm_tool m = name → name ∉ tm_tool <$> a →
    handle_tool ms call name args = match call (tm_method m) args with inl v => RValue v | inr e => RToolError e end.
Proof.
  intros ms call name args. unfold handle_tool. split.
  - destruct (list_find _ ms) as [[i m]|] eqn:E.
    + apply list_find_Some in E as (E1 & E2 & _). split; [by destruct (call _ _)|]. intros H. destruct H. rewrite <- E2. apply elem_of_list_fmap_1. by apply elem_of_list_lookup_2 in E1.
    + split; [|done]. intros _ (m & -> & Hm)%elem_of_list_fmap. apply list_find_None in E. by apply (proj1 (Forall_forall _ _) E m Hm).
  - intros a m b -> Hm Ha. assert (list_find (λ m, tm_tool m = name) (a ++ m :: b) = Some (length a, m)) as ->; [|done].
    apply list_find_Some. split_and!; [by apply list_lookup_middle|done|]. intros j y Hj Hl Hy. apply Ha. rewrite lookup_app_l in Hj by done. rewrite <- Hy. apply elem_of_list_fmap_1. by apply elem_of_list_lookup_2 in Hj.
Qed.
Print Assumptions C204_called.
(** So with different names every listed tool is reached. *)
Theorem C204_each_partial : ∀ ms call m args, NoDup (tm_tool <$> ms) → m ∈ ms →
  handle_tool ms call (tm_tool m) args = match call (tm_method m) args with inl v => RValue v | inr e => RToolError e end.
Proof.
  intros ms call m args Hn (a & b & ->)%elem_of_list_split. apply (proj2 (C204_called _ call (tm_tool m) args) a m b); [done|done|].
  rewrite fmap_app, fmap_cons in Hn. apply NoDup_app in Hn as (_ & Hn & _). intros H. apply (Hn _ H). by left.
Qed.
Print Assumptions C204_each_partial.
(** False: two tools may be given one name.  Both are listed, and whatever is called, the second never is. *)
Theorem C204_twice_refuted : ∀ a m b m' c call call', NoDup (tm_method <$> a ++ m :: b ++ m' :: c) → tm_tool m = tm_tool m' →
  (∀ x, x ≠ tm_method m' → call x = call' x) →
  ∀ name args, handle_tool (a ++ m :: b ++ m' :: c) call name args = handle_tool (a ++ m :: b ++ m' :: c) call' name args.
Proof.
  intros a m b m' c call call' Hn Ht Hc name args. unfold handle_tool. destruct (list_find _ _) as [[i x]|] eqn:E; [|done].
  rewrite Hc; [done|]. intros Ex. apply list_find_Some in E as (E1 & E2 & E3).
  assert (i = length a + S (length b))%nat as ->.
  { apply (NoDup_lookup _ _ _ (tm_method m') Hn).
    - by rewrite list_lookup_fmap, E1, <- Ex.
    - rewrite list_lookup_fmap. replace (a ++ m :: b ++ m' :: c) with ((a ++ m :: b) ++ m' :: c) by (by rewrite <- app_assoc).
      rewrite list_lookup_middle; [done|]. rewrite app_length. done. }
  replace (a ++ m :: b ++ m' :: c) with ((a ++ m :: b) ++ m' :: c) in E1 by (by rewrite <- app_assoc).
  rewrite list_lookup_middle in E1 by (by rewrite app_length). injection E1 as <-. apply (E3 (length a) m); [by apply list_lookup_middle|lia|]. congruence.
Qed.
Print Assumptions C204_twice_refuted.
Definition a_block : list (list N * option (list N)) := [(lit "add", Some (lit "#[tool(description = ""Adds"")]")); (lit "helper", None); (lit "sub_it", Some (lit "#[tool(name = ""sub"", description = ""Subtracts"")]"))].
Example C204_example : expand_tool_router a_block = Some [MkMethod (lit "add") (lit "add") (lit "Adds"); MkMethod (lit "sub_it") (lit "sub") (lit "Subtracts")] ∧
  handle_tool [MkMethod (lit "add") (lit "add") (lit "Adds"); MkMethod (lit "sub_it") (lit "sub") (lit "Subtracts")] (λ m a, inl (JStr m)) (lit "sub") JNull = RValue (JStr (lit "sub_it")) ∧
  handle_tool [MkMethod (lit "add") (lit "add") (lit "Adds"); MkMethod (lit "sub_it") (lit "sub") (lit "Subtracts")] (λ m a, inl (JStr m)) (lit "sub_it") JNull = RUnknown.
Proof. by vm_compute. Qed.

(** ** C205: a tool function is called with the arguments of the request *)
(** The function is called exactly when every required parameter has an argument of its type, with these
    values; otherwise the first one lacking is named. *)
Theorem C205_called : ∀ ps f args,
  (∀ vs, Forall2 (λ p v, argument p args v) ps vs → handle ps f args = match f vs with inl v => HValue v | inr e => HError e end) ∧
  (∀ n, handle ps f args = HMissing n ↔ ∃ a p b, ps = a ++ p :: b ∧ pr_name p = n ∧ pr_optional p = false ∧ (¬ ∃ x, supplied p args x) ∧
    Forall (λ q, pr_optional q = true ∨ ∃ x, supplied q args x) a) ∧
  ((∃ vs, Forall2 (λ p v, argument p args v) ps vs) ↔ ∀ p, p ∈ ps → pr_optional p = false → ∃ x, supplied p args x).
Proof.
  intros ps f args. unfold handle. split_and!.
  - intros vs Hv. apply extract_called in Hv. by rewrite Hv.
  - intros n. rewrite <- extract_missing. destruct (extract ps args) as [k|vs]; [split; by intros [= ->]|]. split; [by destruct (f vs)|done].
  - split.
    + intros [vs Hv] p Hp Ho. apply elem_of_list_lookup in Hp as [i Hp]. destruct (Forall2_lookup_l _ _ _ _ _ Hv Hp) as (v & _ & Ha).
      destruct v as [x|]; [exists x; apply Ha|]. destruct Ha; congruence.
    + intros H. destruct (extract ps args) as [k|vs] eqn:E; [|exists vs; by apply extract_called].
      apply extract_missing in E as (a & p & b & -> & _ & Ho & Hs & _). destruct Hs. apply H; [|done]. apply elem_of_app. right. by left.
Qed.
Print Assumptions C205_called.
(** False: an argument of the wrong type for an optional parameter is not refused.  The call is as without it. *)
Theorem C205_wrong_refuted : ∀ ps f p l1 x l2, p ∈ ps → pr_optional p = true → (∀ q, q ∈ ps → pr_name q = pr_name p → q = p) → pr_name p ∉ l1.*1 → pr_name p ∉ l2.*1 →
  decode (pr_ty p) x = None → handle ps f (JObj (l1 ++ (pr_name p, x) :: l2)) = handle ps f (JObj (l1 ++ l2)).
Proof.
  intros ps f p l1 x l2 _ Ho Hu H1 H2 Hd. unfold handle. assert (extract ps (JObj (l1 ++ (pr_name p, x) :: l2)) = extract ps (JObj (l1 ++ l2))) as ->; [|done].
  induction ps as [|q ps IH]; [done|]. cbn [extract]. rewrite IH by (intros; apply Hu; [by right|done]).
  assert ((if pr_optional q then Some (default None (get (JObj (l1 ++ (pr_name p, x) :: l2)) (pr_name q) ≫= from_value q)) else get (JObj (l1 ++ (pr_name p, x) :: l2)) (pr_name q) ≫= from_value q) =
    (if pr_optional q then Some (default None (get (JObj (l1 ++ l2)) (pr_name q) ≫= from_value q)) else get (JObj (l1 ++ l2)) (pr_name q) ≫= from_value q)) as ->; [|done].
  destruct (decide (pr_name q = pr_name p)) as [En|En].
  - assert (q = p) as -> by (apply Hu; [by left|done]). rewrite Ho. unfold get. rewrite !assoc_app, (assoc_not_in _ l1), (assoc_not_in _ l2) by done. cbn [assoc]. rewrite decide_True by done. cbn [mbind option_bind].
    unfold from_value. rewrite Ho, Hd. by destruct x.
  - unfold get. rewrite !assoc_app. cbn [assoc]. by rewrite decide_False.
Qed.
Print Assumptions C205_wrong_refuted.
Definition two_params : list param := [MkParam (lit "a") t_usize false; MkParam (lit "b") t_usize true].
Example C205_example :
  extract two_params (JObj [(lit "a", JInt 3); (lit "b", JInt 4)]) = inr [Some (JInt 3); Some (JInt 4)] ∧
  extract two_params (JObj [(lit "a", JInt 3); (lit "b", JStr (lit "4"))]) = inr [Some (JInt 3); None] ∧
  extract two_params (JObj [(lit "a", JStr (lit "3"))]) = inl (lit "a") ∧ extract two_params (JArr [JInt 3]) = inl (lit "a").
Proof. by vm_compute. Qed.

(** ** C206: arguments that satisfy the schema listed for a tool are accepted *)
(** Only of tools without required parameters. *)
Theorem C206_optional_partial : ∀ ps f args, Forall (λ p, pr_optional p = true) ps → ∀ n, handle ps f args ≠ HMissing n.
Proof.
  intros ps f args Hp n (a & p & b & -> & _ & Ho & _)%(C205_called ps f args). apply Forall_app in Hp as [_ Hp]. apply Forall_cons in Hp as [? _]. congruence.
Qed.
Print Assumptions C206_optional_partial.
(** False: the schema lists no parameters; every object satisfies it, also one that lacks a required
    parameter. *)
Theorem C206_schema_refuted : (∀ l, satisfies input_schema (JObj l)) ∧
  ∀ ps f, (∃ p, p ∈ ps ∧ pr_optional p = false) → ∃ n, handle ps f (JObj []) = HMissing n.
Proof.
  split.
  - intros l [|fuel]; [done|]. split_and!.
    + intros _. by exists l.
    + intros ks Hk k l' Hin _. assert (assoc (lit "required") [(lit "type", JStr (lit "object")); (lit "properties", JObj []); (lit "required", JArr [])] = Some (JArr [])) as E by (by vm_compute).
      change (assoc (lit "required") [(lit "type", JStr (lit "object")); (lit "properties", JObj []); (lit "required", JArr [])] = Some (JArr ks)) in Hk. rewrite E in Hk. injection Hk as <-. by apply elem_of_nil in Hin.
    + intros ps Hk k t l' x Hin. assert (assoc (lit "properties") [(lit "type", JStr (lit "object")); (lit "properties", JObj []); (lit "required", JArr [])] = Some (JObj [])) as E by (by vm_compute).
      change (assoc (lit "properties") [(lit "type", JStr (lit "object")); (lit "properties", JObj []); (lit "required", JArr [])] = Some (JObj ps)) in Hk. rewrite E in Hk. injection Hk as <-. by apply elem_of_nil in Hin.
  - intros ps f (p & Hp & Ho). destruct (handle ps f (JObj [])) as [v|n|e] eqn:E; [|by exists n|].
    all: exfalso; assert (∃ x, supplied p (JObj []) x) as (x & l & y & [= <-] & H & _); [|done].
    all: apply (proj2 (proj2 (C205_called ps f (JObj [])))); [|done|done]; unfold handle in E; destruct (extract ps (JObj [])) as [k|vs] eqn:Ee; [discriminate E|]; exists vs; by apply extract_called.
Qed.
Print Assumptions C206_schema_refuted.
Example C206_example : handle two_params (λ vs, inl (JInt 1)) (JObj []) = HMissing (lit "a") ∧ handle [MkParam (lit "b") t_usize true] (λ vs, inl (JInt 1)) (JObj []) = HValue (JInt 1) ∧
  ¬ satisfies input_schema (JArr []).
Proof.
  split_and!; [by vm_compute..|]. intros H. destruct (H 1%nat) as [H1 _]. destruct H1 as [l Hl]; [by vm_compute|done].
Qed.

(** ** C207: handlers of different functions have different names *)
(** When the functions are named as usual: words in lower case that start with a letter. *)
Theorem C207_names_partial : ∀ f g, snake f → snake g → handler_name f = handler_name g → f = g.
Proof.
  intros f g (ws & Hn & Hw & ->) (ws' & Hn' & Hw' & ->) E%app_inv_tail. rewrite !pascal_words in E by done. by rewrite (caps_inj ws ws').
Qed.
Print Assumptions C207_names_partial.
(** False: of digits and further underscores nothing is left to see. *)
Theorem C207_same_refuted : ∀ f g, handler_name (f ++ 95 :: g) = handler_name (f ++ 95 :: 95 :: g) ∧
  ∀ d, 48 <= d <= 57 → f ≠ [] → 95 ∉ f → 95 ∉ g → handler_name (f ++ 95 :: d :: g) = handler_name (f ++ d :: g).
Proof.
  intros f g. split.
  - unfold handler_name, to_pascal_case. f_equal. assert (∀ x, split_on 95 (f ++ 95 :: x) = split_on 95 f ++ split_on 95 x) as H.
    { intros x. induction f as [|c f IH]; [done|]. cbn [app split_on]. destruct (decide (c = 95)) as [->|Hc]; [by rewrite IH|]. rewrite IH. destruct (split_on 95 f) eqn:E; [by apply split_on_nonempty in E|done]. }
    by rewrite !H, !fmap_app, !concat_app.
  - intros d Hd Hf Hx Hy. unfold handler_name, to_pascal_case. f_equal. rewrite split_on_app, !split_on_no_sep; [|set_solver by lia..|done].
    destruct f as [|c f]; [done|]. cbn. rewrite app_nil_r. f_equal. rewrite app_nil_r. f_equal. f_equal. unfold upper. destruct (N.leb_spec 97 d); [lia|done].
Qed.
Print Assumptions C207_same_refuted.
Example C207_example : handler_name (lit "add_numbers") = lit "AddNumbersToolHandler" ∧ handler_name (lit "v_2") = handler_name (lit "v2") ∧ handler_name (lit "a_b") ≠ handler_name (lit "ab").
Proof. split_and!; [by vm_compute..|]. by apply (bool_decide_unpack _); vm_compute. Qed.
Example C207_example_snake : snake (lit "add_numbers").
Proof.
  exists [lit "add"; lit "numbers"]. split_and!; [done| |by vm_compute]. apply Forall_cons; split; [|apply Forall_singleton].
  - exists 97, (lit "dd"). split; [by vm_compute|]. split; [lia|]. by apply (bool_decide_unpack _); vm_compute.
  - exists 110, (lit "umbers"). split; [by vm_compute|]. split; [lia|]. by apply (bool_decide_unpack _); vm_compute.
Qed.
