From stdpp Require Import sets list strings.
From Verif Require Import ListLib TextLib JsonLib SerdeLib MacrosModel MacrosSpec.
Local Open Scope N_scope.

(** *** Searching *)
Lemma quote_unique (a b x y : list N) : 34 ∉ a → 34 ∉ b → a ++ 34 :: x = b ++ 34 :: y → a = b ∧ x = y.
Proof.
  intros Ha Hb E. pose proof (split_once_app 34 a x Ha) as H1. rewrite E, split_once_app in H1 by done. by injection H1 as -> ->.
Qed.
Lemma starts_quote p a r : 34 ∉ p → 34 ∉ a → starts_with (p ++ [34]) (a ++ 34 :: r) = true ↔ a = p.
Proof.
  intros Hp Ha. rewrite starts_with_spec. split.
  - intros [x E]. rewrite <- app_assoc in E. cbn in E. by apply quote_unique in E as [-> _].
  - intros ->. exists r. by rewrite <- app_assoc.
Qed.
Lemma after_cons p c l : starts_with p (c :: l) = false → after p (c :: l) = after p l.
Proof. intros H. cbn [after]. by rewrite H. Qed.
Lemma after_skip p a r : 34 ∉ p → 34 ∉ a → ¬ ends_in p a → after (p ++ [34]) (a ++ 34 :: r) = after (p ++ [34]) r.
Proof.
  intros Hp. induction a as [|c a IH]; intros Ha He.
  - cbn [app]. apply after_cons. destruct (starts_with _ _) eqn:E; [|done]. apply (starts_quote p [] r) in E; [|done|done]. subst p. destruct He. by exists [].
  - cbn [app]. rewrite after_cons.
    + apply IH; [set_solver|]. intros [x ->]. apply He. by exists (c :: x).
    + destruct (starts_with _ _) eqn:E; [|done]. apply (starts_quote p (c :: a) r) in E; [|done|done]. destruct He. exists []. done.
Qed.
Lemma after_hit p a r : 34 ∉ p → 34 ∉ a → after (p ++ [34]) ((a ++ p) ++ 34 :: r) = Some r.
Proof.
  intros Hp. induction a as [|c a IH]; intros Ha.
  - cbn [app]. assert (starts_with (p ++ [34]) (p ++ 34 :: r) = true) as E by (by apply starts_quote).
    destruct (p ++ 34 :: r) as [|x l] eqn:El; [by destruct p|]. cbn [after]. rewrite E, <- El. f_equal.
    rewrite app_length. cbn [length]. replace (p ++ 34 :: r) with ((p ++ [34]) ++ r) by (by rewrite <- app_assoc). apply drop_app_alt. by rewrite app_length.
  - cbn [app]. rewrite after_cons; [apply IH; set_solver|].
    destruct (starts_with _ _) eqn:E; [|done]. apply (starts_quote p (c :: a ++ p) r) in E; [|done|set_solver]. exfalso. apply (f_equal length) in E. cbn in E. rewrite app_length in E. lia.
Qed.
Lemma after_none p a : 34 ∉ a → after (p ++ [34]) a = None.
Proof.
  intros Ha. assert (∀ l, 34 ∉ l → starts_with (p ++ [34]) l = false) as Hs.
  { intros l Hl. destruct (starts_with _ _) eqn:E; [|done]. apply starts_with_spec in E as [r ->]. set_solver. }
  induction a as [|c a IH]; cbn [after]; rewrite Hs by done; [done|]. apply IH. set_solver.
Qed.
Lemma after_contains p l r : after p l = Some r → contains p l = true.
Proof.
  revert r. induction l as [|c l IH]; intros r; cbn [after]; destruct (starts_with p _) eqn:E; intros H; try done.
  - apply starts_with_spec in E as [x E]. apply contains_spec. exists [], x. exact E.
  - apply starts_with_spec in E as [x E]. apply contains_spec. exists [], x. exact E.
  - apply IH in H. apply contains_spec in H as (a & b & ->). apply contains_spec. by exists (c :: a), b.
Qed.
Lemma contains_part (p q r l : list N) : contains (p ++ q ++ r) l = true → contains q l = true.
Proof. rewrite !contains_spec. intros (a & b & ->). exists (a ++ p), (r ++ b). by rewrite <- !app_assoc. Qed.
Lemma upto_app a r : 34 ∉ a → upto_quote (a ++ 34 :: r) = Some a.
Proof. intros H. unfold upto_quote. by rewrite split_once_app. Qed.
Definition value_of (k s : list N) : option (list N) := after ((k ++ lit " = ") ++ [34]) s ≫= upto_quote.
(** The tests before the searches change nothing. *)
Lemma parse_values s : parse_tool_attribute s = (λ d, (value_of (lit "name") s, d)) <$> value_of (lit "description") s.
Proof.
  unfold parse_tool_attribute, value_of.
  change ((lit "description" ++ lit " = ") ++ [34]) with (lit "description = """). change ((lit "name" ++ lit " = ") ++ [34]) with (lit "name = """).
  assert (∀ q r, (if contains q s then after (q ++ r) s ≫= upto_quote else None) = after (q ++ r) s ≫= upto_quote) as H1.
  { intros q r. destruct (contains q s) eqn:E; [done|]. destruct (after (q ++ r) s) eqn:Ea; [|done]. apply after_contains in Ea. apply (contains_part [] q r) in Ea. congruence. }
  assert (∀ q r, (if contains q s && contains (q ++ r) s then after (q ++ r) s ≫= upto_quote else None) = after (q ++ r) s ≫= upto_quote) as H2.
  { intros q r. destruct (after (q ++ r) s) eqn:Ea; [|by destruct (_ && _)]. apply after_contains in Ea. rewrite Ea. apply (contains_part [] q r) in Ea. by rewrite Ea. }
  pose proof (H1 (lit "description") (lit " = """)) as E1. pose proof (H2 (lit "name") (lit " = """)) as E2.
  change (lit "description" ++ lit " = """) with (lit "description = """) in E1. change (lit "name" ++ lit " = """) with (lit "name = """) in E2.
  by rewrite E1, E2.
Qed.

(** *** Attributes *)
Lemma literal_plain v : plain v → literal v = 34 :: v ++ [34].
Proof.
  intros [Hq Hb]. unfold literal. f_equal. f_equal. induction v as [|c v IH]; [done|]. cbn [fmap list_fmap concat].
  rewrite bool_decide_false by set_solver. cbn [app]. f_equal. apply IH; set_solver.
Qed.
Lemma attribute_cons opening sep closing kv kvs : plain kv.2 → attribute opening sep closing (kv :: kvs) =
  (opening ++ kv.1 ++ lit " = ") ++ 34 :: kv.2 ++ 34 :: (match kvs with [] => closing | _ => attribute sep sep closing kvs end).
Proof.
  intros Hp. unfold attribute. cbn [fmap list_fmap]. unfold pair_text at 1. rewrite literal_plain by done. destruct kvs as [|kv' kvs].
  - cbn [fmap list_fmap join_with]. rewrite <- !app_assoc. cbn [app]. rewrite <- !app_assoc. done.
  - cbn [fmap list_fmap]. cbn [join_with]. rewrite <- !app_assoc. cbn [app]. rewrite <- !app_assoc. done.
Qed.
Lemma ends_pair k pre key : (∃ a c, pre = a ++ [c] ∧ ¬ (97 <= c <= 122 \/ c = 95)) → letter_key k → ends_in (k ++ lit " = ") (pre ++ key ++ lit " = ") → ends_in k key.
Proof.
  intros (a & c & -> & Hc) Hl [x E]. rewrite !app_assoc in E. apply app_inv_tail in E.
  apply app_eq_inv in E as [(m & E & ->)|(m & _ & ->)]; [|by exists m]. destruct m as [|c' m _] using rev_ind; [by exists []|].
  rewrite app_assoc in E. apply app_inj_tail in E as [_ ->]. exfalso. apply Hc. unfold letter_key in Hl. rewrite !Forall_app, Forall_singleton in Hl. apply Hl.
Qed.
Lemma found k sep closing kvs opening : letter_key k → 34 ∉ opening → 34 ∉ sep → 34 ∉ closing →
  (∃ a c, opening = a ++ [c] ∧ ¬ (97 <= c <= 122 \/ c = 95)) → (∃ a c, sep = a ++ [c] ∧ ¬ (97 <= c <= 122 \/ c = 95)) →
  Forall (λ kv, 34 ∉ kv.1 ∧ plain kv.2) kvs → unmistakable k kvs → value_of k (attribute opening sep closing kvs) = assoc k kvs.
Proof.
  intros Hk Ho Hs Hc Po Ps Hp Hu. assert (34 ∉ k ++ lit " = ") as Hq.
  { rewrite elem_of_app. intros [H|H]; [|by revert H; apply (bool_decide_unpack _); vm_compute]. apply (proj1 (Forall_forall _ _) Hk) in H. lia. }
  revert opening Ho Po Hp Hu. induction kvs as [|[key v] kvs IH]; intros opening Ho Po Hp Hu.
  - unfold value_of, attribute. cbn [fmap list_fmap join_with app]. rewrite after_none; [done|]. set_solver.
  - apply Forall_cons in Hp as [[Hkey Hv] Hp]. apply Forall_cons in Hu as [[H1 H2] Hu]. cbn [fst snd] in *. unfold value_of. rewrite attribute_cons by done. cbn [fst snd].
    assert (34 ∉ opening ++ key ++ lit " = ") as Hpre. { rewrite !elem_of_app. intros [H|[H|H]]; [done|done|]. by revert H; apply (bool_decide_unpack _); vm_compute. }
    cbn [assoc]. destruct (decide (k = key)) as [<-|Ek].
    + rewrite app_assoc in Hpre. rewrite (app_assoc opening).
      replace ((opening ++ k) ++ lit " = ") with (opening ++ k ++ lit " = ") by (by rewrite <- app_assoc). rewrite after_hit by done. cbn [mbind option_bind]. unfold upto_quote. rewrite split_once_app; [done|apply Hv].
    + rewrite after_skip; [|done|done|].
      2:{ intros He. apply ends_pair in He; [|done|done]. apply H1 in He. congruence. }
      rewrite after_skip; [|done|apply Hv|done]. destruct kvs as [|kv' kvs]; [by rewrite after_none|]. apply (IH sep); done.
Qed.

(** *** Arguments *)
Lemma supplied_get p args v : supplied p args v ↔ ∃ x, get args (pr_name p) = Some x ∧ decode (pr_ty p) x = Some v.
Proof.
  unfold supplied, get. split.
  - intros (l & x & -> & H1 & H2). by exists x.
  - intros (x & H1 & H2). destruct args; try done. by eexists _, x.
Qed.
Lemma argument_step p args v :
  (if pr_optional p then Some (default None (get args (pr_name p) ≫= from_value p)) else get args (pr_name p) ≫= from_value p) = Some v ↔ argument p args v.
Proof.
  unfold argument, from_value. destruct (pr_optional p) eqn:Eo.
  - destruct (get args (pr_name p)) as [x|] eqn:Eg; cbn [mbind option_bind default from_option].
    + assert ((∃ n, x = JNull ∧ n = 0%nat) ∨ x ≠ JNull) as [[_ [-> _]]|Hx]. { destruct x; try (right; done). left. by exists 0%nat. }
      * cbn. split; [intros [= <-]; auto|]. destruct v as [x|]; [|done]. intros [_ H]. by destruct (H eq_refl).
      * replace (match x with JNull => Some None | _ => Some <$> decode (pr_ty p) x end) with (Some <$> decode (pr_ty p) x) by (by destruct x).
        destruct (decode (pr_ty p) x) as [y|] eqn:Ed; cbn.
        -- split; [intros [= <-]; split; [apply supplied_get; by exists x|congruence]|]. destruct v as [z|].
           ++ intros [(x' & Hx' & Hd)%supplied_get _]. rewrite Eg in Hx'. injection Hx' as <-. congruence.
           ++ intros [_ [?|H]]; [congruence|]. destruct H. exists y. apply supplied_get. by exists x.
        -- split; [intros [= <-]; split; [done|]; right; intros (z & (x' & Hx' & Hd)%supplied_get); rewrite Eg in Hx'; injection Hx' as <-; congruence|]. destruct v as [z|]; [|done].
           intros [(x' & Hx' & Hd)%supplied_get _]. rewrite Eg in Hx'. injection Hx' as <-. congruence.
    + split; [intros [= <-]; split; [done|]; right; intros (z & (x' & Hx' & Hd)%supplied_get); congruence|]. destruct v as [z|]; [|done].
      intros [(x' & Hx' & Hd)%supplied_get _]. congruence.
  - destruct (get args (pr_name p)) as [x|] eqn:Eg; cbn [mbind option_bind].
    + destruct (decode (pr_ty p) x) as [y|] eqn:Ed; cbn.
      * split; [intros [= <-]; split; [apply supplied_get; by exists x|done]|]. destruct v as [z|]; [|by intros []].
        intros [(x' & Hx' & Hd)%supplied_get _]. rewrite Eg in Hx'. injection Hx' as <-. congruence.
      * split; [done|]. destruct v as [z|]; [|by intros []]. intros [(x' & Hx' & Hd)%supplied_get _]. rewrite Eg in Hx'. injection Hx' as <-. congruence.
    + split; [done|]. destruct v as [z|]; [|by intros []]. intros [(x' & Hx' & Hd)%supplied_get _]. congruence.
Qed.
Lemma argument_none p args :
  (if pr_optional p then Some (default None (get args (pr_name p) ≫= from_value p)) else get args (pr_name p) ≫= from_value p) = None ↔ pr_optional p = false ∧ ¬ ∃ x, supplied p args x.
Proof.
  destruct (pr_optional p) eqn:Eo; [split; [done|by intros []]|]. split.
  - intros H. split; [done|]. intros [x Hx]. assert (argument p args (Some x)) as Ha by (split; [done|congruence]). apply argument_step in Ha. rewrite Eo in Ha. congruence.
  - intros [_ H]. destruct (_ ≫= _) as [v|] eqn:E; [|done]. destruct H. assert (argument p args v) as Ha by (apply argument_step; by rewrite Eo).
    destruct v as [x|]; [exists x; apply Ha|]. destruct Ha. congruence.
Qed.
Lemma extract_called ps args vs : extract ps args = inr vs ↔ Forall2 (λ p v, argument p args v) ps vs.
Proof.
  revert vs. induction ps as [|p ps IH]; intros vs; cbn [extract].
  - split; [intros [= <-]; constructor|]. by intros ->%Forall2_nil_inv_l.
  - destruct (if pr_optional p then _ else _) as [v|] eqn:E.
    + apply argument_step in E as Ha. destruct (extract ps args) as [n|vs'] eqn:Ee.
      * split; [done|]. intros H. inversion H; subst. assert (inl n = inr l' :> list N + list (option json)) by (by apply IH). done.
      * split.
        -- intros [= <-]. constructor; [done|]. by apply IH.
        -- intros H. inversion H as [|? v' ? l' Hv Hl]; subst. apply IH in Hl. injection Hl as ->. apply argument_step in Hv. rewrite E in Hv. by injection Hv as ->.
    + split; [done|]. intros H. inversion H as [|? v' ? l' Hv Hl]; subst. apply argument_step in Hv. congruence.
Qed.
Lemma extract_missing ps args n : extract ps args = inl n ↔
  ∃ a p b, ps = a ++ p :: b ∧ pr_name p = n ∧ pr_optional p = false ∧ (¬ ∃ x, supplied p args x) ∧ Forall (λ q, pr_optional q = true ∨ ∃ x, supplied q args x) a.
Proof.
  induction ps as [|p ps IH]; cbn [extract].
  - split; [done|]. intros (a & p & b & H & _). by destruct a.
  - destruct (if pr_optional p then _ else _) as [v|] eqn:E.
    + assert (pr_optional p = true ∨ ∃ x, supplied p args x) as Hp.
      { destruct (pr_optional p) eqn:Eo; [by left|right]. assert (argument p args v) as Ha by (apply argument_step; by rewrite Eo). destruct v as [x|]; [exists x; apply Ha|]. destruct Ha; congruence. }
      assert (extract ps args = inl n ↔ (match extract ps args with inl n => inl n | inr vs => inr (v :: vs) end : list N + list (option json)) = inl n) as <-.
      { destruct (extract ps args); [done|]. split; done. }
      rewrite IH. split.
      * intros (a & q & b & -> & H1 & H2 & H3 & H4). exists (p :: a), q, b. split_and!; [done..|]. by constructor.
      * intros (a & q & b & H & H1 & H2 & H3 & H4). destruct a as [|p' a].
        -- injection H as -> ->. destruct Hp as [|]; [congruence|done].
        -- injection H as <- ->. apply Forall_cons in H4 as [_ H4]. by exists a, q, b.
    + apply argument_none in E as [Eo Hs]. split.
      * intros [= <-]. exists [], p, ps. split_and!; try done.
      * intros (a & q & b & H & H1 & H2 & H3 & H4). destruct a as [|p' a]; [by injection H as -> ->; subst|].
        injection H as <- ->. apply Forall_cons in H4 as [[|] _]; [congruence|done].
Qed.

(** *** Names *)
Lemma upper_lower c : 97 <= c <= 122 → 65 <= upper c <= 90 ∧ upper c = c - 32.
Proof. intros H. unfold upper. rewrite (proj2 (N.leb_le 97 c)), (proj2 (N.leb_le c 122)) by lia. cbn. lia. Qed.
Definition cap (w : list N) : list N := match w with [] => [] | c :: r => upper c :: r end.
Lemma low_prefix (r r' x x' : list N) : Forall (λ c, 97 <= c <= 122 \/ 48 <= c <= 57) r → Forall (λ c, 97 <= c <= 122 \/ 48 <= c <= 57) r' →
  (∀ c y, x = c :: y → 65 <= c <= 90) → (∀ c y, x' = c :: y → 65 <= c <= 90) → r ++ x = r' ++ x' → r = r' ∧ x = x'.
Proof.
  revert r'. induction r as [|c r IH]; intros r' Hr Hr' Hx Hx' E.
  - destruct r' as [|c' r']; [done|]. cbn in E. subst x. apply Forall_cons in Hr' as [Hc _]. specialize (Hx c' _ eq_refl). lia.
  - destruct r' as [|c' r'].
    + cbn in E. subst x'. apply Forall_cons in Hr as [Hc _]. specialize (Hx' c _ eq_refl). lia.
    + cbn in E. injection E as -> E. apply Forall_cons in Hr as [_ Hr]. apply Forall_cons in Hr' as [_ Hr']. apply IH in E as [-> ->]; done.
Qed.
Lemma caps_head ws : Forall word ws → ∀ c y, concat (cap <$> ws) = c :: y → 65 <= c <= 90.
Proof.
  intros Hw c y. destruct ws as [|w ws]; [done|]. apply Forall_cons in Hw as [(d & r & -> & Hd & _) _]. cbn. intros [= <- _]. apply upper_lower in Hd. lia.
Qed.
Lemma caps_inj ws : ∀ ws', Forall word ws → Forall word ws' → concat (cap <$> ws) = concat (cap <$> ws') → ws = ws'.
Proof.
  induction ws as [|w ws IH]; intros [|w' ws'] H H' E; [done| | |].
  - apply Forall_cons in H' as [(d & r & -> & _) _]. done.
  - apply Forall_cons in H as [(d & r & -> & _) _]. done.
  - apply Forall_cons in H as [(d & r & -> & Hd & Hr) H]. apply Forall_cons in H' as [(d' & r' & -> & Hd' & Hr') H'].
    cbn [fmap list_fmap concat cap app] in E. injection E as Eu E. apply low_prefix in E as [-> E]; [|done|done|by apply caps_head|by apply caps_head].
    apply upper_lower in Hd as [? ?], Hd' as [? ?]. f_equal; [f_equal; lia|]. by apply IH.
Qed.
Lemma pascal_words ws : ws ≠ [] → Forall word ws → to_pascal_case (join_with [95] ws) = concat (cap <$> ws).
Proof.
  intros Hn Hw. unfold to_pascal_case. rewrite split_on_join; [done|done|]. eapply Forall_impl; [done|]. intros w (c & r & -> & Hc & Hr) [E|Hin]%elem_of_cons; [lia|].
  apply (proj1 (Forall_forall _ _) Hr) in Hin. lia.
Qed.
