(** Lemmas for URI templates with white space in their expressions. *)
From stdpp Require Import gmap sets list strings.
From Coq Require Import ZifyBool.
From Verif Require Import ListLib TextLib Utf8Lib WhiteSpec UriModel UriSpec UriProofs.
Local Open Scope N_scope.

Lemma white_spec c : is_white c = true ↔ c ∈ white_space.
Proof. unfold is_white, white_space. rewrite !elem_of_cons, elem_of_nil. lia. Qed.
Lemma blank_not a x : blank a → is_white x = false → x ∉ a.
Proof. intros H Hx Hin. apply H, white_spec in Hin. congruence. Qed.
Lemma spelled_nonempty s t : good_spec s → spec_spelled s t → t ≠ [].
Proof. intros Hs (a & b & -> & _) H. apply app_eq_nil in H as [_ H]. apply app_eq_nil in H as [H _]. by apply (spec_text_nonempty s). Qed.
Lemma spelled_not s t x : existsb (N.eqb x) (name_rest ++ lit "*:0123456789") = false → is_white x = false → good_spec s → spec_spelled s t → x ∉ t.
Proof. intros Hx Hw Hs (a & b & -> & Ha & Hb). rewrite !elem_of_app. intros [H|[H|H]]; [by apply (blank_not a x)|by apply (spec_text_not s x)|by apply (blank_not b x)]. Qed.
Lemma trim_spelled s t : good_spec s → spec_spelled s t → trim_by is_white t = spec_text s.
Proof.
  intros Hs (a & b & -> & Ha & Hb). apply trim_by_pad.
  - intros x Hx. by apply white_spec, Ha.
  - intros x Hx. by apply white_spec, Hb.
  - intros x Hx. apply not_white_char, (spec_text_chars s); [done|]. by apply head_Some_elem_of.
  - intros x Hx. apply not_white_char, (spec_text_chars s); [done|]. apply last_Some in Hx as [l ->]. set_solver.
  - by apply spec_text_nonempty.
Qed.
Lemma operator_spelled o s t ts : good_spec s → spec_spelled s t → operator_of (op_text o ++ join_with (lit ",") (t :: ts)) = (o, join_with (lit ",") (t :: ts)).
Proof.
  intros Hs Ht. destruct o; try done. cbn [op_text app].
  assert (∃ c, head (join_with (lit ",") (t :: ts)) = Some c ∧ (c ∈ white_space ∨ c ∈ name_first)) as (c & Hh & Hc).
  { rewrite join_head by (by eapply spelled_nonempty). destruct Ht as (a & b & -> & Ha & Hb). destruct a as [|x a].
    - destruct Hs as [(c & r & Hn & Hc & _) _]. exists c. split; [|by right]. unfold spec_text. by rewrite Hn.
    - exists x. split; [done|]. left. apply Ha. by left. }
  destruct (join_with (lit ",") (t :: ts)) as [|c' r]; [done|]. injection Hh as ->. unfold operator_of.
  assert (Hx : ∀ x, existsb (N.eqb x) name_first = false → is_white x = false → c ≠ x).
  { intros x Hx Hw ->. destruct Hc as [Hc|Hc]; [apply white_spec in Hc; congruence|]. apply mem_existsb in Hc. congruence. }
  repeat (rewrite decide_False by (by apply Hx)). done.
Qed.
Lemma parse_expr_spelled o specs ts : specs ≠ [] → Forall good_spec specs → Forall2 spec_spelled specs ts →
  parse_expression (op_text o ++ join_with (lit ",") ts) = Some (EMulti o specs).
Proof.
  intros Hne Hf Ht. destruct Ht as [|s t specs ts Hst Ht]; [done|]. assert (Hs : good_spec s) by (by inversion Hf). unfold parse_expression.
  rewrite (operator_spelled o s) by done.
  assert (Hj : op_text o ++ join_with (lit ",") (t :: ts) ≠ []).
  { intros H. apply app_eq_nil in H as [_ H]. pose proof (spelled_nonempty s t Hs Hst) as Hne'. pose proof (join_head t ts (lit ",") Hne') as H2. rewrite H in H2. by destruct t. }
  destruct (op_text o ++ _) as [|c0 t0]; [done|].
  change (lit ",") with [COMMA]. rewrite split_on_join; [|done|].
  - assert (Hm : mapM (λ v, parse_var_spec (trim_by is_white v)) (t :: ts) = Some (s :: specs)).
    { apply mapM_Some_2. assert (Forall2 spec_spelled (s :: specs) (t :: ts)) as Hall by (by constructor). clear -Hf Hall. revert Hf. induction Hall as [|s0 t0 ss ts0 H0 H1 IH]; intros Hf; [constructor|].
      apply Forall_cons in Hf as [Hg Hf]. constructor; [|auto]. rewrite (trim_spelled s0) by done. by apply parse_spec_text. }
    by rewrite Hm.
  - assert (Forall2 spec_spelled (s :: specs) (t :: ts)) as Hall by (by constructor). clear -Hf Hall. revert Hf. induction Hall as [|s0 t0 ss ts0 H0 H1 IH]; intros Hf; [constructor|].
    apply Forall_cons in Hf as [Hg Hf]. constructor; [|auto]. by apply (spelled_not s0).
Qed.
Lemma spelled_inner o specs ts : specs ≠ [] → Forall good_spec specs → Forall2 spec_spelled specs ts →
  op_text o ++ join_with (lit ",") ts ≠ [] ∧ RBRACE ∉ op_text o ++ join_with (lit ",") ts.
Proof.
  intros Hne Hf Ht. split.
  - destruct Ht as [|s t specs ts Hst Ht]; [done|]. assert (Hs : good_spec s) by (by inversion Hf). intros H. apply app_eq_nil in H as [_ H].
    pose proof (spelled_nonempty s t Hs Hst) as Hne'. pose proof (join_head t ts (lit ",") Hne') as H2. rewrite H in H2. by destruct t.
  - rewrite elem_of_app. intros [H|H].
    + assert (Hb : existsb (N.eqb RBRACE) (op_text o) = false) by (by destruct o). apply mem_existsb in H. congruence.
    + clear Hne. revert Hf H. induction Ht as [|s t specs ts Hst Ht IH]; intros Hf; [set_solver|]. apply Forall_cons in Hf as [Hg Hf].
      destruct ts as [|t2 ts].
      * simpl. by apply (spelled_not s).
      * change (join_with (lit ",") (t :: t2 :: ts)) with (t ++ lit "," ++ join_with (lit ",") (t2 :: ts)).
        rewrite !elem_of_app. intros [H|[H|H]]; [|by apply elem_of_list_singleton in H|by apply IH]. revert H. by apply (spelled_not s).
Qed.
Lemma spelled_length es ts : Forall good_expr es → Forall2 expr_spelled es ts → (length es <= length (concat ts))%nat.
Proof.
  intros Hg H. revert Hg. induction H as [|e t es ts He Hes IH]; intros Hg; [done|]. apply Forall_cons in Hg as [Hg1 Hg]. cbn [concat]. rewrite app_length. simpl length at 1.
  assert (t ≠ []). { destruct e as [l|o specs]; cbn in He; [subst; by destruct Hg1|]. by destruct He as (us & -> & _). }
  destruct t; [done|]. simpl. specialize (IH Hg). lia.
Qed.
Lemma parse_spelled f es ts : Forall good_expr es → alternating es → Forall2 expr_spelled es ts → (length es <= f)%nat → parse_loop f (concat ts) = Some es.
Proof.
  revert f ts. induction es as [es IH] using (induction_ltof1 _ length). unfold ltof in IH.
  intros f ts Hg Ha Ht Hf. destruct Ht as [|e t es ts Het Ht]; [by destruct f|].
  inversion Hg as [|? ? He Hes]; subst. destruct e as [l|o specs].
  - cbn in Het. subst t. destruct He as [Hl1 Hl2]. destruct Ht as [|e2 t2 es ts Het2 Ht].
    + simpl. rewrite app_nil_r. assert (Hn : find_expr l = None). { apply find_expr_None. intros a i b -> _. set_solver. }
      destruct f; cbn [parse_loop]; rewrite Hn; by destruct l.
    + destruct Ha as [Ha1 Ha2]. destruct e2 as [l2|o specs]; [by specialize (Ha1 eq_refl)|].
      inversion Hes as [|? ? He Hes2]; subst. destruct He as [He1 He2]. destruct Het2 as (us & -> & Hus).
      destruct (spelled_inner o specs us He1 He2 Hus) as [Hi1 Hi2].
      destruct f as [|f]; [simpl in Hf; lia|]. cbn [concat parse_loop].
      replace (l ++ (lit "{" ++ op_text o ++ join_with (lit ",") us ++ lit "}") ++ concat ts)
        with (l ++ LBRACE :: (op_text o ++ join_with (lit ",") us) ++ RBRACE :: concat ts)
        by (change (lit "{") with [LBRACE]; change (lit "}") with [RBRACE]; rewrite <- !app_assoc; done).
      rewrite find_expr_app by done. rewrite (parse_expr_spelled o specs) by done.
      rewrite (IH es); [|simpl; lia|done| |done|simpl in Hf; lia].
      * by destruct l.
      * destruct es as [|e3 es]; [done|]. by destruct Ha2.
  - destruct He as [He1 He2]. destruct Het as (us & -> & Hus). destruct (spelled_inner o specs us He1 He2 Hus) as [Hi1 Hi2].
    destruct f as [|f]; [simpl in Hf; lia|]. cbn [concat parse_loop].
    replace ((lit "{" ++ op_text o ++ join_with (lit ",") us ++ lit "}") ++ concat ts)
        with ([] ++ LBRACE :: (op_text o ++ join_with (lit ",") us) ++ RBRACE :: concat ts)
        by (change (lit "{") with [LBRACE]; change (lit "}") with [RBRACE]; rewrite <- !app_assoc; done).
    rewrite find_expr_app by (done || set_solver). rewrite (parse_expr_spelled o specs) by done.
    rewrite (IH es); [done|simpl; lia|done| |done|simpl in Hf; lia].
    destruct es as [|e3 es]; [done|]. by destruct Ha.
Qed.
