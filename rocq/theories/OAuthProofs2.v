(** Lemmas for the words of a scope. *)
From Coq Require Import ZifyBool.
From stdpp Require Import gmap strings list sets.
From Verif Require Import ListLib TextLib SerdeLib WhiteSpec OAuthModel.

Lemma ws_spec c : ws c = true ↔ c ∈ white_space.
Proof. unfold ws, white_space. rewrite !elem_of_cons, elem_of_nil. lia. Qed.
Lemma ws_not c : c ∉ white_space → ws c = false.
Proof. intros H. destruct (ws c) eqn:E; [|done]. by apply ws_spec in E. Qed.
Lemma worded_pad c s l : c ∈ white_space → worded s l → worded (c :: s) l.
Proof.
  intros Hc H. destruct H as [t Ht|a w b l Ha Hw Hn Hh Hb].
  - apply worded_none. intros x. rewrite elem_of_cons. intros [->|?]; [done|by apply Ht].
  - apply (worded_one (c :: a)); try done. intros x. rewrite elem_of_cons. intros [->|?]; [done|by apply Ha].
Qed.
Lemma words_are s : ∀ cur, (∀ c, c ∈ cur → c ∉ white_space) → worded (cur ++ s) (words cur s).
Proof.
  induction s as [|c s IH]; intros cur Hc; cbn [words].
  - destruct cur as [|x cur]; [apply worded_none; intros ? H; by inversion H|].
    apply (worded_one [] (x :: cur) [] []); try done; [intros ? H; by inversion H|]. apply worded_none. intros ? H; by inversion H.
  - destruct (ws c) eqn:E.
    + apply ws_spec in E. assert (Hr : worded (c :: s) (words [] s)). { apply worded_pad; [done|]. apply (IH []). intros ? H; by inversion H. }
      destruct cur as [|x cur]; [done|]. apply (worded_one [] (x :: cur) (c :: s)); try done; [intros ? H; by inversion H|]. by intros ? [= <-].
    + replace (cur ++ c :: s) with ((cur ++ [c]) ++ s) by (by rewrite <-app_assoc). apply IH.
      intros x. rewrite elem_of_app, elem_of_list_singleton. intros [?| ->]; [by apply Hc|]. intros Hx. apply ws_spec in Hx. congruence.
Qed.
Lemma words_blank a s : blank a → words [] (a ++ s) = words [] s.
Proof.
  induction a as [|c a IH]; intros H; [done|]. cbn [app words]. assert (ws c = true) as -> by (apply ws_spec, H; left). apply IH.
  intros x Hx. apply H. by right.
Qed.
Lemma words_word w s : ∀ cur, (∀ c, c ∈ w → c ∉ white_space) → words cur (w ++ s) = words (cur ++ w) s.
Proof.
  induction w as [|c w IH]; intros cur H; [by rewrite app_nil_r|]. cbn [app words]. rewrite (ws_not c) by (apply H; left).
  rewrite IH by (intros x Hx; apply H; by right). by rewrite <-app_assoc.
Qed.
Lemma worded_words s l : worded s l → words [] s = l.
Proof.
  induction 1 as [t Ht|a w b l Ha Hw Hn Hh Hb IH].
  - rewrite <-(app_nil_r t), words_blank by done. done.
  - rewrite words_blank, words_word by done. cbn [app]. destruct w as [|x w]; [done|]. destruct b as [|c b]; cbn [words].
    + cbn in IH. by rewrite <-IH.
    + assert (ws c = true) as Ec by (by apply ws_spec, Hh). rewrite Ec. cbn [words] in IH. rewrite Ec in IH. by rewrite IH.
Qed.
Lemma accepted m rt id redirect scope : validate_authorization m rt id redirect scope = true ↔
  ∃ c l, m !! id = Some c ∧ redirect ∈ o_redirects c ∧ rt ∈ o_types c ∧ worded scope l ∧ ∀ w, w ∈ l → w = lit "read" ∨ w = lit "write".
Proof.
  unfold validate_authorization. destruct (m !! id) as [c|]; [|split; [done|by intros (? & ? & ? & _)]].
  rewrite !andb_true_iff, !bool_decide_eq_true, forallb_forall. split.
  - intros [[Hr Ht] Hw]. exists c, (words [] scope). do 3 (split; [done|]). split; [apply (words_are scope []); intros ? H; by inversion H|].
    intros w Hin%elem_of_list_In. specialize (Hw w Hin). apply bool_decide_eq_true in Hw. unfold supported_scopes in Hw.
    rewrite !elem_of_cons, elem_of_nil in Hw. destruct Hw as [?|[?|[]]]; [by left|by right].
  - intros (c' & l & [= <-] & Hr & Ht & Hl & Hw). split; [done|]. rewrite (worded_words _ _ Hl). intros w Hin%elem_of_list_In.
    apply bool_decide_eq_true. unfold supported_scopes. rewrite !elem_of_cons, elem_of_nil. destruct (Hw w Hin) as [->| ->]; [by left|by right; left].
Qed.
