(** C229: the metrics of a shared batch processor. *)
From Coq Require Import QArith.
From stdpp Require Import gmap strings list.
From Verif Require Import ProtocolModel BatchModel BatchProofs MetricsModel MetricsSpec.
Local Close Scope Q_scope.
Local Open Scope nat_scope.

Lemma proper_app l1 l2 : proper (l1 ++ l2) → proper l1.
Proof. intros H a o b i ->. apply (H a o (b ++ l2)). by rewrite <-app_assoc. Qed.
Lemma began_app l1 l2 i : (∃ o, o ∈ l1 ∧ begins i o) → began (l1 ++ l2) i = began l1 i.
Proof.
  induction l1 as [|o l1 IH]; intros (o' & Ho & Hb); [by apply elem_of_nil in Ho|].
  destruct o; cbn [app began]; try (apply IH; exists o'; split; [|done]; apply elem_of_cons in Ho as [->|Ho]; [by destruct Hb|done]).
  case_decide as E; [done|]. apply IH. exists o'. split; [|done]. apply elem_of_cons in Ho as [->|Ho]; [by destruct E|done].
Qed.
Lemma began_new l i t : (∀ o, o ∈ l → ¬ begins i o) → began (l ++ [PBegin i t]) i = t.
Proof.
  induction l as [|o l IH]; intros H; [cbn; by rewrite decide_True|]. assert (∀ o, o ∈ l → ¬ begins i o) as H' by (intros x Hx; apply H; by right).
  destruct o; cbn [app began]; try by apply IH. rewrite decide_False; [by apply IH|]. intros ->. eapply (H (PBegin _ _)); [left|done].
Qed.
Lemma calls_inv os : proper os → ∀ i t, bp_calls (bp_run os) !! i = Some t ↔ (∃ o, o ∈ os ∧ begins i o) ∧ (∀ o, o ∈ os → ¬ ends i o) ∧ t = began os i.
Proof.
  induction os as [|o os IH] using rev_ind; intros Hp i t.
  { cbn. rewrite lookup_empty. split; [done|]. intros ((o & Ho & _) & _). by apply elem_of_nil in Ho. }
  pose proof (proper_app _ _ Hp) as Hp'. specialize (IH Hp'). unfold bp_run in *. rewrite fold_left_app. cbn [fold_left]. set (s := fold_left bp_step os bp_init) in *.
  assert (∀ P : pop → Prop, (∃ x, x ∈ os ++ [o] ∧ P x) ↔ (∃ x, x ∈ os ∧ P x) ∨ P o) as Hex.
  { intros P. split.
    - intros (x & Hx & H). apply elem_of_app in Hx as [Hx|Hx]; [left; by exists x|right]. by apply elem_of_list_singleton in Hx as ->.
    - intros [(x & Hx & H)|H]; [exists x|exists o]; (split; [apply elem_of_app|done]); [by left|right; by apply elem_of_list_singleton]. }
  assert (∀ P : pop → Prop, (∀ x, x ∈ os ++ [o] → ¬ P x) ↔ (∀ x, x ∈ os → ¬ P x) ∧ ¬ P o) as Hall.
  { intros P. split.
    - intros H. split; [intros x Hx|]; apply H; apply elem_of_app; [by left|right; by apply elem_of_list_singleton].
    - intros [H1 H2] x Hx. apply elem_of_app in Hx as [Hx|Hx]; [by apply H1|by apply elem_of_list_singleton in Hx as ->]. }
  rewrite Hex, Hall.
  assert (¬ begins i o → ¬ ends i o → bp_calls (bp_step s o) !! i = bp_calls s !! i → bp_calls (bp_step s o) !! i = Some t ↔ ((∃ x, x ∈ os ∧ begins i x) ∨ begins i o) ∧ ((∀ x, x ∈ os → ¬ ends i x) ∧ ¬ ends i o) ∧ t = began (os ++ [o]) i) as Hsame.
  { intros H1 H2 ->. rewrite IH. split.
    - intros (Hb & He & ->). split; [by left|]. split; [done|]. by rewrite began_app.
    - intros ([Hb|Hb] & [He _] & ->); [|done]. split; [done|]. split; [done|]. by apply began_app. }
  destruct (Hp os o [] i eq_refl) as [Pb Pe].
  destruct o as [j now|j now rs|j|].
  - destruct (decide (i = j)) as [->|Hij].
    + cbn [bp_step bp_calls]. rewrite lookup_insert. specialize (Pb eq_refl). rewrite began_new by (intros x Hx; by apply Pb). split.
      * intros [= ->]. split; [by right|]. split; [|done]. split; [|by intros []]. intros x Hx. by apply Pb.
      * intros (_ & _ & ->). done.
    + apply Hsame; [done|by intros []|]. cbn [bp_step bp_calls]. by rewrite lookup_insert_ne.
  - destruct (decide (i = j)) as [->|Hij].
    + destruct (Pe eq_refl) as [He1 He2]. assert (bp_calls s !! j = Some (began os j)) as E by (apply IH; done). cbn [bp_step]. rewrite E. cbn [bp_calls]. rewrite lookup_delete. split; [done|]. intros (_ & [_ H] & _). by destruct H.
    + apply Hsame; [by intros []|done|]. cbn [bp_step]. destruct (bp_calls s !! j); [|done]. cbn [bp_calls]. by rewrite lookup_delete_ne.
  - destruct (decide (i = j)) as [->|Hij].
    + cbn [bp_step bp_calls]. rewrite lookup_delete. split; [done|]. intros (_ & [_ H] & _). by destruct H.
    + apply Hsame; [by intros []|done|]. cbn [bp_step bp_calls]. by rewrite lookup_delete_ne.
  - apply Hsame; [by intros []|by intros []|done].
Qed.
Lemma ended_app os l1 l2 : ended os (l1 ++ l2) = ended os l1 ++ ended os l2.
Proof. apply omap_app. Qed.
Lemma ended_more os o l : proper os → (∀ x, x ∈ l → x ∈ os) → ended (os ++ [o]) l = ended os l.
Proof.
  intros Hp. induction l as [|x l IH]; intros H; [done|]. unfold ended in *. cbn [omap list_omap].
  rewrite IH by (intros y Hy; apply H; by right). destruct x as [| j now rs | |]; try done. f_equal. f_equal. f_equal. apply began_app.
  assert (PEnd j now rs ∈ os) as Hx by (apply H; left). apply elem_of_list_split in Hx as (a & b & ->). destruct (Hp a _ b j eq_refl) as [_ H2]. destruct (H2 eq_refl) as [(o' & Ho & Hb) _]. exists o'. split; [apply elem_of_app; by left|done].
Qed.
Lemma since_snoc os o l : since_reset (os ++ [o]) l → (o = PReset ∧ l = []) ∨ (o ≠ PReset ∧ ∃ l0, l = l0 ++ [o] ∧ since_reset os l0).
Proof.
  intros [Hl [<-|(h & E)]].
  - right. apply not_elem_of_app in Hl as [Hl Ho]. apply not_elem_of_cons in Ho as [Ho _]. split; [done|]. exists os. split; [done|]. split; [done|by left].
  - destruct l as [|x l _] using rev_ind.
    + apply app_inj_tail in E as [_ ->]. by left.
    + rewrite app_comm_cons, app_assoc in E. apply app_inj_tail in E as [-> ->]. right. apply not_elem_of_app in Hl as [Hl Ho]. apply not_elem_of_cons in Ho as [Ho _]. split; [done|]. exists l. split; [done|]. split; [done|]. right. by exists h.
Qed.
(** The metrics are those of the batches that ended since the last reset, each with the time from its beginning. *)
Lemma metrics_inv os l : proper os → since_reset os l → bp_metrics (bp_run os) = record_all (ended os l).
Proof.
  revert l. induction os as [|o os IH] using rev_ind; intros l Hp Hs.
  { destruct Hs as [_ [<-|(h & E)]]; [done|]. by destruct h. }
  pose proof (proper_app _ _ Hp) as Hp'. pose proof (calls_inv os Hp') as Hc. unfold bp_run in *. rewrite fold_left_app. cbn [fold_left]. set (s := fold_left bp_step os bp_init) in *.
  apply since_snoc in Hs as [[-> ->]|(Hne & l0 & -> & Hs)]; [done|]. specialize (IH l0 Hp' Hs).
  assert (∀ x, x ∈ l0 → x ∈ os) as Hin. { intros x Hx. destruct Hs as [_ [->|(h & ->)]]; [done|]. apply elem_of_app. right. by right. }
  rewrite ended_app, ended_more by done. destruct o as [j now|j now rs|j|]; [..|done].
  - cbn [bp_step bp_metrics]. rewrite IH. by rewrite app_nil_r.
  - destruct (Hp os _ [] j eq_refl) as [_ Pe]. destruct (Pe eq_refl) as [He1 He2]. assert (bp_calls s !! j = Some (began os j)) as E by (apply Hc; done). cbn [bp_step]. rewrite E. cbn [bp_metrics]. rewrite IH.
    assert (ended (os ++ [PEnd j now rs]) [PEnd j now rs] = [((now - began os j)%N, rs)]) as -> by (unfold ended; cbn [omap list_omap]; by rewrite began_app). unfold record_all. by rewrite fold_left_app.
  - cbn [bp_step bp_metrics]. rewrite IH. by rewrite app_nil_r.
Qed.

(** ** C229: metrics of a processor in use *)
(** Every class counts the responses of the batches that ended since the last reset, the total their requests, and the
    maximum is the longest time one of them took. *)
Theorem C229_counts : ∀ os l, proper os → since_reset os l →
  let m := bp_metrics (bp_run os) in let rs := concat (snd <$> ended os l) in
  m_total m = N.of_nat (length rs) ∧
  m_ok m = N.of_nat (length (filter (λ r, is_success r = true) rs)) ∧
  m_timeout m = N.of_nat (length (filter (λ r, is_timeout r = true) rs)) ∧
  m_err m = N.of_nat (length (filter (λ r, is_other_error r = true) rs)) ∧
  (∀ b, b ∈ ended os l → b.1 <= m_max m)%N ∧ (m_max m = 0%N ∨ ∃ b, b ∈ ended os l ∧ b.1 = m_max m).
Proof.
  intros os l Hp Hs m rs. unfold m, rs. rewrite (metrics_inv os l Hp Hs). generalize (ended os l). clear. intros bs.
  destruct (metrics_counts bs) as (_ & H1 & H2), (metrics_classes bs) as (H3 & H4 & H5). unfold record_all in *. rewrite H1, H2, H3, H4, H5. split; [|split; [done|split; [done|split; [done|]]]].
  - clear. induction bs as [|b bs IH]; [done|]. rewrite fmap_cons. cbn [foldr concat]. rewrite IH, app_length. lia.
  - clear. induction bs as [|b bs [IH1 IH2]]; cbn [foldr].
    + split; [|by left]. intros b Hb. by apply elem_of_nil in Hb.
    + split.
      * intros x Hx. apply elem_of_cons in Hx as [->|Hx]; [lia|]. apply IH1 in Hx. lia.
      * destruct (N.max_spec b.1 (foldr (λ b n, N.max b.1 n) 0%N bs)) as [[_ ->]|[_ ->]].
        -- destruct IH2 as [->|(x & Hx & E)]; [by left|]. right. exists x. split; [by right|done].
        -- right. exists b. split; [left|done].
Qed.
Print Assumptions C229_counts.
(** Right after a reset everything is zero. *)
Theorem C229_reset : ∀ os, let m := bp_metrics (bp_run (os ++ [PReset])) in
  m_total m = 0%N ∧ m_ok m = 0%N ∧ m_timeout m = 0%N ∧ m_err m = 0%N ∧ m_max m = 0%N ∧ m_avg m = Some 0%Q.
Proof. intros os. unfold bp_run. by rewrite fold_left_app. Qed.
Print Assumptions C229_reset.
(** The average is the time of these batches over the number of their requests if the first of them had requests. *)
Theorem C229_average_partial : ∀ os l t rs bs, proper os → since_reset os l → ended os l = (t, rs) :: bs → rs ≠ [] →
  ∃ a, m_avg (bp_metrics (bp_run os)) = Some a ∧
    (a * inject_Z (Z.of_nat (length (concat (snd <$> ended os l)))) == inject_Z (Z.of_N (foldr (λ b n, b.1 + n)%N 0%N (ended os l))))%Q.
Proof.
  intros os l t rs bs Hp Hs He Hr. destruct (C229_counts os l Hp Hs) as (Ht & _). rewrite (metrics_inv os l Hp Hs) in *. rewrite He in *. destruct (avg_correct t rs bs Hr) as (a & H1 & H2).
  exists a. split; [done|]. rewrite Ht in H2. by rewrite nat_N_Z in H2.
Qed.
Print Assumptions C229_average_partial.
(** False otherwise: with an empty batch first the average is not a number until the next reset. *)
Theorem C229_empty_refuted : ∀ os l t bs, proper os → since_reset os l → ended os l = (t, []) :: bs → m_avg (bp_metrics (bp_run os)) = None.
Proof. intros os l t bs Hp Hs He. rewrite (metrics_inv os l Hp Hs), He. apply avg_nan. Qed.
Print Assumptions C229_empty_refuted.
(** A reset does not leave out the calls under way: one that began before it is counted in full when it ends, with a time
    that may be longer than the time since the reset. *)
Theorem C229_straddle_refuted : ∀ os i t now rs, proper os → bp_calls (bp_run os) !! i = Some t →
  let m := bp_metrics (bp_run (os ++ [PReset; PEnd i now rs])) in m_total m = N.of_nat (length rs) ∧ m_max m = (now - t)%N.
Proof.
  intros os i t now rs Hp Hc. unfold bp_run in *. rewrite fold_left_app. cbn [fold_left bp_step bp_calls bp_metrics]. rewrite Hc. cbn [bp_metrics].
  destruct (metrics_counts [((now - t)%N, rs)]) as (_ & H1 & H2). unfold record_all in *. cbn [fold_left fst snd foldr] in H1, H2. cbn zeta. rewrite H1, H2. split; lia.
Qed.
Print Assumptions C229_straddle_refuted.
Definition example_history : list pop :=
  let ok := MkBResp (RNumber 1) (PResult 0) in
  [PBegin 0 5; PBegin 1 7; PEnd 1 9 [ok]; PReset; PBegin 2 10; PEnd 0 25 [ok; MkBResp (RNumber 2) (PError 1 "timeout")]; PBegin 3 26; PEnd 2 30 [MkBResp (RNumber 1) (PError 1 "no")]; PGone 3].
Global Instance begins_dec i o : Decision (begins i o).
Proof. destruct o; cbn; apply _. Defined.
Global Instance ends_dec i o : Decision (ends i o).
Proof. destruct o; cbn; apply _. Defined.
Definition fits (os : list pop) (o : pop) : bool :=
  match o with
  | PBegin i _ => bool_decide (Forall (λ x, ¬ begins i x ∧ ¬ ends i x) os)
  | PEnd i _ _ | PGone i => bool_decide (Exists (begins i) os) && bool_decide (Forall (λ x, ¬ ends i x) os)
  | PReset => true
  end.
Lemma proper_snoc os o : proper os → fits os o = true → proper (os ++ [o]).
Proof.
  intros Hp Hf l1 x l2 i E. destruct l2 as [|y l2 _] using rev_ind.
  - apply app_inj_tail in E as [<- <-]. destruct o as [j t|j t rs|j|]; cbn [fits] in Hf; split; intros H; cbn in H; try done; subst j.
    + apply bool_decide_eq_true in Hf. by apply Forall_forall.
    + apply andb_true_iff in Hf as [H1 H2]. apply bool_decide_eq_true in H1, H2. apply Exists_exists in H1. by rewrite Forall_forall in H2.
    + apply andb_true_iff in Hf as [H1 H2]. apply bool_decide_eq_true in H1, H2. apply Exists_exists in H1. by rewrite Forall_forall in H2.
  - rewrite app_comm_cons, app_assoc in E. apply app_inj_tail in E as [-> _]. by apply (Hp l1 x l2).
Qed.
Lemma example_proper : proper example_history.
Proof.
  assert (proper []) as H by (intros [|] ? ? ? E; discriminate E). unfold example_history.
  repeat match type of H with proper ?l => match goal with |- proper (?a :: ?r) => let n := eval vm_compute in (length l) in let o := eval vm_compute in (nth n (a :: r) PReset) in
    apply (proper_snoc _ o) in H; [cbn [app] in H; try exact H|by vm_compute] end end.
Qed.
Example C229_example : proper example_history ∧ since_reset example_history (drop 4 example_history) ∧
  fst <$> ended example_history (drop 4 example_history) = [20%N; 20%N] ∧
  let m := bp_metrics (bp_run example_history) in m_total m = 3%N ∧ m_ok m = 1%N ∧ m_timeout m = 1%N ∧ m_err m = 1%N ∧ m_max m = 20%N.
Proof.
  split; [exact example_proper|]. split; [|by vm_compute]. split.
  - intros H. unfold example_history in H. cbn [drop] in H. rewrite !elem_of_cons, elem_of_nil in H. by destruct_or! H.
  - right. by exists (take 3 example_history).
Qed.
