From stdpp Require Import gmap strings list.
From Verif Require Import EventStoreModel EventStoreSpec.

Section proofs.
Context (M : nat) (A : Z).
Notation sruns := (sruns M A).
Notation sstep := (sstep M A).

Lemma sruns_snoc h o : sruns (h ++ [o]) = sstep (sruns h) o.
Proof. unfold EventStoreModel.sruns. by rewrite fold_left_app. Qed.

Lemma stored_app h1 h2 : stored (h1 ++ h2) = stored h1 ++ stored h2.
Proof. apply omap_app. Qed.

Lemma pop_older_suffix t l : ∃ k, pop_older t l = drop k l.
Proof.
  induction l as [|e l [k IH]]; simpl; [by exists 0|].
  destruct (decide _); [exists (S k); done|by exists 0].
Qed.

Lemma sstep_events_drop s o k L : st_events s = drop k L → k ≤ length L →
  ∃ k', k' ≤ length (L ++ stored [o]) ∧ st_events (sstep s o) = drop k' (L ++ stored [o]).
Proof.
  intros Hs Hk. destruct o as [e|now|t|tok]; simpl.
  - exists k. rewrite app_length. simpl. split; [lia|]. rewrite Hs, drop_app_le by lia. done.
  - rewrite app_nil_r. unfold cleanup. destruct (pop_older_suffix (now - A) (drop (length (st_events s) - M) (st_events s))) as [k1 ->].
    rewrite Hs, !drop_drop. destruct (decide (k + (length (drop k L) - M) + k1 ≤ length L)).
    + eexists. split; [|done]. lia.
    + exists (length L). split; [lia|]. rewrite !drop_ge by lia. done.
  - rewrite app_nil_r. destruct (pop_older_suffix t (st_events s)) as [k1 ->]. rewrite Hs, drop_drop.
    destruct (decide (k + k1 ≤ length L)); [by eexists|]. exists (length L). split; [lia|].
    rewrite !drop_ge by lia. done.
  - rewrite app_nil_r. exists k. split; [done|]. by destruct (token_state s).
Qed.

Lemma events_suffix h : ∃ k, k ≤ length (stored h) ∧ st_events (sruns h) = drop k (stored h).
Proof.
  induction h as [|o h IH] using rev_ind; [by exists 0|].
  destruct IH as (k & Hk & He). rewrite sruns_snoc, stored_app. by eapply sstep_events_drop.
Qed.

Lemma pop_older_length t l : length (pop_older t l) ≤ length l.
Proof. destruct (pop_older_suffix t l) as [k ->]. rewrite drop_length. lia. Qed.

Lemma cleanup_length now l : length (cleanup M A now l) ≤ M.
Proof.
  unfold cleanup. etrans; [apply pop_older_length|]. rewrite drop_length. lia.
Qed.

Lemma bounded_after_cleanup h now : length (st_events (sruns (h ++ [SCleanup now]))) ≤ M.
Proof. rewrite sruns_snoc. simpl. apply cleanup_length. Qed.

(** Pushes whose cleanup has not happened yet. *)
Lemma bounded_inflight h h2 now :
  length (st_events (sruns (h ++ SCleanup now :: h2))) ≤ M + length (stored h2).
Proof.
  induction h2 as [|o h2 IH] using rev_ind.
  - simpl. rewrite Nat.add_0_r. apply bounded_after_cleanup.
  - rewrite app_comm_cons, app_assoc, sruns_snoc, stored_app, app_length.
    revert IH. generalize (sruns (h ++ SCleanup now :: h2)) as s. intros s IH.
    destruct o as [e|now'|t|tok]; simpl.
    + rewrite app_length. simpl. lia.
    + pose proof (cleanup_length now' (st_events s)). lia.
    + pose proof (pop_older_length t (st_events s)). lia.
    + destruct (token_state s); simpl; lia.
Qed.

(** Sorted logs: popping old ones is a filter. *)
Definition ts_sorted (l : list event) : Prop :=
  ∀ i j a b, i ≤ j → l !! i = Some a → l !! j = Some b → (ev_ts a <= ev_ts b)%Z.

Lemma ts_sorted_cons e l : ts_sorted (e :: l) → ts_sorted l.
Proof. intros H i j a b Hij Ha Hb. apply (H (S i) (S j)); try done. lia. Qed.

Lemma ts_sorted_drop k l : ts_sorted l → ts_sorted (drop k l).
Proof.
  intros H i j a b Hij Ha Hb. rewrite lookup_drop in Ha. rewrite lookup_drop in Hb.
  apply (H (k + i) (k + j)); try done. lia.
Qed.

Lemma ts_sorted_app l1 l2 : ts_sorted (l1 ++ l2) → ts_sorted l1.
Proof.
  intros H i j a b Hij Ha Hb. apply (H i j); try done; by apply lookup_app_l_Some.
Qed.

(** In a sorted list, element at position [j] survives [pop_older t] iff it is not older. *)
Lemma pop_older_sorted t l j e : ts_sorted l → l !! j = Some e →
  ∃ k, pop_older t l = drop k l ∧ (k ≤ j ↔ (t <= ev_ts e)%Z).
Proof.
  revert j. induction l as [|x l IH]; intros j Hs Hj; [done|]. simpl.
  destruct (decide (ev_ts x < t)%Z) as [Hx|Hx].
  - destruct j as [|j].
    + injection Hj as [= ->]. destruct (pop_older_suffix t l) as [k Hk].
      exists (S k). split; [done|]. lia.
    + destruct (IH j (ts_sorted_cons _ _ Hs) Hj) as (k & Hk & Hiff). exists (S k). split; [done|]. rewrite <- Hiff. lia.
  - exists 0. split; [done|]. split; [intros _|lia].
    assert (ev_ts x <= ev_ts e)%Z; [|lia]. apply (Hs 0 j); try done. lia.
Qed.

(** If [j] has already been dropped we still need the form. *)
Lemma retained_step h o k j e :
  ts_sorted (stored (h ++ [o])) → stored h !! j = Some e →
  k ≤ length (stored h) → st_events (sruns h) = drop k (stored h) →
  ∃ k', k' ≤ length (stored (h ++ [o])) ∧ st_events (sruns (h ++ [o])) = drop k' (stored (h ++ [o])) ∧
   (k' ≤ j ↔ k ≤ j ∧ survives M A (ev_ts e) (length (stored h) - S j) [o]).
Proof.
  intros Hs Hj Hk He. rewrite sruns_snoc. pose proof (lookup_lt_Some _ _ _ Hj) as Hlt.
  assert (Hmk : ∀ k' (L : list event), k' ≤ length L ∨ length L < k' → ∃ k'', k'' ≤ length L ∧ drop k' L = drop k'' L ∧
     (j < length L → (k'' ≤ j ↔ k' ≤ j))).
  { intros k' L [?|?]; [by exists k'|]. exists (length L). split; [lia|]. rewrite !drop_ge by lia.
    split; [done|]. lia. }
  rewrite stored_app in *. destruct o as [x|now|t|tok]; simpl in *.
  - exists k. rewrite app_length. simpl. split; [lia|]. rewrite He, drop_app_le by lia.
    split; [done|]. tauto.
  - rewrite app_nil_r in *. unfold cleanup.
    assert (Hlen : length (st_events (sruns h)) = length (stored h) - k)
      by (rewrite He, drop_length; done).
    rewrite Hlen, He, drop_drop. set (k1 := k + (length (stored h) - k - M)).
    destruct (decide (k1 ≤ j)) as [Hk1|Hk1].
    + destruct (pop_older_sorted (now - A) (drop k1 (stored h)) (j - k1) e) as (k2 & Hd & Hiff).
      * by apply ts_sorted_drop.
      * rewrite lookup_drop. by replace (k1 + (j - k1)) with j by lia.
      * rewrite Hd, drop_drop. destruct (Hmk (k1 + k2) (stored h)) as (k'' & ? & Hd' & Hi''); [lia|].
        exists k''. split; [done|]. split; [done|]. rewrite (Hi'' Hlt). subst k1. split; intros; lia.
    + destruct (pop_older_suffix (now - A) (drop k1 (stored h))) as [k2 Hd].
      rewrite Hd, drop_drop. destruct (Hmk (k1 + k2) (stored h)) as (k'' & ? & Hd' & Hi''); [lia|].
      exists k''. split; [done|]. split; [done|]. rewrite (Hi'' Hlt). subst k1. split; intros; lia.
  - rewrite app_nil_r in *. rewrite He. destruct (decide (k ≤ j)) as [Hkj|Hkj].
    + destruct (pop_older_sorted t (drop k (stored h)) (j - k) e) as (k2 & Hd & Hiff).
      * by apply ts_sorted_drop.
      * rewrite lookup_drop. by replace (k + (j - k)) with j by lia.
      * rewrite Hd, drop_drop. destruct (Hmk (k + k2) (stored h)) as (k'' & ? & Hd' & Hi''); [lia|].
        exists k''. split; [done|]. split; [done|]. rewrite (Hi'' Hlt). split; intros; lia.
    + destruct (pop_older_suffix t (drop k (stored h))) as [k2 Hd].
      rewrite Hd, drop_drop. destruct (Hmk (k + k2) (stored h)) as (k'' & ? & Hd' & Hi''); [lia|].
      exists k''. split; [done|]. split; [done|]. rewrite (Hi'' Hlt). split; intros; lia.
  - rewrite app_nil_r in *. exists k. split; [done|]. split; [by destruct (token_state (sruns h))|]. tauto.
Qed.

Lemma survives_snoc ts n h o :
  survives M A ts n (h ++ [o]) ↔ survives M A ts n h ∧ survives M A ts (n + length (stored h)) [o].
Proof.
  revert n. induction h as [|x h IH]; intros n.
  - simpl. rewrite Nat.add_0_r. tauto.
  - change ((x :: h) ++ [o]) with (x :: (h ++ [o])). change (stored (x :: h)) with (stored ([x] ++ h)).
    rewrite stored_app, app_length.
    destruct x; cbn [survives]; rewrite IH; simpl; rewrite ?Nat.add_succ_r; tauto.
Qed.

Lemma retained_index h1 e h2 :
  ts_sorted (stored (h1 ++ SPush e :: h2)) →
  ∃ k, k ≤ length (stored (h1 ++ SPush e :: h2)) ∧
    st_events (sruns (h1 ++ SPush e :: h2)) = drop k (stored (h1 ++ SPush e :: h2)) ∧
    (k ≤ length (stored h1) ↔ survives M A (ev_ts e) 0 h2).
Proof.
  induction h2 as [|o h2 IH] using rev_ind; intros Hs.
  - destruct (events_suffix h1) as (k & Hk & He).
    exists k. rewrite sruns_snoc, stored_app, app_length. simpl. rewrite He, drop_app_le by done.
    split; [lia|]. split; [done|]. tauto.
  - assert (Hq : h1 ++ SPush e :: h2 ++ [o] = (h1 ++ SPush e :: h2) ++ [o]) by (by rewrite <- app_assoc).
    rewrite Hq in *. destruct IH as (k & Hk & He & Hiff).
    { rewrite stored_app in Hs. by eapply ts_sorted_app. }
    destruct (retained_step (h1 ++ SPush e :: h2) o k (length (stored h1)) e Hs) as (k' & Hk' & He' & Hiff').
    + rewrite stored_app. rewrite lookup_app_r by lia. by rewrite Nat.sub_diag.
    + done.
    + done.
    + exists k'. split; [done|]. split; [done|]. rewrite Hiff', Hiff, survives_snoc.
      assert (Hlen : length (stored (h1 ++ SPush e :: h2)) - S (length (stored h1)) = 0 + length (stored h2)).
      { rewrite stored_app, app_length. simpl. lia. }
      rewrite Hlen. done.
Qed.

Lemma NoDup_fmap_lookup_inj (l : list event) i j a b :
  NoDup (ev_id <$> l) → l !! i = Some a → l !! j = Some b → ev_id a = ev_id b → i = j.
Proof.
  intros Hnd Ha Hb Heq. eapply (NoDup_lookup (ev_id <$> l)); [done| |].
  - by rewrite list_lookup_fmap, Ha.
  - by rewrite list_lookup_fmap, Hb, Heq.
Qed.

Lemma retained_iff h1 e h2 :
  NoDup (ev_id <$> stored (h1 ++ SPush e :: h2)) →
  ts_sorted (stored (h1 ++ SPush e :: h2)) →
  e ∈ st_events (sruns (h1 ++ SPush e :: h2)) ↔ survives M A (ev_ts e) 0 h2.
Proof.
  intros Hnd Hs. destruct (retained_index h1 e h2 Hs) as (k & Hk & He & <-). rewrite He.
  assert (Hidx : stored (h1 ++ SPush e :: h2) !! length (stored h1) = Some e).
  { rewrite stored_app, lookup_app_r by lia. by rewrite Nat.sub_diag. }
  rewrite elem_of_list_lookup. split.
  - intros [i Hi]. rewrite lookup_drop in Hi.
    pose proof (NoDup_fmap_lookup_inj _ _ _ _ _ Hnd Hi Hidx eq_refl). lia.
  - intros Hle. exists (length (stored h1) - k). rewrite lookup_drop.
    by replace (k + (length (stored h1) - k)) with (length (stored h1)) by lia.
Qed.

(** Resumption. *)
Lemma position_app id l1 e l2 : ev_id e = id → (∀ x, x ∈ l1 → ev_id x ≠ id) →
  position id (l1 ++ e :: l2) = Some (length l1).
Proof.
  intros He. induction l1 as [|x l1 IH]; simpl; intros H.
  - by rewrite decide_True.
  - rewrite decide_False by (apply H; set_solver). rewrite IH by set_solver. done.
Qed.

Lemma since_split s e l1 l2 limit :
  st_events s = l1 ++ e :: l2 → (∀ x, x ∈ l1 → ev_id x ≠ ev_id e) →
  get_events_since s (ev_id e) limit = match limit with Some n => take n l2 | None => l2 end.
Proof.
  intros Hs Hn. unfold get_events_since. rewrite Hs, (position_app _ l1 e l2) by done.
  replace (drop (length l1 + 1) (l1 ++ e :: l2)) with l2; [done|].
  rewrite drop_app_ge by lia. by replace (length l1 + 1 - length l1) with 1 by lia.
Qed.

Lemma since_retained h1 e h2 limit :
  NoDup (ev_id <$> stored (h1 ++ SPush e :: h2)) →
  e ∈ st_events (sruns (h1 ++ SPush e :: h2)) →
  get_events_since (sruns (h1 ++ SPush e :: h2)) (ev_id e) limit
  = match limit with Some n => take n (stored h2) | None => stored h2 end.
Proof.
  intros Hnd Hin. destruct (events_suffix (h1 ++ SPush e :: h2)) as (k & Hk & He).
  assert (Hidx : stored (h1 ++ SPush e :: h2) !! length (stored h1) = Some e).
  { rewrite stored_app, lookup_app_r by lia. by rewrite Nat.sub_diag. }
  assert (Hle : k ≤ length (stored h1)).
  { rewrite He in Hin. apply elem_of_list_lookup in Hin as [i Hi]. rewrite lookup_drop in Hi.
    pose proof (NoDup_fmap_lookup_inj _ _ _ _ _ Hnd Hi Hidx eq_refl). lia. }
  rewrite stored_app in He. change (SPush e :: h2) with ([SPush e] ++ h2) in He.
  rewrite (stored_app [SPush e]) in He. simpl in He.
  rewrite drop_app_le in He by done.
  eapply since_split; [exact He|].
  intros x Hx Heq. apply elem_of_list_lookup in Hx as [i Hi]. rewrite lookup_drop in Hi.
  assert (Hi' : stored (h1 ++ SPush e :: h2) !! (k + i) = Some x).
  { rewrite stored_app. by apply lookup_app_l_Some. }
  pose proof (NoDup_fmap_lookup_inj _ _ _ _ _ Hnd Hi' Hidx Heq) as Hki.
  apply lookup_lt_Some in Hi. lia.
Qed.

(** The oldest retained event: what a caller with a stale id gets. *)
Lemma since_unknown s id limit : (∀ e, e ∈ st_events s → ev_id e ≠ id) →
  get_events_since s id limit = match limit with Some n => take n (st_events s) | None => st_events s end.
Proof.
  intros H. unfold get_events_since.
  assert (position id (st_events s) = None) as ->; [|done].
  revert H. generalize (st_events s). induction l as [|x l IH]; simpl; intros H; [done|].
  rewrite decide_False by (apply H; set_solver). rewrite IH by set_solver. done.
Qed.

Lemma clear_count_spec t s : st_events s = take (clear_count t s) (st_events s) ++ pop_older t (st_events s) ∧
  Forall (λ e, (ev_ts e < t)%Z) (take (clear_count t s) (st_events s)) ∧
  (∀ e, head (pop_older t (st_events s)) = Some e → (t <= ev_ts e)%Z).
Proof.
  unfold clear_count. generalize (st_events s) as l. clear s.
  induction l as [|x l (IH1 & IH2 & IH3)]; simpl; [done|].
  destruct (decide (ev_ts x < t)%Z) as [Hx|Hx].
  - pose proof (pop_older_length t l).
    replace (S (length l) - length (pop_older t l)) with (S (length l - length (pop_older t l))) by lia.
    simpl. split; [by f_equal|]. split; [by constructor|]. done.
  - rewrite Nat.sub_diag. simpl. split; [done|]. split; [constructor|]. intros e [= <-]. lia.
Qed.

(** Tokens. *)
Lemma tokens_mono h1 h2 tok : SToken tok ∉ h2 →
  st_tokens (sruns (h1 ++ h2)) !! tok = st_tokens (sruns h1) !! tok.
Proof.
  induction h2 as [|o h2 IH] using rev_ind; intros H; [by rewrite app_nil_r|].
  rewrite app_assoc, sruns_snoc. rewrite <- IH by set_solver.
  destruct o as [e|now|t|tk]; simpl; try done.
  destruct (token_state (sruns (h1 ++ h2))); [|done]. simpl.
  rewrite lookup_insert_ne; [done|]. set_solver.
Qed.

Lemma token_created h e tok : last (st_events (sruns h)) = Some e →
  st_tokens (sruns (h ++ [SToken tok])) !! tok
  = Some (MkRState (ev_session e) (ev_id e) (ev_seq e + 1)).
Proof.
  intros Hl. rewrite sruns_snoc. simpl. unfold token_state. rewrite Hl. simpl. by rewrite lookup_insert.
Qed.

Lemma last_drop {B} k (l : list B) x : last (drop k l) = Some x → last l = Some x.
Proof.
  rewrite !last_lookup, lookup_drop, drop_length. intros H.
  pose proof (lookup_lt_Some _ _ _ H) as Hlt.
  replace (pred (length l)) with (k + pred (length l - k)) by lia. done.
Qed.

Lemma last_app_cons {B} (l1 : list B) x : last (l1 ++ [x]) = Some x.
Proof. apply last_snoc. Qed.

(** A token's event is the newest one stored before the token. *)
Lemma stored_last_split h e : last (stored h) = Some e →
  ∃ ha hb, h = ha ++ SPush e :: hb ∧ stored hb = [].
Proof.
  induction h as [|o h IH] using rev_ind; [done|]. rewrite stored_app.
  destruct o as [x|now|t|tk]; simpl; rewrite ?app_nil_r.
  - rewrite last_snoc. intros [= ->]. by exists h, [].
  - intros H. destruct (IH H) as (ha & hb & -> & Hb). exists ha, (hb ++ [SCleanup now]).
    rewrite <- app_assoc. split; [done|]. by rewrite stored_app, Hb.
  - intros H. destruct (IH H) as (ha & hb & -> & Hb). exists ha, (hb ++ [SClear t]).
    rewrite <- app_assoc. split; [done|]. by rewrite stored_app, Hb.
  - intros H. destruct (IH H) as (ha & hb & -> & Hb). exists ha, (hb ++ [SToken tk]).
    rewrite <- app_assoc. split; [done|]. by rewrite stored_app, Hb.
Qed.

Lemma resume_retained h1 h2 tok e now :
  NoDup (ev_id <$> stored (h1 ++ SToken tok :: h2)) → SToken tok ∉ h2 →
  last (st_events (sruns h1)) = Some e →
  e ∈ st_events (sruns (h1 ++ SToken tok :: h2)) →
  resume_events (sruns (h1 ++ SToken tok :: h2)) now tok = Some (stored h2).
Proof.
  intros Hnd Hnt Hl Hin. unfold resume_events, validate_token.
  change (SToken tok :: h2) with ([SToken tok] ++ h2) in *. rewrite app_assoc in *.
  rewrite tokens_mono by done. rewrite (token_created h1 e) by done. simpl. f_equal.
  assert (Hls : last (stored h1) = Some e).
  { destruct (events_suffix h1) as (k & _ & He). rewrite He in Hl. by eapply last_drop. }
  destruct (stored_last_split _ _ Hls) as (ha & hb & -> & Hb).
  assert (Hq : ((ha ++ SPush e :: hb) ++ [SToken tok]) ++ h2 = ha ++ SPush e :: (hb ++ [SToken tok] ++ h2))
    by (by rewrite <- !app_assoc).
  rewrite Hq in *. etrans; [by apply (since_retained ha e _ None)|].
  rewrite !stored_app, Hb. done.
Qed.

(** Retained or not, only events stored after the token was created come back. *)
Lemma resume_only_new h1 h2 tok e now :
  NoDup (ev_id <$> stored (h1 ++ SToken tok :: h2)) → SToken tok ∉ h2 →
  last (st_events (sruns h1)) = Some e →
  ∃ k, resume_events (sruns (h1 ++ SToken tok :: h2)) now tok = Some (drop k (stored h2)) ∧
       (k = 0 ∨ st_events (sruns (h1 ++ SToken tok :: h2)) = drop k (stored h2)).
Proof.
  intros Hnd Hnt Hl.
  assert (Hls : last (stored h1) = Some e).
  { destruct (events_suffix h1) as (k & _ & He). rewrite He in Hl. by eapply last_drop. }
  assert (Hst : stored (h1 ++ SToken tok :: h2) = stored h1 ++ stored h2).
  { change (SToken tok :: h2) with ([SToken tok] ++ h2). by rewrite !stored_app. }
  destruct (events_suffix (h1 ++ SToken tok :: h2)) as (k & Hk & He).
  assert (Hidx : stored (h1 ++ SToken tok :: h2) !! pred (length (stored h1)) = Some e).
  { rewrite last_lookup in Hls. rewrite Hst. by apply lookup_app_l_Some. }
  destruct (decide (k ≤ pred (length (stored h1)))) as [Hle|Hgt].
  - exists 0. rewrite drop_0. split; [|by left]. apply (resume_retained h1 h2 tok e); try done.
    rewrite He. apply elem_of_list_lookup. exists (pred (length (stored h1)) - k).
    rewrite lookup_drop. by replace (k + (pred (length (stored h1)) - k)) with (pred (length (stored h1))) by lia.
  - exists (k - length (stored h1)).
    assert (Hev : st_events (sruns (h1 ++ SToken tok :: h2)) = drop (k - length (stored h1)) (stored h2)).
    { rewrite He, Hst. rewrite drop_app_ge; [done|]. destruct (stored h1); simpl in *; lia. }
    split; [|by right]. unfold resume_events, validate_token.
    change (SToken tok :: h2) with ([SToken tok] ++ h2) in *.
    assert (Htok : st_tokens (sruns (h1 ++ [SToken tok] ++ h2)) !! tok
       = Some (MkRState (ev_session e) (ev_id e) (ev_seq e + 1))).
    { rewrite app_assoc. rewrite tokens_mono by done. by apply token_created. }
    rewrite Htok. simpl. f_equal. rewrite <- Hev. apply (since_unknown _ _ None).
    intros x Hx Heq. simpl in *. rewrite He in Hx. apply elem_of_list_lookup in Hx as [i Hi].
    rewrite lookup_drop in Hi.
    pose proof (NoDup_fmap_lookup_inj _ _ _ _ _ Hnd Hi Hidx Heq). lia.
Qed.

End proofs.

(** ** Managers *)
Section managers.
Context (M : nat) (A : Z) (sess : nat → string).
Notation mstep := (mstep M A sess).
Notation taken_by := (taken_by M A sess).

Definition no_resume (m : nat) (h : list mop) : Prop := ∀ tok now, MResume m tok now ∉ h.

Lemma counter_step w o m : no_resume m [o] →
  counter (mstep w o) m = (counter w m + N.of_nat (length (option_list (taken w m o))))%N.
Proof.
  intros Hn. destruct o as [t m'|t id ts msg d|now|t|tok|m' tok now]; simpl; try (unfold counter; simpl; lia).
  - unfold counter. destruct (decide (m' = m)) as [->|Hne].
    + destruct (w_tasks w !! t); simpl; [lia|]. rewrite lookup_insert. simpl. lia.
    + destruct (w_tasks w !! t); simpl; [lia|]. rewrite lookup_insert_ne by done. lia.
  - unfold counter. destruct (w_tasks w !! t) as [[? ?]|]; simpl; lia.
  - unfold validate_token. unfold counter. destruct (st_tokens (w_store w) !! tok); simpl; [|lia].
    rewrite lookup_insert_ne; [lia|]. intros ->. specialize (Hn tok now). set_solver.
Qed.

Lemma taken_consecutive w m h : no_resume m h →
  taken_by m w h = (λ i, counter w m + N.of_nat i)%N <$> seq 0 (length (taken_by m w h)).
Proof.
  revert w. induction h as [|o h IH]; intros w Hn; [done|]. simpl.
  assert (Ho : no_resume m [o]) by (intros tok now; specialize (Hn tok now); set_solver).
  assert (Hh : no_resume m h) by (intros tok now; specialize (Hn tok now); set_solver).
  pose proof (counter_step w o m Ho) as Hc. specialize (IH (mstep w o) Hh).
  destruct (taken w m o) as [q|] eqn:E; simpl in *.
  - assert (q = counter w m) as ->.
    { destruct o; simpl in E; try done. destruct (decide _); [|done]. destruct (w_tasks w !! t); [done|]. congruence. }
    f_equal; [lia|]. rewrite IH at 1. rewrite <- seq_shift, <- list_fmap_compose. 
    apply list_fmap_ext. intros i x _. rewrite Hc. simpl. lia.
  - rewrite IH at 1. apply list_fmap_ext. intros i x _. rewrite Hc. lia.
Qed.

End managers.
