(** Sequence numbers of what is stored: every record call stores its number at most once. *)
From Coq Require Import Lia.
From stdpp Require Import gmap strings list.
From Verif Require Import EventStoreModel EventStoreSpec EventStoreProofs.

Section distinct.
Context (max_events : nat) (max_age : Z) (sess : nat → string) (m : nat).
Context (Hinj : ∀ a b, sess a = sess b → a = b).
Definition mine (e : event) : bool := bool_decide (ev_session e = sess m).
Definition numbers (w : world) : list N := ev_seq <$> filter (λ e, mine e = true) (st_events (w_store w)).
Record ninv (w : world) : Prop := MkNinv {
  ni_nodup : NoDup (numbers w);
  ni_below : ∀ q, q ∈ numbers w → (q < counter w m)%N;
  ni_open : ∀ t q, w_tasks w !! t = Some (m, q) → (q < counter w m)%N ∧ q ∉ numbers w;
  ni_two : ∀ t t' q, w_tasks w !! t = Some (m, q) → w_tasks w !! t' = Some (m, q) → t = t' }.

Lemma ninv_shrink w s : (∃ k, st_events s = drop k (st_events (w_store w))) → ninv w → ninv (MkWorld s (w_counter w) (w_tasks w)).
Proof.
  intros [k Hk] [H1 H2 H3 H4].
  assert (∃ X, numbers w = X ++ numbers (MkWorld s (w_counter w) (w_tasks w))) as [X HX].
  { exists (ev_seq <$> filter (λ e, mine e = true) (take k (st_events (w_store w)))). unfold numbers. cbn [w_store]. by rewrite Hk, <-fmap_app, <-filter_app, take_drop. }
  rewrite HX in H1. rewrite HX in H2. split.
  - by apply NoDup_app in H1 as (_ & _ & ?).
  - intros q Hq. apply H2. apply elem_of_app. by right.
  - intros t q Ht. destruct (H3 t q Ht) as [Hlt Hn]. split; [done|]. intros Hq. apply Hn. rewrite HX. apply elem_of_app. by right.
  - exact H4.
Qed.

Lemma ninv_step w o : (∀ tok now, o ≠ MResume m tok now) → ninv w → ninv (mstep max_events max_age sess w o).
Proof.
  intros Hr Hw. destruct o as [t m'|t id ts msg d|now|t|tok|m' tok now]; cbn [mstep].
  - destruct (w_tasks w !! t) as [?|] eqn:E; [done|]. destruct Hw as [H1 H2 H3 H4].
    set (w' := MkWorld _ _ _). destruct (decide (m' = m)) as [->|Hne].
    + assert (counter w' m = counter w m + 1)%N as Ec by (unfold w', counter at 1; cbn [w_counter]; by rewrite lookup_insert).
      split; rewrite ?Ec; change (numbers w') with (numbers w); unfold w'; cbn [w_tasks].
      * done.
      * intros q Hq. specialize (H2 q Hq). lia.
      * intros t' q. destruct (decide (t' = t)) as [->|Hn].
        -- rewrite lookup_insert. intros [= <-]. split; [lia|]. intros Hq. specialize (H2 _ Hq). lia.
        -- rewrite lookup_insert_ne by done. intros Ht. destruct (H3 _ _ Ht) as [Hlt Hq]. split; [lia|done].
      * intros t1 t2 q. destruct (decide (t1 = t)) as [->|Hn1], (decide (t2 = t)) as [->|Hn2]; rewrite ?lookup_insert, ?lookup_insert_ne by done; try done.
        -- intros [= <-] Ht. destruct (H3 _ _ Ht). lia.
        -- intros Ht [= <-]. destruct (H3 _ _ Ht). lia.
        -- apply H4.
    + assert (counter w' m = counter w m) as Ec by (unfold w', counter at 1; cbn [w_counter]; by rewrite lookup_insert_ne).
      split; rewrite ?Ec; change (numbers w') with (numbers w); unfold w'; cbn [w_tasks].
      * done.
      * done.
      * intros t' q. destruct (decide (t' = t)) as [->|Hn]; rewrite ?lookup_insert, ?lookup_insert_ne by done; [|apply H3]. intros [= -> _]. done.
      * intros t1 t2 q. destruct (decide (t1 = t)) as [->|Hn1], (decide (t2 = t)) as [->|Hn2]; rewrite ?lookup_insert, ?lookup_insert_ne by done; try done; [by intros [= ? ?]|by intros ? [= ? ?]|apply H4].
  - destruct (w_tasks w !! t) as [[m' q]|] eqn:E; [|done]. destruct Hw as [H1 H2 H3 H4].
    assert (numbers (MkWorld (sstep max_events max_age (w_store w) (SPush (MkEvent id ts msg d (sess m') q))) (w_counter w) (delete t (w_tasks w))) = numbers w ++ if decide (m' = m) then [q] else []) as En.
    { unfold numbers. cbn [w_store sstep st_events]. rewrite filter_app, fmap_app. f_equal. unfold filter; cbn [list_filter]. unfold mine. cbn [ev_session].
      destruct (decide (m' = m)) as [->|Hne].
      - rewrite bool_decide_eq_true_2 by done. by destruct (decide (true = true)).
      - rewrite bool_decide_eq_false_2; [by destruct (decide (false = true))|]. intros Hs. by apply Hne, Hinj. }
    split.
    + rewrite En. destruct (decide (m' = m)) as [->|Hne]; [|by rewrite app_nil_r]. apply NoDup_app. split; [done|]. split; [|apply NoDup_singleton].
      intros x Hx Hq. apply elem_of_list_singleton in Hq as ->. by destruct (H3 _ _ E).
    + rewrite En. intros x [Hx|Hx]%elem_of_app; [by apply H2|]. destruct (decide (m' = m)) as [->|Hne]; [|by apply elem_of_nil in Hx]. apply elem_of_list_singleton in Hx as ->. by destruct (H3 _ _ E).
    + rewrite En. cbn [w_tasks]. intros t' x Ht'. apply lookup_delete_Some in Ht' as [Hn Ht']. destruct (H3 _ _ Ht') as [Hlt Hx]. split; [done|]. intros [?|Hq]%elem_of_app; [done|].
      destruct (decide (m' = m)) as [->|Hne]; [|by apply elem_of_nil in Hq]. apply elem_of_list_singleton in Hq as ->. by pose proof (H4 _ _ _ E Ht').
    + cbn [w_tasks]. intros t1 t2 x [_ Ha]%lookup_delete_Some [_ Hb]%lookup_delete_Some. by eapply H4.
  - apply ninv_shrink; [|done]. cbn [sstep st_events]. unfold cleanup. destruct (pop_older_suffix (now - max_age) (drop (length (st_events (w_store w)) - max_events) (st_events (w_store w)))) as [k ->]. rewrite drop_drop. by eexists.
  - apply ninv_shrink; [|done]. cbn [sstep st_events]. apply pop_older_suffix.
  - apply ninv_shrink; [|done]. exists 0. cbn [sstep]. by destruct (token_state (w_store w)).
  - destruct (validate_token (w_store w) now tok) as [r|]; [|done]. assert (m' ≠ m) as Hne by (intros ->; by eapply Hr). destruct Hw as [H1 H2 H3 H4].
    set (w' := MkWorld _ _ _). assert (counter w' m = counter w m) as Ec by (unfold w', counter at 1; cbn [w_counter]; by rewrite lookup_insert_ne).
    split; rewrite ?Ec; done.
Qed.
Lemma ninv_run h : (∀ tok now, MResume m tok now ∉ h) → ninv (mruns max_events max_age sess h).
Proof.
  induction h as [|o h IH] using rev_ind; intros Hr.
  - split; cbn; [constructor|intros q Hq; by apply elem_of_nil in Hq|done|done].
  - unfold mruns. rewrite fold_left_app. cbn [fold_left]. apply ninv_step.
    + intros tok now ->. apply (Hr tok now). apply elem_of_app. right. by apply elem_of_list_singleton.
    + apply IH. intros tok now Hin. apply (Hr tok now). apply elem_of_app. by left.
Qed.
End distinct.

(** Resuming: what a token gives back and which number comes next. *)
Section resuming.
Context (M : nat) (A : Z) (sess : nat → string).
Notation mstep := (mstep M A sess).
Notation taken_by := (taken_by M A sess).
Lemma taken_by_app m w a b : taken_by m w (a ++ b) = taken_by m w a ++ taken_by m (fold_left mstep a w) b.
Proof. revert w. induction a as [|o a IH]; intros w; [done|]. cbn [app EventStoreModel.taken_by fold_left]. by rewrite IH, app_assoc. Qed.
Lemma token_kept w h tok : MToken tok ∉ h →
  st_tokens (w_store (fold_left mstep h w)) !! tok = st_tokens (w_store w) !! tok.
Proof.
  revert w. induction h as [|o h IH]; intros w Hn; [done|]. apply not_elem_of_cons in Hn as [Ho Hn]. cbn [fold_left]. rewrite IH by done.
  destruct o as [t m'|t id ts msg d|now|t|tok'|m' tok' now]; cbn [EventStoreModel.mstep]; repeat case_match; try done.
  cbn [w_store sstep]. destruct (token_state (w_store w)); [|done]. cbn [st_tokens]. rewrite lookup_insert_ne; [done|]. congruence.
Qed.
Lemma resume_repeats w m e tok now h t : last (st_events (w_store w)) = Some e → counter w m = (ev_seq e + 1)%N →
  MToken tok ∉ h → (∀ tok' now', MResume m tok' now' ∉ h) → taken_by m (mstep w (MToken tok)) h ≠ [] →
  w_tasks (fold_left mstep (MToken tok :: h) w) !! t = None →
  ∃ l, taken_by m w (MToken tok :: h ++ [MResume m tok now; MTake t m]) = (ev_seq e + 1)%N :: l ++ [(ev_seq e + 1)%N].
Proof.
  intros Hl Hc Hn Hr Hne Ht. cbn [EventStoreModel.taken_by taken option_list app]. rewrite taken_by_app.
  set (w1 := mstep w (MToken tok)) in *. pose proof (taken_consecutive M A sess w1 m h Hr) as H1.
  assert (counter w1 m = ev_seq e + 1)%N as Hc1 by exact Hc.
  destruct (taken_by m w1 h) as [|q l]; [done|]. clear Hne. cbn [length] in H1. rewrite <-cons_seq in H1. cbn [fmap list_fmap] in H1.
  injection H1 as Hq _. exists l. cbn [app]. rewrite Hq, Hc1, N.add_0_r. f_equal. f_equal.
  change (fold_left mstep (MToken tok :: h) w) with (fold_left mstep h w1) in Ht.
  assert (st_tokens (w_store (fold_left mstep h w1)) !! tok = Some (MkRState (ev_session e) (ev_id e) (ev_seq e + 1))) as Hk.
  { rewrite token_kept by done. unfold w1. cbn [EventStoreModel.mstep w_store sstep]. unfold token_state. rewrite Hl. cbn [st_tokens]. by rewrite lookup_insert. }
  cbn [EventStoreModel.taken_by taken option_list app EventStoreModel.mstep]. unfold validate_token. rewrite Hk. cbn [w_tasks]. rewrite decide_True, Ht by done.
  cbn [option_list app]. unfold counter. cbn [w_counter rs_next]. by rewrite lookup_insert.
Qed.
End resuming.
Lemma elem_of_drop_inv {B} k (l : list B) x : x ∈ drop k l → x ∈ l.
Proof. intros H. rewrite <-(take_drop k l). apply elem_of_app. by right. Qed.
Lemma since_subset s id limit e : e ∈ get_events_since s id limit → e ∈ st_events s.
Proof.
  unfold get_events_since. destruct limit as [n|]; intros H.
  - apply elem_of_take in H as (i & H & _). apply elem_of_list_lookup_2 in H. by eapply elem_of_drop_inv.
  - by eapply elem_of_drop_inv.
Qed.
