From stdpp Require Import gmap strings list.
From Verif Require Import ProtocolModel ProtocolSpec.

(** Global well-formedness of reachable tables. *)
Record wf (s : proto) : Prop := {
  wf_self : ∀ id t w, p_pending s !! id = Some (t, w) → t = p_self s;
  wf_pend_lt : ∀ id t w, p_pending s !! id = Some (t, w) → w < p_next s;
  wf_task_lt : ∀ w r, (w, r) ∈ p_tasks s → w < p_next s;
  wf_inbox_lt : ∀ w r, p_inbox s !! w = Some r → w < p_next s;
  wf_inj : ∀ id1 id2 t1 t2 w, p_pending s !! id1 = Some (t1, w) →
             p_pending s !! id2 = Some (t2, w) → id1 = id2
}.

Definition tracks (s : proto) (id : reqid) (w : waiter) (f : fate) : Prop :=
  w < p_next s ∧
  match f with
  | Waiting => p_pending s !! id = Some (p_self s, w) ∧ p_inbox s !! w = None ∧
               ∀ r, (w, r) ∉ p_tasks s
  | Answered r => (∀ id' t, p_pending s !! id' ≠ Some (t, w)) ∧
               ((p_inbox s !! w = Some r ∧ ∀ r', (w, r') ∉ p_tasks s) ∨
                (p_inbox s !! w = None ∧ (w, r) ∈ p_tasks s ∧
                 ∀ j k r1 r2, p_tasks s !! j = Some (w, r1) → p_tasks s !! k = Some (w, r2) →
                   j = k ∧ r1 = r))
  | Abandoned => (∀ id' t, p_pending s !! id' ≠ Some (t, w)) ∧ p_inbox s !! w = None ∧
               ∀ r, (w, r) ∉ p_tasks s
  end.

Lemma wf_init t : wf (init t).
Proof. split; simpl; intros; try done; set_solver. Qed.

Lemma elem_of_delete_task {A} (l : list A) k x : x ∈ delete k l → x ∈ l.
Proof.
  intros Hx. apply elem_of_list_lookup in Hx as [i Hi].
  destruct (decide (i < k)) as [Hlt|Hge].
  - rewrite lookup_delete_lt in Hi by lia. by eapply elem_of_list_lookup_2.
  - rewrite lookup_delete_ge in Hi by lia. by eapply elem_of_list_lookup_2.
Qed.

Lemma wf_step s o : wf s → wf (step s o).
Proof.
  intros [H1 H2 H3 H4 H5]. destruct o as [id|id r|id r t|id|k]; simpl.
  - split; simpl; intros.
    + apply lookup_insert_Some in H as [[-> [= <- <-]]|[? ?]]; eauto.
    + apply lookup_insert_Some in H as [[-> [= <- <-]]|[? H]]; [lia|]. apply H2 in H. lia.
    + apply H3 in H. lia.
    + apply H4 in H. lia.
    + apply lookup_insert_Some in H as [[-> [= <- <-]]|[? H]];
        apply lookup_insert_Some in H0 as [[-> [= ]]|[? H0]]; try done.
      * apply H2 in H0. lia.
      * apply H2 in H. lia.
      * by eapply H5.
  - unfold complete. destruct (p_pending s !! id) as [[t w]|] eqn:E; [|done].
    destruct (decide (t = p_self s)) as [->|Hne].
    + split; simpl; intros.
      * apply lookup_delete_Some in H as [_ H]; eauto.
      * apply lookup_delete_Some in H as [_ H]; eauto.
      * apply elem_of_app in H as [H|H]; [eauto|].
        apply elem_of_list_singleton in H as [= -> ->]. eauto.
      * eauto.
      * apply lookup_delete_Some in H as [_ H]. apply lookup_delete_Some in H0 as [_ H0]. eauto.
    + destruct Hne. eauto.
  - unfold complete_for. destruct (p_pending s !! id) as [[t0 w]|] eqn:E; [|done].
    destruct (decide (t0 = t)) as [->|Hne]; [|done]. simpl.
    split; simpl; intros.
    + apply lookup_delete_Some in H as [_ H]; eauto.
    + apply lookup_delete_Some in H as [_ H]; eauto.
    + apply elem_of_app in H as [H|H]; [eauto|].
      apply elem_of_list_singleton in H as [= -> ->]. eauto.
    + eauto.
    + apply lookup_delete_Some in H as [_ H]. apply lookup_delete_Some in H0 as [_ H0]. eauto.
  - split; simpl; intros; eauto.
    + apply lookup_delete_Some in H as [_ H]; eauto.
    + apply lookup_delete_Some in H as [_ H]; eauto.
    + apply lookup_delete_Some in H as [_ H]. apply lookup_delete_Some in H0 as [_ H0]. eauto.
  - unfold run_task. destruct (p_tasks s !! k) as [[w r]|] eqn:E; [|done].
    split; simpl; intros; eauto.
    + eapply H3. eapply elem_of_delete_task; eauto.
    + apply lookup_insert_Some in H as [[-> ->]|[? H]]; eauto using elem_of_list_lookup_2.
Qed.

Lemma p_self_step s o : p_self (step s o) = p_self s.
Proof.
  destruct o; simpl; try done.
  - unfold complete. repeat case_match; done.
  - unfold complete_for. repeat case_match; done.
  - unfold run_task. repeat case_match; done.
Qed.

Lemma p_next_step s o : p_next s ≤ p_next (step s o).
Proof.
  destruct o; simpl; try lia.
  - unfold complete. repeat case_match; simpl; lia.
  - unfold complete_for. repeat case_match; simpl; lia.
  - unfold run_task. repeat case_match; simpl; lia.
Qed.

Lemma tracks_register s id w f id' : wf s → tracks s id w f →
  tracks (step s (Register id')) id w (fate_step (p_self s) id f (Register id')).
Proof.
  intros Hwf [Hlt Ht]. destruct f as [|r|]; cbn [fate_step].
  - destruct Ht as (Hp & Hi & Htask). destruct (decide (id' = id)) as [->|Hne]; split; simpl; try lia.
    + split_and!; try done. intros id2 t Hl.
      apply lookup_insert_Some in Hl as [[-> [= ]]|[? Hl]]; [lia|].
      pose proof (wf_inj s Hwf _ _ _ _ _ Hp Hl). done.
    + split_and!; try done. by rewrite lookup_insert_ne.
  - destruct Ht as (Hp & Ht). split; simpl; [lia|]. split; [|done].
    intros id2 t Hl. apply lookup_insert_Some in Hl as [[-> [= ]]|[? Hl]]; [lia|by eapply Hp].
  - destruct Ht as (Hp & Ht). split; simpl; [lia|]. split; [|done].
    intros id2 t Hl. apply lookup_insert_Some in Hl as [[-> [= ]]|[? Hl]]; [lia|by eapply Hp].
Qed.

Lemma tracks_cancel s id w f id' : wf s → tracks s id w f →
  tracks (step s (Cancel id')) id w (fate_step (p_self s) id f (Cancel id')).
Proof.
  intros Hwf [Hlt Ht]. destruct f as [|r|]; cbn [fate_step].
  - destruct Ht as (Hp & Hi & Htask). destruct (decide (id' = id)) as [->|Hne]; split; simpl; try lia.
    + split_and!; try done. intros id2 t Hl.
      apply lookup_delete_Some in Hl as [? Hl].
      pose proof (wf_inj s Hwf _ _ _ _ _ Hp Hl). done.
    + split_and!; try done. by rewrite lookup_delete_ne.
  - destruct Ht as (Hp & Ht). split; simpl; [lia|]. split; [|done].
    intros id2 t Hl. apply lookup_delete_Some in Hl as [? Hl]. by eapply Hp.
  - destruct Ht as (Hp & Ht). split; simpl; [lia|]. split; [|done].
    intros id2 t Hl. apply lookup_delete_Some in Hl as [? Hl]. by eapply Hp.
Qed.

(** The common effect of both completion functions. *)
Definition finish (s : proto) id w r :=
  MkProto (p_self s) (delete id (p_pending s)) (p_next s) (p_tasks s ++ [(w, r)]) (p_inbox s).

Lemma tracks_finish s id w f id' w' r t' : wf s → tracks s id w f →
  p_pending s !! id' = Some (t', w') →
  tracks (finish s id' w' r) id w
    (match f with Waiting => if decide (id' = id) then Answered r else Waiting | _ => f end).
Proof.
  intros Hwf [Hlt Ht] Hpend. destruct f as [|r0|].
  - destruct Ht as (Hp & Hi & Htask). destruct (decide (id' = id)) as [->|Hne]; split; simpl; try lia.
    + rewrite Hp in Hpend. injection Hpend as [= <- <-]. split.
      * intros id2 t Hl. apply lookup_delete_Some in Hl as [? Hl].
        pose proof (wf_inj s Hwf _ _ _ _ _ Hp Hl). done.
      * right. split_and!; [done|set_solver|].
        intros j k r1 r2 Hj Hk.
        assert (∀ j r1, (p_tasks s ++ [(w, r)]) !! j = Some (w, r1) → j = length (p_tasks s) ∧ r1 = r)
          as Hlast.
        { intros j0 r3 Hj0. apply lookup_app_Some in Hj0 as [Hj0|[? Hj0]].
          - apply elem_of_list_lookup_2 in Hj0. by apply Htask in Hj0.
          - apply list_lookup_singleton_Some in Hj0 as [? [= ->]]. split; [lia|done]. }
        apply Hlast in Hj as [-> ->]. apply Hlast in Hk as [-> ->]. done.
    + split_and!; try done. { by rewrite lookup_delete_ne. }
      intros r2 Hin. apply elem_of_app in Hin as [Hin|Hin]; [by apply Htask in Hin|].
      apply elem_of_list_singleton in Hin as [= <- <-].
      pose proof (wf_inj s Hwf _ _ _ _ _ Hp Hpend). done.
  - destruct Ht as (Hp & Ht). split; simpl; [lia|]. split.
    { intros id2 t Hl. apply lookup_delete_Some in Hl as [? Hl]. by eapply Hp. }
    assert (w ≠ w') as Hw by (intros <-; by eapply Hp).
    destruct Ht as [[Hi Ht]|(Hi & Hin & Huniq)]; [left|right].
    + split; [done|]. intros r2 Hin. apply elem_of_app in Hin as [Hin|Hin]; [by eapply Ht|].
      apply elem_of_list_singleton in Hin as [= <- <-]. done.
    + split_and!; [done|set_solver|].
      intros j k r1 r2 Hj Hk.
      apply lookup_app_Some in Hj as [Hj|[? Hj]];
        [|by apply list_lookup_singleton_Some in Hj as [? [= ? ?]]; subst].
      apply lookup_app_Some in Hk as [Hk|[? Hk]];
        [|by apply list_lookup_singleton_Some in Hk as [? [= ? ?]]; subst].
      by eapply Huniq.
  - destruct Ht as (Hp & Hi & Ht). split; simpl; [lia|]. split.
    { intros id2 t Hl. apply lookup_delete_Some in Hl as [? Hl]. by eapply Hp. }
    split; [done|]. intros r2 Hin. apply elem_of_app in Hin as [Hin|Hin]; [by eapply Ht|].
    apply elem_of_list_singleton in Hin as [= <- <-]. by eapply Hp.
Qed.

Lemma tracks_run_task s id w f k : wf s → tracks s id w f →
  tracks (run_task s k) id w f.
Proof.
  intros Hwf [Hlt Ht]. unfold run_task. destruct (p_tasks s !! k) as [[w' r']|] eqn:E; [|by split].
  split; simpl; [lia|]. destruct f as [|r|].
  - destruct Ht as (Hp & Hi & Htask).
    assert (w ≠ w') by (intros <-; eapply Htask, elem_of_list_lookup_2, E).
    split_and!; [done|by rewrite lookup_insert_ne|].
    intros r Hin%elem_of_delete_task. by eapply Htask.
  - destruct Ht as (Hp & Ht). split; [done|].
    destruct Ht as [[Hi Ht]|(Hi & Hin & Huniq)].
    + left. assert (w ≠ w') by (intros <-; eapply Ht, elem_of_list_lookup_2, E).
      split; [by rewrite lookup_insert_ne|]. intros r2 Hin%elem_of_delete_task. by eapply Ht.
    + destruct (decide (w = w')) as [<-|Hne].
      * left. destruct (Huniq _ _ _ _ E E) as [_ ->].
        split; [by rewrite lookup_insert|]. intros r2 Hin2.
        apply elem_of_list_lookup in Hin2 as [i Hi2].
        destruct (decide (i < k)).
        -- rewrite lookup_delete_lt in Hi2 by lia. destruct (Huniq _ _ _ _ Hi2 E). lia.
        -- rewrite lookup_delete_ge in Hi2 by lia. destruct (Huniq _ _ _ _ Hi2 E). lia.
      * right. split_and!; [by rewrite lookup_insert_ne| |].
        -- apply elem_of_list_lookup in Hin as [i Hi2].
           assert (i ≠ k) by (intros ->; rewrite E in Hi2; congruence).
           destruct (decide (i < k)).
           ++ eapply elem_of_list_lookup_2. rewrite lookup_delete_lt; [done|lia].
           ++ eapply (elem_of_list_lookup_2 _ (pred i)). rewrite lookup_delete_ge by lia.
              by replace (S (pred i)) with i by lia.
        -- intros i j r1 r2 H1 H2.
           destruct (decide (i < k)), (decide (j < k));
             (rewrite lookup_delete_lt in H1 by lia) || (rewrite lookup_delete_ge in H1 by lia);
             (rewrite lookup_delete_lt in H2 by lia) || (rewrite lookup_delete_ge in H2 by lia);
             destruct (Huniq _ _ _ _ H1 H2) as [? ?]; split; try done; lia.
  - destruct Ht as (Hp & Hi & Htask).
    assert (w ≠ w') by (intros <-; eapply Htask, elem_of_list_lookup_2, E).
    split_and!; [done|by rewrite lookup_insert_ne|].
    intros r Hin%elem_of_delete_task. by eapply Htask.
Qed.

Lemma tracks_step s id w f o : wf s → tracks s id w f →
  tracks (step s o) id w (fate_step (p_self s) id f o).
Proof.
  intros Hwf Ht. destruct o as [id'|id' r|id' r t|id'|k].
  - by apply tracks_register.
  - simpl. unfold complete. destruct (p_pending s !! id') as [[t w']|] eqn:E.
    + pose proof (wf_self s Hwf _ _ _ E) as ->. rewrite decide_True by done.
      apply (tracks_finish s id w f id' w' r _ Hwf Ht E).
    + destruct f; cbn [fate_step]; try done.
      destruct (decide (id' = id)) as [->|]; [|done].
      destruct Ht as [_ [Hp _]]. congruence.
  - simpl. unfold complete_for. destruct (p_pending s !! id') as [[t0 w']|] eqn:E.
    + pose proof (wf_self s Hwf _ _ _ E) as ->.
      destruct (decide (p_self s = t)) as [<-|Hne]; simpl.
      * pose proof (tracks_finish s id w f id' w' r _ Hwf Ht E) as Hfin.
        destruct f; cbn [fate_step]; try done.
        destruct (decide (id' = id)) as [->|]; [by rewrite decide_True|].
        rewrite decide_False; [done|tauto].
      * destruct f; cbn [fate_step]; try done. rewrite decide_False; [done|].
        intros [_ ->]. done.
    + destruct f; cbn [fate_step fst]; try done.
      destruct (decide (id' = id ∧ t = p_self s)) as [[-> _]|]; [|done].
      destruct Ht as [_ [Hp _]]. congruence.
  - by apply tracks_cancel.
  - simpl. replace (fate_step _ _ _ _) with f by (by destruct f). by apply tracks_run_task.
Qed.

Lemma run_app s h1 h2 : run s (h1 ++ h2) = run (run s h1) h2.
Proof. apply fold_left_app. Qed.

Lemma wf_run s h : wf s → wf (run s h).
Proof. revert s. induction h as [|o h IH]; simpl; intros s Hs; [done|]. apply IH. by apply wf_step. Qed.

Lemma p_self_run s h : p_self (run s h) = p_self s.
Proof.
  revert s. induction h as [|o h IH]; simpl; intros s; [done|]. rewrite IH. apply p_self_step.
Qed.

Lemma p_next_run s h : p_next (run s h) = p_next s + registrations h.
Proof.
  revert s. induction h as [|o h IH]; simpl; intros s; [lia|]. rewrite IH.
  destruct o; simpl; try lia.
  - unfold complete. repeat case_match; simpl; lia.
  - unfold complete_for. repeat case_match; simpl; lia.
  - unfold run_task. repeat case_match; simpl; lia.
Qed.

Lemma tracks_run s id w f h : wf s → tracks s id w f →
  tracks (run s h) id w (fold_left (fate_step (p_self s) id) h f).
Proof.
  revert s f. induction h as [|o h IH]; simpl; intros s f Hwf Ht; [done|].
  rewrite <- (p_self_step s o). apply IH; [by apply wf_step|].
  rewrite p_self_step. by apply tracks_step.
Qed.

Lemma tracks_registered s id : wf s → tracks (fst (register s id)) id (p_next s) Waiting.
Proof.
  intros Hwf. split; simpl; [lia|]. split_and!.
  - by rewrite lookup_insert.
  - destruct (p_inbox s !! p_next s) eqn:E; [|done]. apply (wf_inbox_lt s Hwf) in E. lia.
  - intros r Hin. apply (wf_task_lt s Hwf) in Hin. lia.
Qed.

Lemma tracks_history t before id later :
  tracks (run (init t) (before ++ Register id :: later)) id (registrations before)
         (fate_of t id later).
Proof.
  rewrite run_app. simpl. change (step (run (init t) before) (Register id))
    with (fst (register (run (init t) before) id)).
  assert (Hwf : wf (run (init t) before)) by (apply wf_run, wf_init).
  pose proof (tracks_registered _ id Hwf) as Ht.
  rewrite p_next_run in Ht. simpl in Ht.
  assert (Hwf2 : wf (fst (register (run (init t) before) id)))
    by (apply (wf_step _ (Register id)); done).
  pose proof (tracks_run _ _ _ _ later Hwf2 Ht) as Hr.
  change (p_self (fst (register (run (init t) before) id))) with (p_self (run (init t) before)) in Hr.
  rewrite p_self_run in Hr. exact Hr.
Qed.

Lemma delivered_is_fate t before id later r :
  p_inbox (run (init t) (before ++ Register id :: later)) !! registrations before = Some r →
  fate_of t id later = Answered r.
Proof.
  intros Hi. destruct (tracks_history t before id later) as [_ Ht].
  destruct (fate_of t id later) as [|r0|].
  - destruct Ht as (_ & ? & _). congruence.
  - destruct Ht as (_ & [[? _]|[? _]]); congruence.
  - destruct Ht as (_ & ? & _). congruence.
Qed.

Lemma fate_is_delivered t before id later r :
  fate_of t id later = Answered r →
  p_tasks (run (init t) (before ++ Register id :: later)) = [] →
  p_inbox (run (init t) (before ++ Register id :: later)) !! registrations before = Some r.
Proof.
  intros Hf Hnil. destruct (tracks_history t before id later) as [_ Ht]. rewrite Hf in Ht.
  destruct Ht as (_ & [[? _]|(_ & Hin & _)]); [done|]. rewrite Hnil in Hin. set_solver.
Qed.

Lemma pending_iff_waiting t before id later :
  fate_of t id later = Waiting ↔
  ∃ id' t', p_pending (run (init t) (before ++ Register id :: later)) !! id'
            = Some (t', registrations before).
Proof.
  destruct (tracks_history t before id later) as [_ Ht]. split.
  - intros Hf. rewrite Hf in Ht. destruct Ht as [Hp _]. eauto.
  - intros (id' & t' & Hp). destruct (fate_of t id later); [done| |];
      destruct Ht as [Hn _]; by apply Hn in Hp.
Qed.

(** Every spawned task can be run: the runtime can always drain the task list. *)
Lemma drain s : ∃ h, (∀ o, o ∈ h → ∃ k, o = RunTask k) ∧ p_tasks (run s h) = [].
Proof.
  remember (length (p_tasks s)) as n eqn:En. revert s En. induction n as [|n IH]; intros s En.
  - exists []. split; [set_solver|]. simpl. by destruct (p_tasks s).
  - destruct (IH (run_task s 0)) as (h & Hh & Hd).
    { unfold run_task. destruct (p_tasks s) as [|[w r] l]; [done|]. simpl in *. lia. }
    exists (RunTask 0 :: h). split; [|done]. intros o [->|Ho]%elem_of_cons; eauto.
Qed.

(** Effect of one call on the whole table. *)
Lemma complete_for_spec t h id r t' :
  let s := run (init t) h in
  (p_pending s !! id = None ∨ t' ≠ t → complete_for s id r t' = (s, false)) ∧
  (is_Some (p_pending s !! id) ∧ t' = t →
     snd (complete_for s id r t') = true ∧
     p_pending (fst (complete_for s id r t')) = delete id (p_pending s)).
Proof.
  intros s. assert (Hwf : wf s) by (apply wf_run, wf_init).
  assert (Hself : p_self s = t) by apply p_self_run.
  unfold complete_for. split.
  - intros [->|Hne]; [done|]. destruct (p_pending s !! id) as [[t0 w]|] eqn:E; [|done].
    pose proof (wf_self s Hwf _ _ _ E) as ->. rewrite decide_False; [done|].
    rewrite Hself. done.
  - intros [[[t0 w] E] ->]. rewrite E. pose proof (wf_self s Hwf _ _ _ E) as ->.
    rewrite decide_True by (by rewrite Hself). done.
Qed.

Lemma complete_spec t h id r :
  let s := run (init t) h in
  p_pending (complete s id r) = delete id (p_pending s) ∧
  (p_pending s !! id = None → complete s id r = s).
Proof.
  intros s. assert (Hwf : wf s) by (apply wf_run, wf_init).
  unfold complete. destruct (p_pending s !! id) as [[t0 w]|] eqn:E.
  - pose proof (wf_self s Hwf _ _ _ E) as ->. rewrite decide_True by done. done.
  - split; [|done]. by rewrite delete_notin.
Qed.

Lemma fate_cons_wrong_transport t id id' r t' later :
  t' ≠ t → fate_of t id (CompleteFor id' r t' :: later) = fate_of t id later.
Proof.
  intros Hne. unfold fate_of. simpl. rewrite decide_False; [done|]. by intros [_ ?].
Qed.

Lemma wrong_transport_invisible t h1 h2 id r t' :
  t' ≠ t → run (init t) (h1 ++ CompleteFor id r t' :: h2) = run (init t) (h1 ++ h2).
Proof.
  intros Hne. rewrite !run_app. simpl. f_equal.
  destruct (complete_for_spec t h1 id r t') as [H _]. rewrite H; [done|by right].
Qed.
