From stdpp Require Import gmap list.
From Verif Require Import DeliveryModel DeliverySpec.
Local Open Scope Z_scope.

(** *** Batching *)
Section batching.
  Context {A : Type}.
  Implicit Types (s : batcher A) (os : list (mop A)).
  Lemma mrun_snoc max s os o : mrun max s (os ++ [o]) = mstep max (mrun max s os) o.
  Proof. unfold mrun. by rewrite fold_left_app. Qed.
  Lemma added_snoc os o : added (os ++ [o]) = added os ++ added [o].
  Proof. unfold added. by rewrite omap_app. Qed.
  Lemma batches_formed max os : let s := mrun max (@batcher_new A) os in
    (∃ formed, formed ≡ₚ mb_recv s ++ mb_chan s ++ mb_out s ∧ concat formed ++ mb_pending s = added os ∧
       Forall (λ b, b ≠ [] ∧ (length b ≤ Nat.max 1 max)%nat) formed) ∧ (length (mb_pending s) < Nat.max 1 max)%nat.
  Proof.
    induction os as [|o os IH] using rev_ind; cbn zeta in *.
    - split; [|cbn; lia]. exists []. done.
    - rewrite mrun_snoc, added_snoc. set (s := mrun max batcher_new os) in *. clearbody s.
      destruct IH as [(formed & Hp & Hc & Hf) Hl]. destruct o as [x| |i|]; cbn [mstep].
      + destruct (bool_decide (max ≤ length (mb_pending s ++ [x]))%nat) eqn:E.
        * cbn. split; [|lia]. exists (formed ++ [mb_pending s ++ [x]]). split; [|split].
          -- by rewrite Hp, !app_assoc.
          -- rewrite concat_app. cbn. rewrite !app_nil_r. rewrite <-Hc. by rewrite app_assoc.
          -- apply Forall_app. split; [done|]. constructor; [|constructor]. split; [by destruct (mb_pending s)|].
             rewrite app_length. cbn. lia.
        * apply bool_decide_eq_false in E. rewrite app_length in E. cbn in *. split; [|rewrite app_length; cbn; lia]. exists formed. split; [done|].
          split; [|done]. by rewrite app_assoc, Hc.
      + destruct (mb_pending s) as [|x p] eqn:E.
        * split; [|by rewrite E]. exists formed. split; [done|]. rewrite E. split; [|done]. by rewrite Hc, app_nil_r.
        * cbn. split; [|lia]. exists (formed ++ [x :: p]). split; [|split].
          -- by rewrite Hp, !app_assoc.
          -- rewrite concat_app. cbn. by rewrite !app_nil_r.
          -- apply Forall_app. split; [done|]. constructor; [|constructor]. split; [done|]. lia.
      + assert (added [MSend i] = @nil A) as -> by done. rewrite app_nil_r.
        destruct (mb_out s !! i) as [b|] eqn:E; [|eauto]. destruct (bool_decide _); [|eauto].
        cbn. split; [|done]. exists formed. split; [|done]. rewrite Hp. f_equiv. rewrite <-app_assoc. f_equiv. cbn.
        by rewrite <-(delete_Permutation _ _ _ E).
      + assert (added [MRecv] = @nil A) as -> by done. rewrite app_nil_r.
        destruct (mb_chan s) as [|b c] eqn:E; [rewrite <-E in Hp; eauto|]. cbn. split; [|done].
        exists formed. split; [|done]. by rewrite Hp, <-app_assoc.
  Qed.
  Lemma batches_in_order max os : one_sender max (@batcher_new A) os → let s := mrun max batcher_new os in
    concat (mb_recv s ++ mb_chan s ++ mb_out s) ++ mb_pending s = added os.
  Proof.
    cbn zeta. unfold mrun.
    assert (∀ s pre, concat (mb_recv s ++ mb_chan s ++ mb_out s) ++ mb_pending s = pre → (length (mb_out s) ≤ 1)%nat → one_sender max s os →
      concat (mb_recv (mrun max s os) ++ mb_chan (mrun max s os) ++ mb_out (mrun max s os)) ++ mb_pending (mrun max s os) = pre ++ added os) as H.
    { induction os as [|o os IH]; intros s pre Hs Hl Ho; [by rewrite app_nil_r|].
      destruct Ho as [Ho Hos]. change (mrun max s (o :: os)) with (mrun max (mstep max s o) os).
      assert (added (o :: os) = added [o] ++ added os) as -> by (by destruct o).
      rewrite (app_assoc pre). apply IH; [| |done].
      - destruct o as [x| |i|]; cbn [mstep].
        + rewrite Ho in *. destruct (bool_decide _); cbn.
          * rewrite <-Hs, !concat_app. cbn. by rewrite !app_nil_r, !app_assoc.
          * rewrite <-Hs, !concat_app. cbn. by rewrite !app_nil_r, !app_assoc.
        + rewrite Ho in *. destruct (mb_pending s) as [|x p] eqn:E; cbn.
          * rewrite Ho, E, Hs. by rewrite app_nil_r.
          * rewrite <-Hs, !concat_app. cbn. by rewrite !app_nil_r, !app_assoc.
        + assert (added [MSend i] = @nil A) as -> by done. rewrite app_nil_r.
          destruct (mb_out s !! i) as [b|] eqn:E; [|done]. destruct (bool_decide _); [|done]. cbn.
          destruct (mb_out s) as [|b' [|]]; [done| |cbn in Hl; lia]. destruct i; [|done]. cbn in E. simplify_eq. cbn.
          rewrite app_nil_r, <-?app_assoc. done.
        + assert (added [MRecv] = @nil A) as -> by done. rewrite app_nil_r.
          destruct (mb_chan s) as [|b c] eqn:E; [by rewrite E|]. cbn. rewrite <-Hs. by rewrite <-!app_assoc.
      - destruct o as [x| |i|]; cbn [mstep].
        + rewrite Ho. destruct (bool_decide _); cbn; lia.
        + destruct (mb_pending s); [done|]. rewrite Ho. cbn. lia.
        + destruct (mb_out s !! i) as [b|] eqn:E; [|done]. destruct (bool_decide _); [|done]. cbn.
          destruct (mb_out s) as [|b' [|]]; [done| |cbn in Hl; lia]. by destruct i; cbn in *; simplify_eq; cbn; lia.
        + destruct (mb_chan s); done. }
    intros Ho. apply (H batcher_new []); [done|cbn; lia|done].
  Qed.
End batching.

(** *** Debouncing *)
Section debouncing.
  Context (wait : nat → Z).
  Record inv (s : debouncer) (h : list (dcall * dout)) : Prop := {
    inv_pending : ∀ k, d_pending s !! k = fst <$> owed k h;
    inv_timer : ∀ k n t, owed k h = Some (n, t) → ∃ tid, d_timers s !! k = Some tid ∧ d_tasks s !! tid = Some (Sleeping k (t + wait k));
    inv_task : ∀ tid tk, d_tasks s !! tid = Some tk → ∃ k n t, tk = Sleeping k (t + wait k) ∧ owed k h = Some (n, t) ∧ d_timers s !! k = Some tid;
    inv_timers : ∀ k tid, d_timers s !! k = Some tid → is_Some (d_tasks s !! tid) ∧ is_Some (owed k h);
    inv_next : ∀ tid, is_Some (d_tasks s !! tid) → (tid < d_next s)%nat }.
  Lemma owed_snoc k h e : owed k (h ++ [e]) = owed_step k (owed k h) e.
  Proof. unfold owed. by rewrite fold_left_app. Qed.
  Lemma inv_new : inv debouncer_new [].
  Proof. split; try done; intros; cbn in *; simplify_map_eq. by destruct H. Qed.
  Lemma timers_inj s h k1 k2 tid : inv s h → d_timers s !! k1 = Some tid → d_timers s !! k2 = Some tid → k1 = k2.
  Proof.
    intros Hi H1 H2. destruct (inv_timers _ _ Hi _ _ H1) as [[tk Htk] [[n1 t1] Ho1]].
    destruct (inv_timers _ _ Hi _ _ H2) as [_ [[n2 t2] Ho2]].
    destruct (inv_timer _ _ Hi _ _ _ Ho1) as (tid1 & Ht1 & Hk1). destruct (inv_timer _ _ Hi _ _ _ Ho2) as (tid2 & Ht2 & Hk2). by simplify_eq.
  Qed.
  (** The state after the first two parts of add: no task and no timer for the key. *)
  Lemma inv_add s h k n now : inv s h →
    inv (dcall_step wait s (CAdd k n now)).1 (h ++ [(CAdd k n now, ONone)]).
  Proof.
    intros Hi. cbn [dcall_step fst].
    set (s1 := d_cancel k (d_insert k n s)).
    assert (Hnext : d_next s1 = d_next s).
    { unfold s1, d_cancel. by destruct (d_timers _ !! _). }
    assert (Hpend : d_pending s1 = <[k := n]> (d_pending s)).
    { unfold s1, d_cancel. by destruct (d_timers _ !! _). }
    assert (Htim : ∀ k', d_timers s1 !! k' = if decide (k' = k) then None else d_timers s !! k').
    { intros k'. unfold s1, d_cancel. cbn. destruct (d_timers s !! k) as [t|] eqn:E; cbn.
      - destruct (decide (k' = k)) as [->|]; by simplify_map_eq.
      - destruct (decide (k' = k)) as [->|]; by simplify_map_eq. }
    assert (Htask : ∀ tid, d_tasks s1 !! tid = if decide (d_timers s !! k = Some tid) then None else d_tasks s !! tid).
    { intros tid. unfold s1, d_cancel. cbn. destruct (d_timers s !! k) as [t|] eqn:E; cbn.
      - destruct (decide (Some t = Some tid)) as [[= ->]|Hne]; [by simplify_map_eq|].
        rewrite lookup_delete_ne by congruence. done.
      - by rewrite decide_False by done. }
    assert (Hfresh : d_tasks s !! d_next s = None).
    { destruct (d_tasks s !! d_next s) eqn:E; [|done]. assert (d_next s < d_next s)%nat; [|lia]. by apply (inv_next _ _ Hi). }
    clearbody s1.
    assert (Hnot : ∀ k' tid, d_timers s !! k' = Some tid → d_next s ≠ tid).
    { intros k' tid Hk <-. destruct (inv_timers _ _ Hi _ _ Hk) as [[? ?] _]. congruence. }
    unfold d_store, d_spawn. rewrite Hnext. split; cbn.
    - intros k'. rewrite owed_snoc. cbn. rewrite Hpend. destruct (decide (k = k')) as [->|]; simplify_map_eq; [done|].
      apply (inv_pending _ _ Hi).
    - intros k' n' t'. rewrite owed_snoc. cbn. destruct (decide (k = k')) as [->|Hne].
      + intros [= <- <-]. exists (d_next s). split; by simplify_map_eq.
      + intros Ho. destruct (inv_timer _ _ Hi _ _ _ Ho) as (tid & Ht & Hk). exists tid.
        rewrite lookup_insert_ne by done. rewrite Htim, decide_False by congruence. split; [done|].
        rewrite lookup_insert_ne by (by eapply Hnot). rewrite Htask. rewrite decide_False; [done|].
        intros Hk2. apply Hne. by eapply timers_inj.
    - intros tid tk. destruct (decide (tid = d_next s)) as [->|Hne].
      + rewrite lookup_insert. intros [= <-]. exists k, n, now. rewrite owed_snoc. cbn. rewrite decide_True by done.
        rewrite lookup_insert. done.
      + rewrite lookup_insert_ne by done. rewrite Htask. destruct (decide _) as [|Hd]; [done|]. intros Htk.
        destruct (inv_task _ _ Hi _ _ Htk) as (k' & n' & t' & -> & Ho & Ht). exists k', n', t'. split; [done|].
        rewrite owed_snoc. cbn. destruct (decide (k = k')) as [->|Hk]; [congruence|]. split; [done|].
        rewrite lookup_insert_ne by done. by rewrite Htim, decide_False by congruence.
    - intros k' tid. rewrite owed_snoc. cbn. destruct (decide (k = k')) as [->|Hk].
      + rewrite lookup_insert. intros [= <-]. rewrite lookup_insert. eauto.
      + rewrite lookup_insert_ne by done. rewrite Htim, decide_False by congruence. intros Ht.
        destruct (inv_timers _ _ Hi _ _ Ht) as [? ?]. split; [|done]. rewrite lookup_insert_ne by (by eapply Hnot).
        rewrite Htask, decide_False; [done|]. intros Ht2. apply Hk. by eapply timers_inj.
    - intros tid. destruct (decide (tid = d_next s)) as [->|Hne]; [lia|]. rewrite lookup_insert_ne by done.
      rewrite Htask. destruct (decide _); [by intros [??]|]. intros H. apply (inv_next _ _ Hi) in H. lia.
  Qed.
  (** A timer that fires with room in the channel. *)
  Lemma fire_cases s h tid now : inv s h → (length (d_chan s) < capacity)%nat →
    (∃ k n t, d_tasks s !! tid = Some (Sleeping k (t + wait k)) ∧ owed k h = Some (n, t) ∧ d_timers s !! k = Some tid ∧ t + wait k ≤ now ∧
      dcall_step wait s (CFire tid now) =
        (MkDeb (delete k (d_pending s)) (delete k (d_timers s)) (delete tid (d_tasks s)) (d_next s) (d_chan s ++ [n]) (d_recv s), OSent k n)) ∨
    dcall_step wait s (CFire tid now) = (s, ONone) ∧ ∀ k n t, d_tasks s !! tid = Some (Sleeping k (t + wait k)) → owed k h = Some (n, t) → now < t + wait k.
  Proof.
    intros Hi Hroom. cbn [dcall_step]. unfold d_fire. destruct (d_tasks s !! tid) as [tk|] eqn:E.
    - destruct (inv_task _ _ Hi _ _ E) as (k & n & t & -> & Ho & Ht).
      destruct (bool_decide (t + wait k ≤ now)) eqn:Eb.
      + apply bool_decide_eq_true in Eb. left. exists k, n, t. rewrite (inv_pending _ _ Hi k), Ho. cbn [fmap option_fmap option_map fst].
        rewrite bool_decide_eq_true_2 by done. repeat (split; [done|]). unfold d_finish. cbn [d_tasks]. rewrite lookup_insert. cbn.
        by rewrite delete_insert_delete.
      + apply bool_decide_eq_false in Eb. right. unfold d_finish. rewrite E. split; [done|].
        intros k' n' t' [= -> Heq] Ho'. lia.
    - right. unfold d_finish. rewrite E. split; [done|]. intros. congruence.
  Qed.
  Lemma inv_fire s h tid now : inv s h → (length (d_chan s) < capacity)%nat →
    inv (dcall_step wait s (CFire tid now)).1 (h ++ [(CFire tid now, (dcall_step wait s (CFire tid now)).2)]).
  Proof.
    intros Hi Hroom. destruct (fire_cases s h tid now Hi Hroom) as [(k & n & t & Htk & Ho & Ht & Hle & ->)|[-> _]]; cbn [fst snd].
    - split; cbn.
      + intros k'. rewrite owed_snoc. cbn. destruct (decide (k = k')) as [->|]; simplify_map_eq; [done|]. apply (inv_pending _ _ Hi).
      + intros k' n' t'. rewrite owed_snoc. cbn. destruct (decide (k = k')) as [->|Hne]; [done|]. intros Ho'.
        destruct (inv_timer _ _ Hi _ _ _ Ho') as (tid' & Ht' & Hk'). exists tid'. rewrite lookup_delete_ne by done. split; [done|].
        rewrite lookup_delete_ne; [done|]. intros ->. apply Hne. by eapply timers_inj.
      + intros tid' tk'. destruct (decide (tid = tid')) as [->|Hne]; [by rewrite lookup_delete|]. rewrite lookup_delete_ne by done. intros Htk'.
        destruct (inv_task _ _ Hi _ _ Htk') as (k' & n' & t' & -> & Ho' & Ht'). exists k', n', t'. split; [done|].
        rewrite owed_snoc. cbn. destruct (decide (k = k')) as [->|Hk]; [congruence|]. split; [done|]. by rewrite lookup_delete_ne.
      + intros k' tid'. rewrite owed_snoc. cbn. destruct (decide (k = k')) as [->|Hk]; [by rewrite lookup_delete|].
        rewrite lookup_delete_ne by done. intros Ht'. destruct (inv_timers _ _ Hi _ _ Ht') as [? ?]. split; [|done].
        rewrite lookup_delete_ne; [done|]. intros ->. apply Hk. by eapply timers_inj.
      + intros tid' [tk' Htk']. apply (inv_next _ _ Hi). apply lookup_delete_Some in Htk' as [_ ?]. eauto.
    - destruct Hi as [H1 H2 H3 H4 H5]. split; try setoid_rewrite owed_snoc; cbn; done.
  Qed.
  Lemma inv_flush s h : inv s h → dcall_step wait s CFlush =
    (MkDeb ∅ ∅ ∅ (d_next s) (d_chan s) (d_recv s), OFlushed (d_pending s)).
  Proof.
    intros Hi. cbn. f_equal. f_equal. apply map_eq. intros tid. rewrite lookup_empty.
    assert (∀ l m, tid ∈ l → (foldr delete m l : gmap nat task) !! tid = None) as Hdel.
    { clear. induction l as [|x l IH]; intros m; [by inversion 1|]. rewrite elem_of_cons. intros [->|Hin]; cbn; [by rewrite lookup_delete|].
      destruct (decide (x = tid)) as [->|]; [by rewrite lookup_delete|]. rewrite lookup_delete_ne by done. by apply IH. }
    assert (∀ l m, (m : gmap nat task) !! tid = None → foldr delete m l !! tid = None) as Hkeep.
    { clear. induction l as [|x l IH]; intros m Hm; [done|]. cbn. destruct (decide (x = tid)) as [->|]; [by rewrite lookup_delete|].
      rewrite lookup_delete_ne by done. by apply IH. }
    destruct (d_tasks s !! tid) as [tk|] eqn:E; [|by apply Hkeep].
    apply Hdel. destruct (inv_task _ _ Hi _ _ E) as (k & n & t & -> & Ho & Ht).
    apply elem_of_list_fmap. exists (k, tid). split; [done|]. by apply elem_of_map_to_list.
  Qed.
  Lemma keeps_up_snoc cs c : keeps_up wait (cs ++ [c]) → keeps_up wait cs.
  Proof. intros H cs1 cs2 ->. apply (H cs1 (cs2 ++ [c])). by rewrite app_assoc. Qed.
  Lemma drun_snoc s cs c : drun wait s (cs ++ [c]) =
    let '(s1, h) := drun wait s cs in let '(s2, r) := dcall_step wait s1 c in (s2, h ++ [(c, r)]).
  Proof.
    revert s. induction cs as [|c0 cs IH]; intros s; cbn [drun app].
    - destruct (dcall_step wait s c) as [s2 r]. done.
    - destruct (dcall_step wait s c0) as [s0 r0]. rewrite IH. destruct (drun wait s0 cs) as [s1 h]. by destruct (dcall_step wait s1 c).
  Qed.
  Lemma inv_run cs : keeps_up wait cs → ∀ s h, drun wait debouncer_new cs = (s, h) → inv s h.
  Proof.
    induction cs as [|c cs IH] using rev_ind; intros Hk s h Hr.
    - cbn in Hr. simplify_eq. apply inv_new.
    - rewrite drun_snoc in Hr. destruct (drun wait debouncer_new cs) as [s1 h1] eqn:E.
      assert (Hi : inv s1 h1) by (apply IH; [by eapply keeps_up_snoc|done]).
      assert (Hroom : (length (d_chan s1) < capacity)%nat).
      { pose proof (Hk cs [c] eq_refl) as H. rewrite E in H. done. }
      destruct c as [k n now|tid now| |].
      + pose proof (inv_add s1 h1 k n now Hi) as H. cbn [dcall_step fst] in *. by simplify_eq.
      + pose proof (inv_fire s1 h1 tid now Hi Hroom) as H. destruct (dcall_step wait s1 (CFire tid now)) as [s2 r]. by simplify_eq.
      + rewrite (inv_flush s1 h1 Hi) in Hr. simplify_eq. split; cbn; try done.
        * intros k. by rewrite owed_snoc.
        * intros k n t. by rewrite owed_snoc.
        * intros tid [? ?]. done.
      + cbn in Hr. simplify_eq. destruct Hi as [H1 H2 H3 H4 H5]. unfold d_receive. destruct (d_chan s1); split; try setoid_rewrite owed_snoc; cbn; done.
  Qed.
End debouncing.
