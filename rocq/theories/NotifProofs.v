(** Lemmas about notification debouncing and batching. *)
From stdpp Require Import gmap strings list.
From Verif Require Import TextLib SerdeLib NotifModel NotifSpec.
Local Open Scope Z_scope.

Ltac solve_perm := rewrite <- ?app_assoc; repeat (first [reflexivity | apply Permutation_app_head]); try solve_Permutation.
Section notif.
  Context (dbg : token → text) (cf : nconfig).
  Local Notation run := (n_run dbg cf).
  Local Notation step := (n_step dbg cf).
  Local Notation key := (notification_key dbg).
  Local Notation kind := (of_kind dbg).
  Lemma nrun_snoc os o : run (os ++ [o]) = step (run os) o.
  Proof. unfold n_run. by rewrite fold_left_app. Qed.
  Definition keyed (m : gmap text waiting_notice) : Prop := ∀ k w, m !! k = Some w → Forall (λ n, key n = k) (sends (k, w)).
  Lemma kind_app k a b : kind k (a ++ b) = kind k a ++ kind k b.
  Proof. apply filter_app. Qed.
  Lemma kind_all k l : Forall (λ n, key n = k) l → kind k l = l.
  Proof. unfold of_kind. induction 1; [done|]. rewrite filter_cons_True by done. by f_equal. Qed.
  Lemma kind_none k l : Forall (λ n, key n ≠ k) l → kind k l = [].
  Proof. unfold of_kind. induction 1; [done|]. by rewrite filter_cons_False by done. Qed.
  Lemma kind_concat k (L : list (text * waiting_notice)) : NoDup L.*1 → Forall (λ e, Forall (λ n, key n = e.1) (sends e)) L →
    (∀ w, (k, w) ∈ L → kind k (concat (sends <$> L)) = sends (k, w)) ∧ ((∀ w, (k, w) ∉ L) → kind k (concat (sends <$> L)) = []).
  Proof.
    induction L as [|[k' w'] L IH]; intros Hn Hk; [split; [by intros ? ?%elem_of_nil|done]|].
    cbn [fmap list_fmap] in Hn. apply NoDup_cons in Hn as [Hx Hn]. apply Forall_cons in Hk as [Hw Hk]. destruct (IH Hn Hk) as [IH1 IH2]. cbn [fst] in Hw.
    cbn [fmap list_fmap concat]. rewrite kind_app. split.
    - intros w Hin. apply elem_of_cons in Hin as [E|Hin].
      + injection E as -> ->. rewrite IH2, app_nil_r; [by apply kind_all|]. intros w Hw'. apply Hx. apply elem_of_list_fmap. by exists (k', w).
      + rewrite (IH1 w Hin), kind_none; [done|]. eapply Forall_impl; [exact Hw|]. cbn. intros n -> ->. apply Hx. apply elem_of_list_fmap. by exists (k, w).
    - intros Hno. rewrite IH2 by (intros w Hin; apply (Hno w); by right). rewrite app_nil_r. apply kind_none. eapply Forall_impl; [exact Hw|]. cbn. intros n -> ->. apply (Hno w'). by left.
  Qed.
  Lemma filter_fst_nodup (P : text * waiting_notice → Prop) `{∀ x, Decision (P x)} L : NoDup L.*1 → NoDup (filter P L).*1.
  Proof.
    induction L as [|x L IH]; intros Hn; [constructor|]. cbn [fmap list_fmap] in Hn. apply NoDup_cons in Hn as [Hx Hn]. rewrite filter_cons. destruct (decide (P x)); [|by apply IH]. cbn [fmap list_fmap].
    apply NoDup_cons. split; [|by apply IH]. intros (y & Ey & [_ Hy]%elem_of_list_filter)%elem_of_list_fmap. apply Hx, elem_of_list_fmap. by exists y.
  Qed.
  Lemma kind_flush k m (P : text * waiting_notice → Prop) `{∀ x, Decision (P x)} : keyed m →
    kind k (concat (sends <$> filter P (map_to_list m))) = match m !! k with Some w => if decide (P (k, w)) then sends (k, w) else [] | None => [] end.
  Proof.
    intros Hm. destruct (kind_concat k (filter P (map_to_list m))) as [H1 H2].
    - apply filter_fst_nodup, NoDup_fst_map_to_list.
    - apply Forall_forall. intros [k' w'] [_ Hin%elem_of_map_to_list]%elem_of_list_filter. by apply Hm.
    - destruct (m !! k) as [w|] eqn:E; [destruct (decide (P (k, w))) as [Hp|Hp]|].
      + apply H1. apply elem_of_list_filter. split; [done|]. by apply elem_of_map_to_list.
      + apply H2. intros w' [Hp' Hin%elem_of_map_to_list]%elem_of_list_filter. congruence.
      + apply H2. intros w' [Hp' Hin%elem_of_map_to_list]%elem_of_list_filter. congruence.
  Qed.
  Lemma keyed_run os : keyed (nd_pending (run os)).
  Proof.
    induction os as [|o os IH] using rev_ind; [intros k w H; cbn in H; by rewrite lookup_empty in H|]. rewrite nrun_snoc. destruct o as [n t|t|]; cbn [n_step].
    - intros k w. unfold submit. destruct (nd_pending (run os) !! key n) as [v|] eqn:E; cbn [nd_pending]; destruct (decide (key n = k)) as [Hk|Hk].
      + subst k. rewrite lookup_insert. intros [= <-]. specialize (IH _ _ E). unfold sends in *. cbn [snd] in *. apply Forall_cons in IH as [I1 I2].
        destruct (n_merge cf); cbn [wn_main wn_merged]; [|by constructor]. constructor; [done|]. destruct (length (wn_merged v) <? n_max cf)%nat; [|done]. rewrite Forall_app, Forall_singleton. done.
      + rewrite lookup_insert_ne by done. apply IH.
      + subst k. rewrite lookup_insert. intros [= <-]. by repeat constructor.
      + rewrite lookup_insert_ne by done. apply IH.
    - intros k w. cbn [flush_pending nd_pending]. rewrite map_filter_lookup_Some. intros [H _]. by apply IH.
    - apply IH.
  Qed.
  (** What each step does to one kind *)
  Lemma waiting_tick os k now : let s := run os in let s' := step s (NTick now) in
    match nd_pending s !! k with
    | Some w => if should_flush cf now (k, w) then kind k (nd_out s') = kind k (nd_out s) ++ waiting k s ∧ nd_pending s' !! k = None
                else kind k (nd_out s') = kind k (nd_out s) ∧ nd_pending s' !! k = Some w
    | None => kind k (nd_out s') = kind k (nd_out s) ∧ nd_pending s' !! k = None
    end.
  Proof.
    cbn zeta. cbn [n_step]. unfold flush_pending. cbn [nd_out nd_pending]. rewrite kind_app, kind_flush by apply keyed_run. unfold waiting. destruct (nd_pending (run os) !! k) as [w|] eqn:E.
    - destruct (should_flush cf now (k, w)) eqn:Es.
      + destruct (decide _) as [Hd|Hd]; [|by destruct Hd]. split; [done|]. apply map_filter_lookup_None. right. intros w' H. rewrite E in H. injection H as <-. by rewrite Es.
      + destruct (decide _) as [Hd|Hd]; [congruence|]. rewrite app_nil_r. split; [done|]. apply map_filter_lookup_Some. done.
    - rewrite app_nil_r. split; [done|]. apply map_filter_lookup_None. by left.
  Qed.
  Lemma flush_kind os k : kind k (nd_out (run (os ++ [NFlush]))) = kind k (nd_out (run os)) ++ waiting k (run os) ∧ nd_pending (run (os ++ [NFlush])) = nd_pending (run os).
  Proof.
    rewrite nrun_snoc. split; [|done]. cbn [n_step flush_all nd_out]. rewrite kind_app. f_equal. pose proof (kind_flush k (nd_pending (run os)) (λ _, True) (keyed_run os)) as H.
    assert (filter (λ _ : text * waiting_notice, True) (map_to_list (nd_pending (run os))) = map_to_list (nd_pending (run os))) as E.
    { generalize (map_to_list (nd_pending (run os))). intros l. induction l as [|x l IH]; [done|]. rewrite filter_cons_True by done. by f_equal. }
    rewrite E in H. rewrite H. unfold waiting. destruct (nd_pending (run os) !! k); [|done]. by rewrite decide_True.
  Qed.
  Lemma submit_out os n t : nd_out (run (os ++ [NSubmit n t])) = nd_out (run os).
  Proof. rewrite nrun_snoc. cbn [n_step]. unfold submit. by destruct (nd_pending _ !! _). Qed.
  Lemma submit_other os n t k : key n ≠ k → nd_pending (run (os ++ [NSubmit n t])) !! k = nd_pending (run os) !! k.
  Proof. intros H. rewrite nrun_snoc. cbn [n_step]. unfold submit. destruct (nd_pending (run os) !! key n); cbn [nd_pending]; by rewrite lookup_insert_ne. Qed.
  Lemma submit_same os n t : n_merge cf = true → (length (waiting (key n) (run os)) <= n_max cf)%nat →
    waiting (key n) (run (os ++ [NSubmit n t])) = waiting (key n) (run os) ++ [n].
  Proof.
    intros Hm Hl. rewrite nrun_snoc. cbn [n_step]. unfold submit, waiting in *. destruct (nd_pending (run os) !! key n) as [w|]; cbn [nd_pending]; rewrite lookup_insert; [|done].
    rewrite Hm. cbn [wn_main wn_merged]. cbn [length] in Hl. assert ((length (wn_merged w) <? n_max cf)%nat = true) as -> by (apply Nat.ltb_lt; lia). done.
  Qed.
  Lemma submit_full os n t : n_merge cf = true → (length (waiting (key n) (run os)) = S (n_max cf))%nat →
    waiting (key n) (run (os ++ [NSubmit n t])) = waiting (key n) (run os).
  Proof.
    intros Hm Hl. rewrite nrun_snoc. cbn [n_step]. unfold submit, waiting in *. destruct (nd_pending (run os) !! key n) as [w|]; cbn [nd_pending]; [|done]. rewrite lookup_insert.
    rewrite Hm. cbn [wn_main wn_merged]. cbn [length] in Hl. assert ((length (wn_merged w) <? n_max cf)%nat = false) as -> by (apply Nat.ltb_ge; lia). done.
  Qed.
  Lemma submitted_app a b : submitted (a ++ b) = submitted a ++ submitted b.
  Proof. apply omap_app. Qed.
  Lemma room_prefix os o : has_room dbg cf (os ++ o) → has_room dbg cf os.
  Proof. intros H l1 n t l2 ->. apply (H l1 n t (l2 ++ o)). by rewrite <- app_assoc. Qed.
  Lemma conservation os k : n_merge cf = true → no_flush os → has_room dbg cf os → kind k (nd_out (run os)) ++ waiting k (run os) = kind k (submitted os).
  Proof.
    intros Hm. induction os as [|o os IH] using rev_ind; intros Hf Hr; [unfold waiting; cbn; by rewrite lookup_empty|].
    assert (no_flush os) as Hf' by (intros H; apply Hf, elem_of_app; by left). specialize (IH Hf' (room_prefix _ _ Hr)). rewrite submitted_app, kind_app, <- IH. destruct o as [n t|t|].
    - rewrite submit_out. cbn [submitted omap list_omap]. rewrite <- app_assoc. f_equal. destruct (decide (key n = k)) as [<-|Hk].
      + rewrite submit_same; [|done|by apply (Hr os n t [])]. f_equal. by rewrite kind_all by (by repeat constructor).
      + rewrite kind_none by (by repeat constructor). rewrite app_nil_r. unfold waiting. by rewrite submit_other.
    - cbn. rewrite app_nil_r. rewrite nrun_snoc. pose proof (waiting_tick os k t) as H. cbn zeta in H. unfold waiting in *. destruct (nd_pending (run os) !! k) as [w|]; [destruct (should_flush cf t (k, w))|]; destruct H as [H1 H2]; rewrite H1, H2; [by rewrite app_nil_r|done|done].
    - exfalso. apply Hf, elem_of_app. right. by left.
  Qed.
  (** When and by what the waiting entry of a kind was made *)
  Lemma entry_origin os k w : n_merge cf = true → nd_pending (run os) !! k = Some w → ∃ l1 n l2, os = l1 ++ NSubmit n (wn_first w) :: l2 ∧ key n = k ∧ nd_pending (run l1) !! k = None.
  Proof.
    intros Hm. revert w. induction os as [|o os IH] using rev_ind; intros w Hw; [cbn in Hw; by rewrite lookup_empty in Hw|].
    assert (∀ w', nd_pending (run os) !! k = Some w' → wn_first w' = wn_first w → ∃ l1 n l2, os ++ [o] = l1 ++ NSubmit n (wn_first w) :: l2 ∧ key n = k ∧ nd_pending (run l1) !! k = None) as Hold.
    { intros w' H E. destruct (IH w' H) as (l1 & n & l2 & -> & Hk & Hp). exists l1, n, (l2 ++ [o]). rewrite <- E, <- app_assoc. done. }
    destruct o as [n t|t|].
    - destruct (decide (key n = k)) as [Hk|Hk]; [|rewrite submit_other in Hw by done; by apply (Hold w)].
      rewrite nrun_snoc in Hw. cbn [n_step] in Hw. unfold submit in Hw. rewrite Hk in Hw. destruct (nd_pending (run os) !! k) as [v|] eqn:E; cbn [nd_pending] in Hw; rewrite lookup_insert in Hw; injection Hw as <-.
      + apply (Hold v); [done|]. by rewrite Hm.
      + by exists os, n, [].
    - rewrite nrun_snoc in Hw. pose proof (waiting_tick os k t) as H. cbn zeta in H. destruct (nd_pending (run os) !! k) as [v|] eqn:E; [destruct (should_flush cf t (k, v))|]; destruct H as [_ H]; rewrite H in Hw; [done| |done]. injection Hw as <-. by apply (Hold v).
    - rewrite nrun_snoc in Hw. cbn [n_step flush_all nd_pending] in Hw. by apply (Hold w).
  Qed.
  Lemma out_prefix os k l : kind k (nd_out (run os)) `prefix_of` kind k (nd_out (run (os ++ l))).
  Proof.
    induction l as [|o l IH] using rev_ind; [by rewrite app_nil_r|]. rewrite app_assoc. etrans; [exact IH|]. destruct o as [n t|t|].
    - by rewrite submit_out.
    - rewrite nrun_snoc. cbn [n_step flush_pending nd_out]. rewrite kind_app. by apply prefix_app_r.
    - rewrite nrun_snoc. cbn [n_step flush_all nd_out]. rewrite kind_app. by apply prefix_app_r.
  Qed.
  (** What waits began to wait with a submission and has waited ever since *)
  Lemma waits_since os k w : nd_pending (run os) !! k = Some w → ∃ l1 n l2, os = l1 ++ NSubmit n (wn_first w) :: l2 ∧ key n = k ∧ nd_pending (run l1) !! k = None ∧
    ∀ a b, l2 = a ++ b → is_Some (nd_pending (run (l1 ++ NSubmit n (wn_first w) :: a)) !! k).
  Proof.
    revert w. induction os as [|o os IH] using rev_ind; intros w Hw; [cbn in Hw; by rewrite lookup_empty in Hw|]. pose proof Hw as Hw0.
    assert (∀ v, nd_pending (run os) !! k = Some v → wn_first v = wn_first w → ∃ l1 n l2, os ++ [o] = l1 ++ NSubmit n (wn_first w) :: l2 ∧ key n = k ∧ nd_pending (run l1) !! k = None ∧
      ∀ a b, l2 = a ++ b → is_Some (nd_pending (run (l1 ++ NSubmit n (wn_first w) :: a)) !! k)) as old.
    { intros v Hv Ev. destruct (IH v Hv) as (l1 & n & l2 & E & Hk & Hn & Hs). rewrite Ev in E, Hs. exists l1, n, (l2 ++ [o]). split; [by rewrite E, <-app_assoc|]. split; [done|]. split; [done|].
      intros a b E'. destruct b as [|x b _] using rev_ind.
      - rewrite app_nil_r in E'. subst a. eexists. assert (l1 ++ NSubmit n (wn_first w) :: l2 ++ [o] = os ++ [o]) as -> by (by rewrite E, <-app_assoc). exact Hw0.
      - rewrite app_assoc in E'. apply app_inj_tail in E' as [E' _]. by apply Hs with b. }
    rewrite nrun_snoc in Hw. destruct o as [n t|t|].
    - destruct (decide (key n = k)) as [Hk|Hk].
      + cbn [n_step] in Hw. unfold submit in Hw. rewrite Hk in Hw. destruct (nd_pending (run os) !! k) as [v|] eqn:Ev; cbn [nd_pending] in Hw; rewrite lookup_insert in Hw; injection Hw as Hw.
        * apply (old v eq_refl). rewrite <-Hw. by destruct (n_merge cf).
        * exists os, n, []. rewrite <-Hw. cbn [wn_first]. split; [done|]. split; [done|]. split; [done|]. intros a b E. symmetry in E. apply app_nil in E as [-> ->]. rewrite nrun_snoc. cbn [n_step]. unfold submit. rewrite Hk, Ev. cbn [nd_pending]. rewrite lookup_insert. by eexists.
      + apply (old w); [|done]. cbn [n_step] in Hw. unfold submit in Hw. destruct (nd_pending (run os) !! key n); cbn [nd_pending] in Hw; by rewrite lookup_insert_ne in Hw.
    - apply (old w); [|done]. cbn [n_step flush_pending nd_pending] in Hw. by apply map_filter_lookup_Some in Hw as [Hw _].
    - by apply (old w).
  Qed.
  Lemma waits_short os k now : waiting k (run (os ++ [NTick now])) ≠ [] → ∃ l1 n t l2, os = l1 ++ NSubmit n t :: l2 ∧ key n = k ∧ now < t + n_wait cf ∧ waiting k (run l1) = [] ∧
    ∀ a b, l2 = a ++ b → waiting k (run (l1 ++ NSubmit n t :: a)) ≠ [].
  Proof.
    unfold waiting. rewrite nrun_snoc. cbn [n_step flush_pending nd_pending]. destruct (filter _ (nd_pending (run os)) !! k) as [w|] eqn:E; [|done]. intros _. apply map_filter_lookup_Some in E as [Hw Hf].
    destruct (waits_since os k w Hw) as (l1 & n & l2 & E & Hk & Hn & Hs). exists l1, n, (wn_first w), l2. split; [done|]. split; [done|]. split.
    { unfold should_flush in Hf. apply orb_false_iff in Hf as [_ Hf]. cbn [snd] in Hf. apply Z.leb_gt in Hf. lia. }
    split; [by rewrite Hn|]. intros a b Eab. destruct (Hs a b Eab) as [v ->]. done.
  Qed.
  Lemma max_wait h n ts l now : n_merge cf = true → let os := h ++ NSubmit n ts :: l ++ [NTick now] in no_flush os → has_room dbg cf os → in_time os → ts + n_wait cf <= now →
    kind (key n) (submitted h) ++ [n] `prefix_of` kind (key n) (nd_out (run os)).
  Proof.
    intros Hm os Hf Hr Ht Hnow. set (k := key n). assert (kind k (submitted (h ++ [NSubmit n ts])) = kind k (submitted h) ++ [n]) as <-.
    { rewrite submitted_app, kind_app. f_equal. by apply kind_all; repeat constructor. }
    set (os' := h ++ NSubmit n ts :: l). assert (os = os' ++ [NTick now]) as Eos by (unfold os, os'; by rewrite <- app_assoc).
    pose proof (conservation os k Hm Hf Hr) as Hc. unfold waiting in Hc. destruct (nd_pending (run os) !! k) as [w|] eqn:Ew.
    - pose proof (waiting_tick os' k now) as Hw. cbn zeta in Hw. rewrite <- nrun_snoc, <- Eos, Ew in Hw.
      destruct (nd_pending (run os') !! k) as [v|] eqn:Ev; [|by destruct Hw]. destruct (should_flush cf now (k, v)) eqn:Es; [by destruct Hw|]. destruct Hw as [_ Hw]. injection Hw as <-.
      unfold should_flush in Es. apply orb_false_iff in Es as [_ Es]. apply Z.leb_gt in Es. cbn [snd] in Es.
      destruct (entry_origin os' k w Hm Ev) as (l1 & n0 & l2 & E & Hk & Hp).
      assert (length h < length l1)%nat as Hlen.
      { destruct (decide (length h < length l1)%nat) as [|Hge]; [done|]. exfalso. destruct (decide (length h = length l1)) as [El|El].
        - unfold os' in E. apply app_inj_1 in E as [_ E]; [|done]. injection E as _ E _. lia.
        - assert (wn_first w <= ts); [|lia]. apply (Ht (length l1) (length h) (NSubmit n0 (wn_first w)) (NSubmit n ts)); [|unfold os; by apply list_lookup_middle|done|done|lia].
          rewrite Eos, E, <- app_assoc. by apply list_lookup_middle. }
      assert (h ++ [NSubmit n ts] `prefix_of` l1) as [l3 Hpre].
      { unfold os' in E. assert (h ++ NSubmit n ts :: l = (h ++ [NSubmit n ts]) ++ l) as E' by (by rewrite <- app_assoc). rewrite E' in E.
        exists (drop (length (h ++ [NSubmit n ts])) l1). transitivity (take (length (h ++ [NSubmit n ts])) l1 ++ drop (length (h ++ [NSubmit n ts])) l1); [by rewrite take_drop|]. f_equal.
        apply (f_equal (take (length (h ++ [NSubmit n ts])))) in E. rewrite take_app, take_app_le in E; [done|]. rewrite app_length. cbn. lia. }
      assert (os = l1 ++ (NSubmit n0 (wn_first w) :: l2 ++ [NTick now])) as E1 by (rewrite Eos, E; by rewrite <- app_assoc).
      assert (kind k (nd_out (run l1)) = kind k (submitted l1)) as Ec.
      { rewrite <- (conservation l1 k Hm); [unfold waiting; rewrite Hp; by rewrite app_nil_r| |].
        - intros H. apply Hf. rewrite E1. apply elem_of_app. by left.
        - apply (room_prefix l1 (NSubmit n0 (wn_first w) :: l2 ++ [NTick now])). by rewrite <- E1. }
      etrans; [|rewrite E1; apply (out_prefix l1)]. rewrite Ec, Hpre. rewrite (submitted_app (h ++ _)), kind_app. by apply prefix_app_r.
    - rewrite app_nil_r in Hc. rewrite Hc. unfold os. assert (h ++ NSubmit n ts :: l ++ [NTick now] = (h ++ [NSubmit n ts]) ++ (l ++ [NTick now])) as -> by (by rewrite <- app_assoc).
      rewrite (submitted_app (h ++ _)), kind_app. by apply prefix_app_r.
  Qed.
  Lemma quiet h n ts l now : let os := h ++ NSubmit n ts :: l ++ [NTick now] in (∀ n' t, NSubmit n' t ∈ l → key n' ≠ key n) → ts + interval_of cf (key n) <= now → waiting (key n) (run os) = [].
  Proof.
    intros os Hl Ht. assert (∀ w, nd_pending (run (h ++ NSubmit n ts :: l)) !! key n = Some w → wn_last w = ts) as Hlast.
    { induction l as [|o l IH] using rev_ind.
      - rewrite nrun_snoc. cbn [n_step]. unfold submit. intros w. destruct (nd_pending (run h) !! key n); cbn [nd_pending]; rewrite lookup_insert; intros [= <-]; [by destruct (n_merge cf)|done].
      - assert (h ++ NSubmit n ts :: l ++ [o] = (h ++ NSubmit n ts :: l) ++ [o]) as -> by (by rewrite <- app_assoc). intros w. assert (∀ n' t, NSubmit n' t ∈ l → key n' ≠ key n) as Hl' by (intros n' t H; apply (Hl n' t), elem_of_app; by left).
        specialize (IH Hl'). destruct o as [n' t|t|].
        + rewrite submit_other; [apply IH|]. apply (Hl n' t), elem_of_app. right. by left.
        + rewrite nrun_snoc. pose proof (waiting_tick (h ++ NSubmit n ts :: l) (key n) t) as H. cbn zeta in H. destruct (nd_pending (run (h ++ NSubmit n ts :: l)) !! key n) as [v|]; [destruct (should_flush cf t (key n, v))|]; destruct H as [_ H]; rewrite H; [done|apply IH|done].
        + rewrite nrun_snoc. cbn [n_step flush_all nd_pending]. apply IH. }
    unfold os. assert (h ++ NSubmit n ts :: l ++ [NTick now] = (h ++ NSubmit n ts :: l) ++ [NTick now]) as -> by (by rewrite <- app_assoc). rewrite nrun_snoc. unfold waiting.
    pose proof (waiting_tick (h ++ NSubmit n ts :: l) (key n) now) as H. cbn zeta in H. destruct (nd_pending (run (h ++ NSubmit n ts :: l)) !! key n) as [v|] eqn:Ev; [|destruct H as [_ ->]; done].
    assert (should_flush cf now (key n, v) = true) as Es; [|rewrite Es in H; by destruct H as [_ ->]]. unfold should_flush. cbn [fst snd]. rewrite (Hlast v eq_refl). apply orb_true_iff. left. apply Z.leb_le. lia.
  Qed.
  (** Without merging *)
  Lemma latest os k w : n_merge cf = false → nd_pending (run os) !! k = Some w → wn_merged w = [] ∧ last (kind k (submitted os)) = Some (wn_main w).
  Proof.
    intros Hm. revert w. induction os as [|o os IH] using rev_ind; intros w Hw; [cbn in Hw; by rewrite lookup_empty in Hw|]. rewrite submitted_app, kind_app. destruct o as [n t|t|].
    - destruct (decide (key n = k)) as [Hk|Hk].
      + cbn [submitted omap list_omap]. rewrite (kind_all k [n]) by (by repeat constructor). rewrite last_snoc. rewrite nrun_snoc in Hw. cbn [n_step] in Hw. unfold submit in Hw. rewrite Hk in Hw.
        destruct (nd_pending (run os) !! k) as [v|] eqn:E; cbn [nd_pending] in Hw; rewrite lookup_insert in Hw; injection Hw as <-; [|done]. rewrite Hm. cbn [wn_main wn_merged]. split; [|done]. by apply (IH v).
      + cbn [submitted omap list_omap]. rewrite (kind_none k [n]) by (by repeat constructor). rewrite app_nil_r. rewrite submit_other in Hw by done. by apply IH.
    - cbn. rewrite app_nil_r. apply IH. rewrite nrun_snoc in Hw. pose proof (waiting_tick os k t) as H. cbn zeta in H. destruct (nd_pending (run os) !! k) as [v|]; [destruct (should_flush cf t (k, v))|]; destruct H as [_ H]; rewrite H in Hw; done.
    - cbn. rewrite app_nil_r. apply IH. by rewrite nrun_snoc in Hw.
  Qed.

  (** *** The batcher *)
  Context (max : nat).
  Local Notation brun := (b_run dbg max).
  Lemma brun_snoc os o : brun (os ++ [o]) = b_step dbg max (brun os) o.
  Proof. unfold b_run. by rewrite fold_left_app. Qed.
  Definition held (m : gmap text (list notice)) : list notice := concat (map_to_list m).*2.
  Lemma concat_perm {A} (a b : list (list A)) : a ≡ₚ b → concat a ≡ₚ concat b.
  Proof. induction 1; cbn; [done|by f_equiv|rewrite !app_assoc; f_equiv; apply Permutation_app_comm|by etrans]. Qed.
  Lemma held_insert m k b : held (<[k := b]> m) ≡ₚ b ++ held (delete k m).
  Proof.
    unfold held. rewrite <- insert_delete_insert. etrans; [apply concat_perm, fmap_Permutation, map_to_list_insert, lookup_delete|]. done.
  Qed.
  Lemma held_delete m k : held m ≡ₚ default [] (m !! k) ++ held (delete k m).
  Proof. destruct (m !! k) as [b|] eqn:E; [by rewrite <- (held_insert m k b), insert_id|]. by rewrite delete_notin. Qed.
  Lemma concat_nonempty (l : list (list notice)) : concat (filter (λ b, nonempty b = true) l) = concat l.
  Proof. induction l as [|[|x b] l IH]; [done| |]; [by rewrite filter_cons_False|]. rewrite filter_cons_True by done. cbn. by rewrite IH. Qed.
  Lemma delete_perm {A} (l : list A) i x : l !! i = Some x → l ≡ₚ x :: delete i l.
  Proof. apply delete_Permutation. Qed.
  Lemma batch_conservation os : concat (nb_sent (brun os)) ++ concat (nb_flight (brun os)) ++ held (nb_batches (brun os)) ≡ₚ added os.
  Proof.
    induction os as [|o os IH] using rev_ind; [done|]. unfold added. rewrite omap_app. fold (added os). rewrite <- IH. rewrite brun_snoc. set (s := brun os). clearbody s. destruct o as [n|i|i|]; cbn [b_step].
    - set (k := key n). cbn [omap list_omap]. destruct (max <=? _)%nat; cbn [nb_sent nb_flight nb_batches].
      + rewrite concat_app, held_insert, (held_delete (nb_batches s) k). cbn. rewrite app_nil_r. solve_perm.
      + rewrite held_insert, (held_delete (nb_batches s) k). solve_perm.
    - cbn. rewrite app_nil_r. destruct (nb_flight s !! i) as [b|] eqn:E; [|done]. cbn [nb_sent nb_flight nb_batches]. rewrite concat_app. rewrite (concat_perm _ _ (delete_perm _ _ _ E)). cbn. rewrite app_nil_r. solve_perm.
    - cbn. rewrite app_nil_r. destruct (nb_timers s !! i) as [k|] eqn:E; [|done]. cbn [nb_sent nb_flight nb_batches]. rewrite concat_app, concat_nonempty, (held_delete (nb_batches s) k).
      assert (concat (option_list (nb_batches s !! k)) = default [] (nb_batches s !! k)) as -> by (destruct (nb_batches s !! k); cbn; [by rewrite app_nil_r|done]). solve_perm.
    - cbn. rewrite app_nil_r. cbn [nb_sent nb_flight nb_batches]. rewrite concat_app, concat_nonempty. fold (held (nb_batches s)). change (held ∅) with (@nil notice). rewrite app_nil_r. solve_perm.
  Qed.
  Definition batch_ok (b : list notice) : Prop := b ≠ [] ∧ (length b <= Nat.max 1 max)%nat ∧ ∃ k, Forall (λ n, key n = k) b.
  Lemma batch_shape os : Forall batch_ok (nb_sent (brun os)) ∧ Forall batch_ok (nb_flight (brun os)) ∧ ∀ k b, nb_batches (brun os) !! k = Some b → (length b < max ∨ b = [])%nat ∧ Forall (λ n, key n = k) b ∧ (b ≠ [] → k ∈ nb_timers (brun os)).
  Proof.
    induction os as [|o os IH] using rev_ind; [split; [constructor|]; split; [constructor|]; intros k b H; cbn in H; by rewrite lookup_empty in H|]. rewrite brun_snoc. set (s := brun os) in *. clearbody s. destruct IH as (I1 & I2 & I3).
    assert (∀ k b, nb_batches s !! k = Some b → b ≠ [] → batch_ok b) as Hb.
    { intros k b H Hn. destruct (I3 k b H) as ([Hl|Hl] & Hk & _); [|done]. split; [done|]. split; [lia|by exists k]. }
    destruct o as [n|i|i|]; cbn [b_step].
    - set (k := key n). assert (Forall (λ n, key n = k) (default [] (nb_batches s !! k) ++ [n])) as Hk.
      { rewrite Forall_app, Forall_singleton. split; [|done]. destruct (nb_batches s !! k) as [b|] eqn:E; cbn; [by apply (I3 k b)|constructor]. }
      assert (length (default [] (nb_batches s !! k) ++ [n]) <= Nat.max 1 max)%nat as Hl.
      { rewrite app_length. cbn. destruct (nb_batches s !! k) as [b|] eqn:E; cbn; [|lia]. destruct (I3 k b E) as ([?| ->] & _); cbn; lia. }
      destruct (max <=? _)%nat eqn:Em; cbn [nb_sent nb_flight nb_batches nb_timers].
      + split; [done|]. split; [rewrite Forall_app, Forall_singleton; split; [done|]; split; [by destruct (default [] _)|]; split; [done|by exists k]|].
        intros k' b'. destruct (decide (k' = k)) as [->|Hne]; [rewrite lookup_insert; intros [= <-]; split; [by right|]; split; [constructor|done]|]. rewrite lookup_insert_ne by done. apply I3.
      + apply Nat.leb_gt in Em. split; [done|]. split; [done|]. intros k' b'. destruct (decide (k' = k)) as [->|Hne].
        * rewrite lookup_insert. intros [= <-]. split; [by left|]. split; [done|]. intros _. apply elem_of_app. right. by left.
        * rewrite lookup_insert_ne by done. intros H. destruct (I3 k' b' H) as (J1 & J2 & J3). split; [done|]. split; [done|]. intros Hn. apply elem_of_app. left. by apply J3.
    - destruct (nb_flight s !! i) as [b|] eqn:E; [|done]. cbn [nb_sent nb_flight nb_batches nb_timers]. split; [rewrite Forall_app, Forall_singleton; split; [done|]; by eapply Forall_lookup_1|]. split; [by apply Forall_delete|done].
    - destruct (nb_timers s !! i) as [k|] eqn:E; [|done]. cbn [nb_sent nb_flight nb_batches nb_timers]. split; [|split; [done|]].
      + rewrite Forall_app. split; [done|]. apply Forall_forall. intros b [Hn Hin]%elem_of_list_filter. destruct (nb_batches s !! k) as [c|] eqn:Ec; [|by apply elem_of_nil in Hin]. cbn in Hin. apply elem_of_list_singleton in Hin as ->. apply (Hb k); [done|]. by destruct c.
      + intros k' b' [Hne H]%lookup_delete_Some. destruct (I3 k' b' H) as (J1 & J2 & J3). split; [done|]. split; [done|]. intros Hn. specialize (J3 Hn). rewrite (delete_perm _ _ _ E) in J3. apply elem_of_cons in J3 as [?|?]; [congruence|done].
    - cbn [nb_sent nb_flight nb_batches nb_timers]. split; [|split; [done|intros k b H; by rewrite lookup_empty in H]]. rewrite Forall_app. split; [done|]. apply Forall_forall. intros b [Hn ([k c] & -> & Hin%elem_of_map_to_list)%elem_of_list_fmap]%elem_of_list_filter. apply (Hb k); [done|]. cbn in Hn. by destruct c.
  Qed.
  Lemma kind_held_list k (L : list (text * list notice)) : NoDup L.*1 → Forall (λ e, Forall (λ n, key n = e.1) e.2) L → kind k (concat L.*2) = default [] ((list_to_map L : gmap text (list notice)) !! k).
  Proof.
    induction L as [|[k' b] L IH]; intros Hn Hk; [done|]. cbn [fmap list_fmap fst snd] in *. apply NoDup_cons in Hn as [Hx Hn]. apply Forall_cons in Hk as [Hb Hk]. cbn [fst snd] in Hb. cbn [concat list_to_map foldr]. rewrite kind_app, IH by done. cbn [list_to_map foldr].
    destruct (decide (k' = k)) as [->|Hne].
    - change (foldr _ _ _) with (<[k := b]> (list_to_map L : gmap text (list notice))). rewrite lookup_insert. rewrite kind_all by done. rewrite (not_elem_of_list_to_map_1 L k) by done. cbn. by rewrite app_nil_r.
    - change (foldr _ _ _) with (<[k' := b]> (list_to_map L : gmap text (list notice))). rewrite lookup_insert_ne by done. rewrite kind_none; [done|]. eapply Forall_impl; [exact Hb|]. cbn. by intros n ->.
  Qed.
  Lemma kind_held os k : kind k (held (nb_batches (brun os))) = default [] (nb_batches (brun os) !! k).
  Proof.
    unfold held. rewrite kind_held_list; [by rewrite list_to_map_to_list|apply NoDup_fst_map_to_list|]. apply Forall_forall. intros [k' b] Hin%elem_of_map_to_list. by apply (batch_shape os).
  Qed.
  (** One after another: a full batch is sent before anything else happens *)
  Inductive whole := WholeAdd (n : notice) | WholeTimer (i : nat) | WholeFlush.
  Definition whole_ops (w : whole) : list bop := match w with WholeAdd n => [BAdd n; BSend 0] | WholeTimer i => [BTimer i] | WholeFlush => [BFlush] end.
  Lemma batch_order ws k : let os := concat (whole_ops <$> ws) in nb_flight (brun os) = [] ∧ kind k (concat (nb_sent (brun os))) ++ default [] (nb_batches (brun os) !! k) = kind k (added os).
  Proof.
    cbn zeta. induction ws as [|w ws [IH1 IH2]] using rev_ind; [split; [done|]; cbn; by rewrite lookup_empty|]. rewrite fmap_app, concat_app. cbn [fmap list_fmap concat]. rewrite app_nil_r. set (os := concat (whole_ops <$> ws)) in *. pose proof (kind_held os) as Hh. pose proof (batch_shape os) as Hs.
    unfold added. rewrite omap_app. fold (added os). rewrite kind_app, <- IH2. destruct w as [n|i|]; cbn [whole_ops].
    - assert (os ++ [BAdd n; BSend 0] = (os ++ [BAdd n]) ++ [BSend 0]) as -> by (by rewrite <- app_assoc). rewrite !brun_snoc. set (s := brun os) in *. clearbody s. cbn [b_step omap list_omap]. set (k' := key n). destruct (max <=? _)%nat; cbn [nb_flight].
      + rewrite IH1. cbn [app lookup list_lookup]. cbn [nb_flight nb_sent nb_batches]. split; [done|]. rewrite concat_app, kind_app. cbn [concat]. rewrite app_nil_r, kind_app. destruct (decide (k' = k)) as [<-|Hne].
        * rewrite lookup_insert. cbn [default]. rewrite app_nil_r. rewrite <- app_assoc. f_equal. f_equal. destruct (nb_batches s !! k') as [b|] eqn:E; [|done]. cbn. apply kind_all. by apply Hs.
        * rewrite lookup_insert_ne by done. rewrite (kind_none k [n]) by (by repeat constructor). rewrite (kind_none k (default [] (nb_batches s !! k'))); [by rewrite ?app_nil_r|]. destruct (nb_batches s !! k') as [b|] eqn:E; [|constructor]. cbn. eapply Forall_impl; [apply (proj2 (proj2 Hs) k' b E)|]. cbn. congruence.
      + rewrite IH1. cbn [lookup list_lookup]. cbn [nb_flight nb_sent nb_batches]. split; [done|]. destruct (decide (k' = k)) as [<-|Hne].
        * rewrite lookup_insert. cbn [default]. rewrite (kind_all k' [n]) by (by repeat constructor). rewrite <- app_assoc. done.
        * rewrite lookup_insert_ne by done. rewrite (kind_none k [n]) by (by repeat constructor). by rewrite app_nil_r.
    - rewrite !brun_snoc. set (s := brun os) in *. clearbody s. cbn. rewrite app_nil_r. destruct (nb_timers s !! i) as [k'|]; [|done]. cbn [nb_flight nb_sent nb_batches]. split; [done|]. rewrite concat_app, concat_nonempty, kind_app, <- app_assoc. f_equal. destruct (decide (k' = k)) as [<-|Hne].
      + rewrite lookup_delete. cbn [default]. rewrite app_nil_r. destruct (nb_batches s !! k') as [b|] eqn:E; [|done]. cbn. rewrite app_nil_r. apply kind_all. by apply Hs.
      + rewrite lookup_delete_ne by done. rewrite kind_none; [done|]. destruct (nb_batches s !! k') as [b|] eqn:E; [|constructor]. cbn. rewrite app_nil_r. eapply Forall_impl; [apply (proj2 (proj2 Hs) k' b E)|]. cbn. congruence.
    - rewrite !brun_snoc. set (s := brun os) in *. clearbody s. cbn [b_step nb_flight nb_sent nb_batches omap list_omap]. rewrite (app_nil_r (kind k _ ++ _)). split; [done|]. rewrite concat_app, concat_nonempty, kind_app. rewrite lookup_empty. cbn. rewrite app_nil_r. f_equal. fold (held (nb_batches s)). apply Hh.
  Qed.
End notif.
