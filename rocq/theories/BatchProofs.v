From Coq Require Import QArith.
From stdpp Require Import gmap strings list sorting.
From Verif Require Import ListLib ProtocolModel BatchModel.
Local Close Scope Q_scope.
Local Open Scope nat_scope.

(** Number of running futures. *)
Definition running (s : bstate) : nat := length (filter (λ t, is_running t = true) (stats s)).
Definition is_done (t : tstat) : bool := match t with Done _ => true | _ => false end.

(** Number of steps a future still has to make. *)
Definition todo (t : tstat) : nat := match t with Idle => 2 | Running => 1 | Done _ => 0 end.
Definition work (l : list tstat) : nat := foldr (λ t n, todo t + n) 0 l.

Lemma running_insert l i t t' :
  l !! i = Some t →
  length (filter (λ t, is_running t = true) (<[i := t']> l)) + (if is_running t then 1 else 0)
  = length (filter (λ t, is_running t = true) l) + (if is_running t' then 1 else 0).
Proof.
  revert i. induction l as [|x l IH]; intros i Hi; [done|].
  destruct i as [|i]; simpl in *.
  - injection Hi as [= ->]. rewrite !filter_cons.
    destruct t, t'; simpl; try lia.
  - specialize (IH i Hi). rewrite !filter_cons. destruct (decide (is_running x = true)); simpl; lia.
Qed.

Lemma work_insert l i t t' : l !! i = Some t → work (<[i := t']> l) + todo t = work l + todo t'.
Proof.
  revert i. induction l as [|x l IH]; intros i Hi; [done|].
  destruct i as [|i]; simpl in *.
  - injection Hi as [= ->]. lia.
  - specialize (IH i Hi). lia.
Qed.

Lemma running_init cfg reqs : running (binit cfg reqs) = 0.
Proof. unfold running, binit. simpl. induction reqs; simpl; [done|]. rewrite filter_cons. simpl. done. Qed.

Lemma work_init cfg reqs : work (stats (binit cfg reqs)) = 2 * length reqs.
Proof.
  unfold binit. cbn [stats]. induction reqs as [|q reqs IH]; [done|].
  rewrite fmap_cons. cbn [work foldr todo length]. unfold work in IH. lia.
Qed.

(** Permits plus running futures is constant. *)
Lemma bexec_permits cfg s o s' : bexec cfg s o = Some s' →
  permits s' + running s' = permits s + running s ∧ length (stats s') = length (stats s) ∧
  S (work (stats s')) = work (stats s).
Proof.
  unfold running. destruct o as [i|i r|i]; simpl.
  - destruct (stats s !! i) as [[| |]|] eqn:E; try done.
    destruct (permits s) as [|p] eqn:Ep; [done|]. intros [= <-]. simpl.
    pose proof (running_insert _ _ _ Running E) as H. pose proof (work_insert _ _ _ Running E) as H2.
    simpl in *. rewrite insert_length. lia.
  - destruct (stats s !! i) as [[| |]|] eqn:E; try done. intros [= <-]. simpl.
    pose proof (running_insert _ _ _ (Done r) E) as H. pose proof (work_insert _ _ _ (Done r) E) as H2.
    simpl in *. rewrite insert_length. lia.
  - destruct (request_timeout_ms cfg); [|done].
    destruct (stats s !! i) as [[| |]|] eqn:E; try done. intros [= <-]. simpl.
    pose proof (running_insert _ _ _ (Done timeout_response) E) as H.
    pose proof (work_insert _ _ _ (Done timeout_response) E) as H2.
    simpl in *. rewrite insert_length. lia.
Qed.

Lemma bruns_permits cfg s sched s' : bruns cfg s sched = Some s' →
  permits s' + running s' = permits s + running s ∧ length (stats s') = length (stats s) ∧
  work (stats s') + length sched = work (stats s).
Proof.
  revert s. induction sched as [|o sched IH]; simpl; intros s.
  - intros [= <-]. lia.
  - destruct (bexec cfg s o) as [s1|] eqn:E; [|done]. intros H.
    apply bexec_permits in E. apply IH in H. lia.
Qed.

Lemma concurrency_bounded cfg reqs sched s :
  bruns cfg (binit cfg reqs) sched = Some s → running s ≤ max_concurrency cfg.
Proof.
  intros H%bruns_permits. rewrite running_init in H. simpl in H. lia.
Qed.

(** Progress. *)
Lemma work_zero_done l : work l = 0 → ∀ t, t ∈ l → is_done t = true.
Proof.
  induction l as [|x l IH]; simpl; intros H t Ht; [set_solver|].
  apply elem_of_cons in Ht as [->|Ht]; [|apply IH; [lia|done]].
  destruct x; simpl in *; try done; lia.
Qed.

Lemma work_pos_exists l : 0 < work l → ∃ i t, l !! i = Some t ∧ is_done t = false.
Proof.
  induction l as [|x l IH]; simpl; intros H; [lia|].
  destruct x as [| |r].
  - exists 0, Idle. done.
  - exists 0, Running. done.
  - destruct IH as (i & t & ? & ?); [simpl in H; lia|]. exists (S i), t. done.
Qed.

Lemma running_pos_lookup l : 0 < length (filter (λ t, is_running t = true) l) →
  ∃ i, l !! i = Some Running.
Proof.
  intros H. destruct (filter (λ t, is_running t = true) l) as [|t r] eqn:E; [simpl in H; lia|].
  assert (Hin : t ∈ filter (λ t, is_running t = true) l) by (rewrite E; set_solver).
  apply elem_of_list_filter in Hin as [Hr Hin]. apply elem_of_list_lookup in Hin as [i Hi].
  exists i. rewrite Hi. by destruct t.
Qed.

Lemma progress cfg reqs sched s :
  0 < max_concurrency cfg →
  bruns cfg (binit cfg reqs) sched = Some s →
  0 < work (stats s) → ∃ o s', bexec cfg s o = Some s' ∧ (∀ i, o ≠ TimeoutAt i).
Proof.
  intros Hmax H Hw. pose proof (bruns_permits _ _ _ _ H) as (Hp & Hl & _).
  rewrite running_init in Hp. simpl in Hp.
  destruct (decide (0 < running s)) as [Hr|Hr].
  - unfold running in Hr. destruct (running_pos_lookup _ Hr) as [i Hi].
    exists (Finish i timeout_response). eexists. simpl. rewrite Hi. done.
  - destruct (work_pos_exists _ Hw) as (i & t & Hi & Hd).
    destruct t as [| |]; try done.
    + exists (Start i). simpl. rewrite Hi. destruct (permits s) as [|p] eqn:Ep; [lia|]. eauto.
    + exfalso. apply Hr. unfold running.
      destruct (filter (λ t, is_running t = true) (stats s)) as [|] eqn:E; [|simpl; lia].
      assert (Running ∈ filter (λ t, is_running t = true) (stats s)) as Hin
        by (apply elem_of_list_filter; split; [done|by eapply elem_of_list_lookup_2]).
      rewrite E in Hin. set_solver.
Qed.

(** Completed iff [2 * n] steps were made. *)
Lemma joined_Some_iff s :
  (∃ l, joined s = Some l) ↔ ∀ t, t ∈ stats s → is_done t = true.
Proof.
  unfold joined. generalize (stats s) as l. clear s. intros l.
  assert (Hgen : ∀ (f : nat → tstat → nat * tstat), (∀ n t, (f n t).2 = t) →
    (∃ l0, mapM (λ p : nat * tstat, r ← done_response p.2; Some (p.1, r)) (imap f l) = Some l0)
    ↔ ∀ t, t ∈ l → is_done t = true).
  { induction l as [|t l IH]; intros f Hf; simpl.
    - split; [intros _ t Ht; set_solver|eauto].
    - specialize (IH (f ∘ S) (λ n t, Hf (S n) t)).
      rewrite Hf. destruct t as [| |r]; simpl.
      + split; [by intros [? ?]|]. intros H. by specialize (H Idle ltac:(set_solver)).
      + split; [by intros [? ?]|]. intros H. by specialize (H Running ltac:(set_solver)).
      + split.
        * intros [l0 H] t Ht.
          destruct (mapM _ (imap (f ∘ S) l)) as [l1|] eqn:E; [|done].
          apply elem_of_cons in Ht as [->|Ht]; [done|]. apply IH; [eauto|done].
        * intros H. destruct IH as [_ IH]. destruct IH as [l1 Hl1].
          { intros t Ht. apply H. set_solver. }
          rewrite Hl1. simpl. eauto. }
  apply Hgen. done.
Qed.

Lemma joined_spec s l : joined s = Some l →
  length l = length (stats s) ∧
  ∀ i, l !! i = match stats s !! i with Some (Done r) => Some (i, r) | _ => None end.
Proof.
  unfold joined. generalize (stats s) as st. clear s. intros st.
  assert (Hgen : ∀ st l (k : nat) (f : nat → tstat → nat * tstat),
    (∀ n t, f n t = (k + n, t)) →
    mapM (λ p : nat * tstat, r ← done_response p.2; Some (p.1, r)) (imap f st) = Some l →
    length l = length st ∧
    ∀ i, l !! i = match st !! i with Some (Done r) => Some (k + i, r) | _ => None end).
  { clear. induction st as [|t st IH]; intros l k f Hf H; simpl in *.
    - injection H as [= <-]. split; [done|]. intros [|i]; done.
    - rewrite Hf in H. simpl in H. destruct t as [| |r]; simpl in H; try done.
      destruct (mapM _ (imap (f ∘ S) st)) as [l1|] eqn:E; [|done].
      simpl in H. injection H as [= <-].
      destruct (IH l1 (S k) (f ∘ S)) as [Hl Hi]; [intros n t; simpl; rewrite Hf; f_equal; lia|done|].
      split; [simpl; lia|]. intros [|i]; simpl; [by rewrite Nat.add_0_r|].
      rewrite Hi. destruct (st !! i) as [[| |]|]; try done. f_equal. f_equal. lia. }
  intros H. destruct (Hgen st l 0 pair (λ n t, eq_refl) H) as [? Hi]. split; [done|].
  intros i. rewrite Hi. done.
Qed.

(** Sorting by index restores the original order, whatever permutation it starts from. *)
Global Instance index_le_trans : Transitive index_le.
Proof. intros a b c. unfold index_le. lia. Qed.
Global Instance index_le_total : Total index_le.
Proof. intros a b. unfold index_le. lia. Qed.

Lemma sorted_perm_unique (l1 l2 : list (nat * bresponse)) :
  StronglySorted index_le l1 → StronglySorted index_le l2 → NoDup l1.*1 → l1 ≡ₚ l2 → l1 = l2.
Proof.
  revert l2. induction l1 as [|[i x] l1 IH]; intros l2 Hs1 Hs2 Hnd Hp.
  - apply Permutation_nil in Hp. done.
  - destruct l2 as [|[j y] l2]; [by symmetry in Hp; apply Permutation_nil_cons in Hp|].
    assert (Heq : (i, x) = (j, y)).
    { assert (Hin1 : (j, y) ∈ (i, x) :: l1) by (rewrite Hp; set_solver).
      assert (Hin2 : (i, x) ∈ (j, y) :: l2) by (rewrite <- Hp; set_solver).
      apply elem_of_cons in Hin1 as [?|Hin1]; [congruence|].
      apply elem_of_cons in Hin2 as [?|Hin2]; [congruence|].
      inversion Hs1 as [|? ? ? Hf1]; subst. inversion Hs2 as [|? ? ? Hf2]; subst.
      rewrite Forall_forall in Hf1, Hf2. specialize (Hf1 _ Hin1). specialize (Hf2 _ Hin2).
      unfold index_le in *. simpl in *. assert (i = j) as -> by lia.
      apply NoDup_cons in Hnd as [Hn _]. exfalso. apply Hn. simpl.
      apply elem_of_list_fmap. exists (j, y). done. }
    injection Heq as [= <- <-]. f_equal. apply IH.
    + by inversion Hs1.
    + by inversion Hs2.
    + by apply NoDup_cons in Hnd as [_ ?].
    + by apply Permutation_cons_inv in Hp.
Qed.

Lemma index_sorted (l : list (nat * bresponse)) :
  (∀ i p, l !! i = Some p → p.1 = i) → StronglySorted index_le l ∧ NoDup l.*1.
Proof.
  assert (Hgen : ∀ k (l : list (nat * bresponse)), (∀ i p, l !! i = Some p → p.1 = k + i) →
    StronglySorted index_le l ∧ NoDup l.*1).
  { clear. intros k l. revert k. induction l as [|a l IH]; intros k H; simpl.
    - split; constructor.
    - assert (Hl : ∀ i p, l !! i = Some p → p.1 = S k + i)
        by (intros i p Hi; rewrite (H (S i) p Hi); lia).
      destruct (IH (S k) Hl) as [Hs Hnd].
      assert (Ha : a.1 = k) by (rewrite (H 0 a eq_refl); lia).
      split; constructor; try done.
      + apply Forall_forall. intros x Hx. apply elem_of_list_lookup in Hx as [i Hi].
        apply Hl in Hi. unfold index_le. lia.
      + intros Hin. apply elem_of_list_fmap in Hin as (x & Hx1 & Hx).
        apply elem_of_list_lookup in Hx as [i Hi]. apply Hl in Hi. lia. }
  apply (Hgen 0).
Qed.

Lemma responses_of_perm s l l' : joined s = Some l → l' ≡ₚ l →
  responses_of l' = l.*2 .
Proof.
  intros Hj Hp. destruct (joined_spec _ _ Hj) as [Hl Hi].
  unfold responses_of. f_equal.
  assert (Hidx : ∀ i p, l !! i = Some p → p.1 = i).
  { intros i p Hip. rewrite Hi in Hip. destruct (stats s !! i) as [[| |]|]; try done.
    injection Hip as [= <-]. done. }
  destruct (index_sorted l Hidx) as [Hs Hnd].
  symmetry. apply sorted_perm_unique; try done.
  - apply (StronglySorted_merge_sort index_le).
  - unfold sort_by_index. rewrite merge_sort_Permutation. done.
Qed.

Lemma responses_lookup s l l' i : joined s = Some l → l' ≡ₚ l →
  responses_of l' !! i = match stats s !! i with Some (Done r) => Some r | _ => None end.
Proof.
  intros Hj Hp. rewrite (responses_of_perm s l l' Hj Hp).
  destruct (joined_spec _ _ Hj) as [Hl Hi]. rewrite list_lookup_fmap, Hi.
  by destruct (stats s !! i) as [[| |]|].
Qed.

(** What task [i] ended with is what the schedule said. *)
Definition produced (sched : list bstep) (i : nat) (r : bresponse) : Prop :=
  Finish i r ∈ sched ∨ (TimeoutAt i ∈ sched ∧ r = timeout_response).

Lemma bexec_done cfg s o s' i r : bexec cfg s o = Some s' →
  (stats s' !! i = Some (Done r) → stats s !! i = Some (Done r) ∨ produced [o] i r) ∧
  (stats s !! i = Some (Done r) → stats s' !! i = Some (Done r)).
Proof.
  intros H. unfold produced. destruct o as [j|j rj|j]; simpl in H.
  - destruct (stats s !! j) as [[| |]|] eqn:E; try done.
    destruct (permits s); [done|]. injection H as [= <-]. simpl. split.
    + intros Hi. destruct (decide (i = j)) as [->|Hne].
      * apply lookup_lt_Some in E. rewrite list_lookup_insert in Hi by done. done.
      * rewrite list_lookup_insert_ne in Hi by done. by left.
    + intros Hi. rewrite list_lookup_insert_ne; [done|]. intros ->. congruence.
  - destruct (stats s !! j) as [[| |]|] eqn:E; try done. injection H as [= <-]. simpl. split.
    + intros Hi. destruct (decide (i = j)) as [->|Hne].
      * apply lookup_lt_Some in E. rewrite list_lookup_insert in Hi by done.
        injection Hi as [= ->]. right. left. set_solver.
      * rewrite list_lookup_insert_ne in Hi by done. by left.
    + intros Hi. rewrite list_lookup_insert_ne; [done|]. intros ->. congruence.
  - destruct (request_timeout_ms cfg); [|done].
    destruct (stats s !! j) as [[| |]|] eqn:E; try done. injection H as [= <-]. simpl. split.
    + intros Hi. destruct (decide (i = j)) as [->|Hne].
      * apply lookup_lt_Some in E. rewrite list_lookup_insert in Hi by done.
        injection Hi as [= <-]. right. right. set_solver.
      * rewrite list_lookup_insert_ne in Hi by done. by left.
    + intros Hi. rewrite list_lookup_insert_ne; [done|]. intros ->. congruence.
Qed.

Lemma bruns_done cfg s sched s' i r : bruns cfg s sched = Some s' →
  stats s' !! i = Some (Done r) → stats s !! i = Some (Done r) ∨ produced sched i r.
Proof.
  revert s. induction sched as [|o sched IH]; simpl; intros s.
  - intros [= <-] H. by left.
  - destruct (bexec cfg s o) as [s1|] eqn:E; [|done]. intros H Hd.
    destruct (IH s1 H Hd) as [Hs1|Hp].
    + destruct (bexec_done _ _ _ _ i r E) as [Hb _]. destruct (Hb Hs1) as [?|Hp]; [by left|].
      right. destruct Hp as [Hp|[Hp ->]]; [left|right]; set_solver.
    + right. destruct Hp as [Hp|[Hp ->]]; [left|right]; set_solver.
Qed.

Lemma bruns_done_mono cfg s sched s' i r : bruns cfg s sched = Some s' →
  stats s !! i = Some (Done r) → stats s' !! i = Some (Done r).
Proof.
  revert s. induction sched as [|o sched IH]; simpl; intros s.
  - intros [= <-] H. done.
  - destruct (bexec cfg s o) as [s1|] eqn:E; [|done]. intros H Hd.
    apply (IH s1 H). destruct (bexec_done _ _ _ _ i r E) as [_ Hb]. by apply Hb.
Qed.

(** Conversely an output in the schedule is what the task ended with. *)
Lemma bruns_produced cfg s sched s' i r : bruns cfg s sched = Some s' →
  produced sched i r → stats s' !! i = Some (Done r).
Proof.
  revert s. induction sched as [|o sched IH]; simpl; intros s.
  - intros _ [H|[H _]]; set_solver.
  - destruct (bexec cfg s o) as [s1|] eqn:E; [|done]. intros H Hp.
    assert (produced [o] i r ∨ produced sched i r) as [Ho|Hs].
    { unfold produced in *. destruct Hp as [Hp|[Hp ->]]; apply elem_of_cons in Hp as [Hp|Hp];
        subst; set_solver. }
    + apply (bruns_done_mono _ _ _ _ i r H). clear -E Ho.
      destruct Ho as [Ho|[Ho ->]]; apply elem_of_list_singleton in Ho as <-; simpl in E.
      * destruct (stats s !! i) as [[| |]|] eqn:Ei; try done. injection E as [= <-]. simpl.
        apply list_lookup_insert. by eapply lookup_lt_Some.
      * destruct (request_timeout_ms cfg); [|done].
        destruct (stats s !! i) as [[| |]|] eqn:Ei; try done. injection E as [= <-]. simpl.
        apply list_lookup_insert. by eapply lookup_lt_Some.
    + by apply (IH s1).
Qed.

Lemma parallel_result cfg reqs sched s l l' :
  bruns cfg (binit cfg reqs) sched = Some s → joined s = Some l → l' ≡ₚ l →
  length (responses_of l') = length reqs ∧
  ∀ i r, responses_of l' !! i = Some r ↔ produced sched i r.
Proof.
  intros Hr Hj Hp. split.
  - rewrite (responses_of_perm s l l' Hj Hp), fmap_length.
    destruct (joined_spec _ _ Hj) as [-> _].
    apply bruns_permits in Hr as (_ & -> & _). unfold binit. simpl. by rewrite fmap_length.
  - intros i r. rewrite (responses_lookup s l l' i Hj Hp). split.
    + intros H. destruct (stats s !! i) as [[| |r0]|] eqn:E; try done. injection H as [= ->].
      destruct (bruns_done _ _ _ _ _ _ Hr E) as [Hi|?]; [|done].
      unfold binit in Hi. simpl in Hi. rewrite list_lookup_fmap in Hi.
      by destruct (reqs !! i).
    + intros H. by rewrite (bruns_produced _ _ _ _ _ _ Hr H).
Qed.

(** Every run of the default-limited scheduler stops after exactly [2 n] steps, all done. *)
Lemma completes cfg reqs sched s :
  bruns cfg (binit cfg reqs) sched = Some s →
  length sched ≤ 2 * length reqs ∧
  (length sched = 2 * length reqs ↔ ∃ l, joined s = Some l).
Proof.
  intros H. pose proof (bruns_permits _ _ _ _ H) as (_ & _ & Hw). rewrite work_init in Hw.
  split; [lia|]. rewrite joined_Some_iff. split.
  - intros Hl. apply work_zero_done. lia.
  - intros Hd. assert (work (stats s) = 0); [|lia].
    revert Hd. generalize (stats s) as st. induction st as [|t st IH]; simpl; intros Hd; [done|].
    rewrite IH by set_solver. specialize (Hd t ltac:(set_solver)). by destruct t.
Qed.

Lemma progress_all cfg reqs sched s :
  0 < max_concurrency cfg →
  bruns cfg (binit cfg reqs) sched = Some s →
  (∃ l, joined s = Some l) ∨
  ∃ o s', bexec cfg s o = Some s' ∧ (∀ i, o ≠ TimeoutAt i).
Proof.
  intros Hmax H. destruct (decide (0 < work (stats s))) as [Hw|Hw].
  - right. by eapply progress.
  - left. apply joined_Some_iff. apply work_zero_done. lia.
Qed.

Lemma zero_concurrency_stuck cfg reqs sched s :
  max_concurrency cfg = 0 → bruns cfg (binit cfg reqs) sched = Some s → sched = [].
Proof.
  intros Hm H. destruct sched as [|o sched]; [done|]. simpl in H.
  destruct (bexec cfg (binit cfg reqs) o) as [s1|] eqn:E; [|done]. exfalso. clear H.
  assert (Hidle : ∀ i t, stats (binit cfg reqs) !! i = Some t → t = Idle).
  { intros i t Hi. unfold binit in Hi. simpl in Hi. rewrite list_lookup_fmap in Hi.
    destruct (reqs !! i); [|done]. simpl in Hi. congruence. }
  destruct o as [i|i r|i]; simpl in E.
  - rewrite Hm in E. by destruct (((λ _, Idle) <$> reqs) !! i) as [[]|].
  - destruct (stats (binit cfg reqs) !! i) as [t|] eqn:Ei.
    + pose proof (Hidle _ _ Ei) as ->. unfold binit in Ei. simpl in Ei, E. rewrite Ei in E. done.
    + unfold binit in Ei. simpl in Ei, E. rewrite Ei in E. done.
  - destruct (request_timeout_ms cfg); [|done].
    destruct (stats (binit cfg reqs) !! i) as [t|] eqn:Ei.
    + pose proof (Hidle _ _ Ei) as ->. unfold binit in Ei. simpl in Ei, E. rewrite Ei in E. done.
    + unfold binit in Ei. simpl in Ei, E. rewrite Ei in E. done.
Qed.

(** Ids: with no timeout in the schedule and handlers that answer with the id they were given. *)
Lemma bruns_fail_fast cfg ff s sched :
  bruns (MkBConfig (max_concurrency cfg) ff (request_timeout_ms cfg)) s sched = bruns cfg s sched.
Proof.
  revert s. induction sched as [|o sched IH]; intros s; [done|]. cbn [bruns].
  change (bexec (MkBConfig (max_concurrency cfg) ff (request_timeout_ms cfg)) s o) with (bexec cfg s o).
  by destruct (bexec cfg s o).
Qed.
Lemma started_before cfg s sched s' i : bruns cfg s sched = Some s' →
  stats s !! i = Some Idle → stats s' !! i ≠ Some Idle → Start i ∈ sched.
Proof.
  revert s. induction sched as [|o sched IH]; intros s Hr Hi Hn; cbn [bruns] in Hr; [congruence|].
  destruct (bexec cfg s o) as [s1|] eqn:E; [|done]. assert (o = Start i ∨ o ≠ Start i) as [->|Ho]; [|by left|].
  { destruct o as [j|j r|j]; [destruct (decide (j = i)) as [->|Hj]; [by left|right; congruence]|by right|by right]. }
  right. apply (IH s1); [done| |done].
  destruct o as [j|j r|j]; cbn [bexec] in E; repeat case_match; simplify_eq; cbn [stats];
    (destruct (decide (j = i)) as [->|Hj]; [congruence|by rewrite list_lookup_insert_ne]).
Qed.
Lemma all_started cfg reqs sched s l i : bruns cfg (binit cfg reqs) sched = Some s → joined s = Some l →
  i < length reqs → Start i ∈ sched.
Proof.
  intros Hr Hj Hi. destruct (lookup_lt_is_Some_2 _ _ Hi) as [q Hq].
  apply (started_before _ _ _ _ i Hr); [cbn; by rewrite list_lookup_fmap, Hq|].
  intros Hs. assert (is_done Idle = true) as H; [|done].
  apply (proj1 (joined_Some_iff s)); [by eexists|by eapply elem_of_list_lookup_2].
Qed.
Lemma bruns_after_finish cfg s sched j r s' : bruns cfg s (sched ++ [Finish j r]) = Some s' → ∃ p, permits s' = S p.
Proof.
  revert s. induction sched as [|o sched IH]; intros s Hr; cbn [bruns app] in Hr.
  - destruct (bexec cfg s (Finish j r)) as [s1|] eqn:E; [|done]. injection Hr as <-. cbn [bexec] in E. repeat case_match; simplify_eq. by eexists.
  - destruct (bexec cfg s o); [by eapply IH|done].
Qed.
Lemma ids_match cfg reqs sched s l l' :
  bruns cfg (binit cfg reqs) sched = Some s → joined s = Some l → l' ≡ₚ l →
  (∀ i r q, Finish i r ∈ sched → reqs !! i = Some q → br_id r = bq_id q) →
  (∀ i, TimeoutAt i ∉ sched) →
  br_id <$> responses_of l' = bq_id <$> reqs.
Proof.
  intros Hr Hj Hp Hh Hto. destruct (parallel_result _ _ _ _ _ _ Hr Hj Hp) as [Hlen Hres].
  apply list_eq_same_length with (length reqs); [by rewrite fmap_length|by rewrite fmap_length|].
  intros i x y Hi Hx Hy. rewrite list_lookup_fmap in Hx. rewrite list_lookup_fmap in Hy.
  destruct (responses_of l' !! i) as [r|] eqn:Er; [|done].
  destruct (reqs !! i) as [q|] eqn:Eq; [|done]. simpl in *. injection Hx as [= <-].
  injection Hy as [= <-]. apply Hres in Er as [Hf|[Ht _]]; [by eapply Hh|by apply Hto in Ht].
Qed.

(** Shape of the answer. *)
Lemma from_responses_list rs :
  match from_responses rs with SingleResp r => [r] | BatchResp l => l end = rs.
Proof. destruct rs as [|? [|]]; done. Qed.

Lemma process_batch_count handled b out : process_batch handled b out →
  length (match out with SingleResp r => [r] | BatchResp l => l end) = length (into_requests b).
Proof.
  intros H. destruct H as [|b q r Hb Hh|b sched s l l' Hlt Hr Hh Hj Hp].
  - done.
  - rewrite from_responses_list, Hb. done.
  - rewrite from_responses_list. by eapply parallel_result.
Qed.

Lemma process_batch_shape_long handled rs out : length rs ≠ 1 →
  process_batch handled (BatchReq rs) out → ∃ l, out = BatchResp l ∧ length l = length rs.
Proof.
  intros Hne H. pose proof (process_batch_count _ _ _ H) as Hc. simpl in Hc.
  destruct H as [|b q r Hb Hh|b sched s l l' Hlt Hr Hh Hj Hp].
  - eauto.
  - destruct b; simpl in *; subst; done.
  - destruct (responses_of l') as [|x [|y z]]; simpl in *; eauto; lia.
Qed.

Lemma process_batch_shape_single handled q out :
  process_batch handled (SingleReq q) out → ∃ r, out = SingleResp r ∧ handled q r.
Proof.
  intros H. inversion H as [|b q' r Hb Hh|b sched s l l' Hlt Hr Hh Hj Hp]; subst; simpl in *.
  - injection Hb as [= <-]. eauto.
  - lia.
Qed.

(** Metrics. *)
Lemma count_fold rs m :
  let m' := fold_left count_response rs m in
  m_total m' = m_total m ∧ m_avg m' = m_avg m ∧ m_max m' = m_max m ∧
  (m_ok m' + m_err m' + m_timeout m' = m_ok m + m_err m + m_timeout m + N.of_nat (length rs))%N.
Proof.
  revert m. induction rs as [|r rs IH]; intros m; simpl; [repeat split; lia|].
  destruct (IH (count_response m r)) as (H1 & H2 & H3 & H4). rewrite H1, H2, H3, H4.
  unfold count_response. destruct (br_payload r); [|destruct (mentions_timeout message)]; simpl; repeat split; lia.
Qed.


Lemma record_batch_counts m t rs :
  let m' := record_batch m (N.of_nat (length rs)) t rs in
  (m_ok m + m_err m + m_timeout m = m_total m)%N →
  (m_ok m' + m_err m' + m_timeout m' = m_total m')%N ∧
  m_total m' = (m_total m + N.of_nat (length rs))%N ∧ m_max m' = N.max (m_max m) t.
Proof.
  intros m' H. unfold m', record_batch.
  match goal with |- context [fold_left count_response rs ?m1] =>
    destruct (count_fold rs m1) as (H1 & H2 & H3 & H4) end.
  simpl in *. rewrite H1, H3. lia.
Qed.

Lemma metrics_counts bs :
  let m := record_all bs in
  (m_ok m + m_err m + m_timeout m = m_total m)%N ∧
  m_total m = foldr (λ b n, (N.of_nat (length (snd b)) + n)%N) 0%N bs ∧
  m_max m = foldr (λ b n, N.max (fst b) n) 0%N bs.
Proof.
  assert (Hgen : ∀ bs m, (m_ok m + m_err m + m_timeout m = m_total m)%N →
    let m' := fold_left (λ m b, record_batch m (N.of_nat (length b.2)) b.1 b.2) bs m in
    (m_ok m' + m_err m' + m_timeout m' = m_total m')%N ∧
    m_total m' = (m_total m + foldr (λ b n, (N.of_nat (length (snd b)) + n)) 0 bs)%N ∧
    m_max m' = N.max (m_max m) (foldr (λ b n, N.max (fst b) n) 0%N bs)).
  { clear. induction bs as [|[t rs] bs IH]; intros m Hm; cbn [fold_left foldr fst snd].
    - split; [done|]. split; lia.
    - destruct (record_batch_counts m t rs Hm) as (H1 & H2 & H3).
      destruct (IH _ H1) as (H4 & H5 & H6). split; [done|]. rewrite H5, H6, H2, H3. split; lia. }
  destruct (Hgen bs metrics0 eq_refl) as (H1 & H2 & H3). simpl in H2, H3.
  split_and!; [done|exact H2|]. unfold record_all. rewrite H3. lia.
Qed.

(** The average, multiplied by the number of requests, is the total of the batch times, provided
    the first batch is not empty. *)
Lemma inject_Z_of_N_ne n : (n ≠ 0)%N → Qeq_bool (inject_Z (Z.of_N n)) 0 = false.
Proof.
  intros H. destruct (Qeq_bool (inject_Z (Z.of_N n)) 0) eqn:E; [|done].
  apply Qeq_bool_eq in E. unfold inject_Z, Qeq in E. simpl in E. lia.
Qed.

Lemma avg_step m t rs a :
  m_avg m = Some a → (m_total m + N.of_nat (length rs) ≠ 0)%N →
  ∃ a', m_avg (record_batch m (N.of_nat (length rs)) t rs) = Some a' ∧
    (a' * inject_Z (Z.of_N (m_total m + N.of_nat (length rs)))
     == a * inject_Z (Z.of_N (m_total m)) + inject_Z (Z.of_N t))%Q.
Proof.
  intros Ha Hne. unfold record_batch.
  match goal with |- context [fold_left count_response rs ?m1] =>
    destruct (count_fold rs m1) as (H1 & H2 & H3 & H4) end.
  simpl in *. rewrite H1, H2, Ha. unfold fdiv.
  rewrite inject_Z_of_N_ne by done. eexists. split; [done|].
  replace (m_total m + N.of_nat (length rs) - N.of_nat (length rs))%N with (m_total m) by lia.
  apply Qmult_div_r || idtac.
  rewrite Qmult_comm, Qmult_div_r; [reflexivity|].
  intros E. pose proof (inject_Z_of_N_ne _ Hne) as Hb. apply Qeq_eq_bool in E. congruence.
Qed.

Lemma avg_correct t rs bs : rs ≠ [] →
  ∃ a, m_avg (record_all ((t, rs) :: bs)) = Some a ∧
   (a * inject_Z (Z.of_N (m_total (record_all ((t, rs) :: bs))))
     == inject_Z (Z.of_N (foldr (λ b n, (fst b + n)%N) 0%N ((t, rs) :: bs))))%Q.
Proof.
  intros Hrs.
  assert (Hgen : ∀ bs m a T, m_avg m = Some a → (m_total m ≠ 0)%N →
    (a * inject_Z (Z.of_N (m_total m)) == inject_Z (Z.of_N T))%Q →
    let m' := fold_left (λ m b, record_batch m (N.of_nat (length b.2)) b.1 b.2) bs m in
    ∃ a', m_avg m' = Some a' ∧
    (a' * inject_Z (Z.of_N (m_total m'))
      == inject_Z (Z.of_N (T + foldr (λ b n, (fst b + n)%N) 0%N bs)%N))%Q).
  { clear. induction bs as [|[t rs] bs IH]; intros m a T Ha Hne HT; cbn [fold_left foldr fst snd].
    - exists a. split; [done|]. rewrite N.add_0_r. done.
    - destruct (avg_step m t rs a Ha ltac:(lia)) as (a1 & Ha1 & He1).
      assert (Htot : m_total (record_batch m (N.of_nat (length rs)) t rs)
                     = (m_total m + N.of_nat (length rs))%N).
      { unfold record_batch. match goal with |- context [fold_left count_response rs ?m1] =>
          destruct (count_fold rs m1) as (H1 & _) end. simpl in *. done. }
      destruct (IH _ a1 (T + t)%N Ha1) as (a' & Ha' & He').
      + rewrite Htot. lia.
      + rewrite Htot, He1, HT. rewrite <- inject_Z_plus. replace (Z.of_N (T + t)) with (Z.of_N T + Z.of_N t)%Z by lia. reflexivity.
      + exists a'. split; [done|]. rewrite He'. replace (T + t + foldr (λ b n, fst b + n) 0 bs)%N with (T + (t + foldr (λ b n, fst b + n) 0 bs))%N by lia. reflexivity. }
  unfold record_all. cbn [fold_left fst snd].
  destruct (avg_step metrics0 t rs 0%Q eq_refl) as (a1 & Ha1 & He1).
  { simpl. destruct rs; [done|]. simpl. lia. }
  assert (Htot : m_total (record_batch metrics0 (N.of_nat (length rs)) t rs)
                 = (0 + N.of_nat (length rs))%N).
  { unfold record_batch. match goal with |- context [fold_left count_response rs ?m1] =>
      destruct (count_fold rs m1) as (H1 & _) end. simpl in *. done. }
  destruct (Hgen bs _ a1 t Ha1) as (a' & Ha' & He').
  - rewrite Htot. destruct rs; [done|]. simpl. lia.
  - rewrite Htot, He1. simpl. ring.
  - exists a'. split; [done|]. exact He'.
Qed.

Lemma avg_nan t bs : m_avg (record_all ((t, []) :: bs)) = None.
Proof.
  unfold record_all. cbn [fold_left fst snd].
  assert (H : m_avg (record_batch metrics0 (N.of_nat (length (A:=bresponse) [])) t []) = None) by done.
  revert H. generalize (record_batch metrics0 (N.of_nat (length (A:=bresponse) [])) t []).
  induction bs as [|[t' rs] bs IH]; intros m Hm; [done|]. cbn [fold_left fst snd]. apply IH.
  unfold record_batch. match goal with |- context [fold_left count_response rs ?m1] =>
    destruct (count_fold rs m1) as (H1 & H2 & _) end. simpl in *. rewrite H2, Hm. done.
Qed.

(** Each response is counted once, in the class its payload says. *)
Definition is_success (r : bresponse) : bool := match br_payload r with PResult _ => true | _ => false end.
Definition is_timeout (r : bresponse) : bool :=
  match br_payload r with PError _ msg => contains (chars "timeout") (chars msg) | _ => false end.
Definition is_other_error (r : bresponse) : bool := negb (is_success r) && negb (is_timeout r).
Definition count (f : bresponse → bool) (rs : list bresponse) : N := N.of_nat (length (filter (λ r, f r = true) rs)).

Lemma count_app f a b : count f (a ++ b) = (count f a + count f b)%N.
Proof. unfold count. rewrite filter_app, app_length. lia. Qed.
Lemma count_cons f r rs : count f (r :: rs) = ((if f r then 1 else 0) + count f rs)%N.
Proof. unfold count. rewrite filter_cons. destruct (f r); simpl; lia. Qed.

Lemma count_fold_classes rs m :
  let m' := fold_left count_response rs m in
  m_ok m' = (m_ok m + count is_success rs)%N ∧ m_timeout m' = (m_timeout m + count is_timeout rs)%N ∧
  m_err m' = (m_err m + count is_other_error rs)%N.
Proof.
  revert m. induction rs as [|r rs IH]; intros m; simpl; [unfold count; simpl; lia|].
  destruct (IH (count_response m r)) as (H1 & H2 & H3). rewrite H1, H2, H3, !count_cons.
  unfold count_response, is_other_error, is_success, is_timeout, mentions_timeout.
  destruct (br_payload r); [|destruct (contains _ _)]; simpl; lia.
Qed.

Lemma metrics_classes bs :
  let m := record_all bs in let rs := concat (snd <$> bs) in
  m_ok m = count is_success rs ∧ m_timeout m = count is_timeout rs ∧ m_err m = count is_other_error rs.
Proof.
  assert (Hgen : ∀ bs m,
    let m' := fold_left (λ m b, record_batch m (N.of_nat (length b.2)) b.1 b.2) bs m in
    let rs := concat (snd <$> bs) in
    m_ok m' = (m_ok m + count is_success rs)%N ∧ m_timeout m' = (m_timeout m + count is_timeout rs)%N ∧
    m_err m' = (m_err m + count is_other_error rs)%N).
  { clear. induction bs as [|[t rs] bs IH]; intros m; [simpl; unfold count; simpl; lia|].
    cbn [fold_left fst snd]. rewrite fmap_cons. cbn [concat snd]. rewrite !count_app.
    destruct (IH (record_batch m (N.of_nat (length rs)) t rs)) as (H1 & H2 & H3).
    cbn zeta in *. rewrite H1, H2, H3. unfold record_batch.
    match goal with |- context [fold_left count_response rs ?m1] =>
      destruct (count_fold_classes rs m1) as (H4 & H5 & H6) end.
    simpl in *. rewrite H4, H5, H6. lia. }
  intros m rs. destruct (Hgen bs metrics0) as (H1 & H2 & H3). simpl in *. auto.
Qed.

(** The rate limiter: request [k] passes at [(k / n + 1) * interval]. *)
Lemma rate_limited_times i n q r m j : (0 < n)%nat → (r < n)%nat → (j < m)%nat →
  rate_limited i (replicate (n - r) (N.of_nat q * i)%N ++ replicate r (N.of_nat (S q) * i)%N) m !! j
  = Some (N.of_nat (S ((q * n + r + j) / n)) * i)%N.
Proof.
  intros Hn. revert q r j. induction m as [|m IH]; intros q r j Hr Hj; [lia|].
  replace (n - r)%nat with (S (n - S r)) by lia. cbn [replicate app rate_limited].
  assert (Ht : (N.of_nat q * i + i = N.of_nat (S q) * i)%N) by lia. rewrite Ht.
  destruct j as [|j].
  - cbn [lookup list_lookup]. rewrite Nat.add_0_r.
    rewrite Nat.div_add_l by lia. rewrite (Nat.div_small r) by lia. do 4 f_equal. lia.
  - cbn [lookup list_lookup].
    destruct (decide (S r < n)%nat) as [Hlt|Hge].
    + rewrite <- app_assoc. change [(N.of_nat (S q) * i)%N] with (replicate 1 (N.of_nat (S q) * i)%N).
      rewrite <- replicate_add. replace (r + 1)%nat with (S r) by lia.
      pose proof (IH q (S r) j Hlt ltac:(lia)) as H. etransitivity; [exact H|].
      by replace (q * n + S r + j)%nat with (q * n + r + S j)%nat by lia.
    + assert (r = n - 1)%nat as -> by lia. replace (n - S (n - 1))%nat with 0%nat by lia. cbn [replicate app].
      change [(N.of_nat (S q) * i)%N] with (replicate 1 (N.of_nat (S q) * i)%N).
      rewrite <- replicate_add. replace (n - 1 + 1)%nat with n by lia.
      pose proof (IH (S q) 0%nat j Hn ltac:(lia)) as H. cbn [replicate] in H. rewrite app_nil_r, Nat.sub_0_r in H.
      etransitivity; [exact H|].
      by replace (S q * n + 0 + j)%nat with (q * n + (n - 1) + S j)%nat by lia.
Qed.

Lemma rate_limit_quadratic n k t : (0 < n)%nat → (k < n * n)%nat →
  rate_limit_times n (n * n) !! k = Some t → (t <= 1000000000)%N.
Proof.
  intros Hn Hk H. unfold rate_limit_times in H.
  pose proof (rate_limited_times (1000000000 / N.of_nat n) n 0 0 (n * n) k Hn Hn Hk) as H2.
  cbn [replicate] in H2. rewrite app_nil_r, Nat.sub_0_r in H2.
  change (N.of_nat 0) with 0%N in H2. rewrite N.mul_0_l in H2.
  assert (Ht : t = (N.of_nat (S ((0 * n + 0 + k) / n)) * (1000000000 / N.of_nat n))%N) by congruence.
  rewrite Ht. clear H H2 Ht.
  assert (k / n < n)%nat by (apply Nat.div_lt_upper_bound; lia).
  pose proof (N.mul_div_le 1000000000 (N.of_nat n) ltac:(lia)).
  replace (0 * n + 0 + k)%nat with k by lia. assert (S (k / n) ≤ n)%nat by lia.
  etransitivity; [|exact H0]. apply N.mul_le_mono_r. lia.
Qed.
Lemma rate_limit_all n m : (0 < n)%nat → length (rate_limit_times n m) = m.
Proof.
  intros Hn. unfold rate_limit_times. generalize (1000000000 / N.of_nat n)%N as i. intros i.
  assert (H : ∀ m free, free ≠ [] → length (rate_limited i free m) = m).
  { clear. induction m as [|m IH]; intros free Hf; [by destruct free|]. destruct free as [|t free]; [done|].
    simpl. rewrite IH; [done|]. by destruct free. }
  apply H. by destruct n; [lia|].
Qed.
