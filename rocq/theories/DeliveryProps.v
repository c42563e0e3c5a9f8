(** C27, C28: batching and debouncing of notifications. *)
From stdpp Require Import gmap list.
From Verif Require Import DeliveryModel DeliverySpec DeliveryProofs DeliveryProofs2.
Local Open Scope Z_scope.

(** ** C27: batching *)
(** Under every schedule the batches formed so far, together with the notifications still pending,
    are the added ones in order; every formed batch is received, in the channel or waiting for room
    in it, and none is empty or too large. *)
Theorem C27_batches_partial : ∀ A max (os : list (mop A)), let s := mrun max batcher_new os in
  ∃ formed, formed ≡ₚ mb_recv s ++ mb_chan s ++ mb_out s ∧ concat formed ++ mb_pending s = added os ∧
    Forall (λ b, b ≠ [] ∧ (length b ≤ Nat.max 1 max)%nat) formed.
Proof. intros A max os. exact (proj1 (batches_formed max os)). Qed.
Print Assumptions C27_batches_partial.
(** Once nothing is pending or under way, every notification was received exactly once. *)
Theorem C27_complete_partial : ∀ A max (os : list (mop A)), let s := mrun max batcher_new os in
  mb_pending s = [] → mb_out s = [] → mb_chan s = [] → concat (mb_recv s) ≡ₚ added os.
Proof.
  intros A max os s Hp Ho Hc. destruct (batches_formed max os) as [(formed & Hf & Ha & _) _]. fold s in Hf, Ha.
  rewrite Hp, Ho, Hc in *. rewrite !app_nil_r in *. rewrite <-Ha. clear -Hf.
  induction Hf as [|x l l' ? IH|x y l|l1 l2 l3 ? IH1 ? IH2]; cbn; [done|by rewrite IH| |by rewrite IH2, IH1].
  rewrite !app_assoc. f_equiv. apply (comm _).
Qed.
Print Assumptions C27_complete_partial.
(** A partial batch is never stuck: the timer takes it, and a full one leaves at the add. *)
Theorem C27_timer_partial : ∀ A max (s : batcher A), mb_pending (mstep max s MTick) = [] ∧
  (∀ os, (length (mb_pending (mrun max (@batcher_new A) os)) < Nat.max 1 max)%nat).
Proof. intros A max s. split; [cbn; by destruct (mb_pending s) eqn:?|intros os; exact (proj2 (batches_formed max os))]. Qed.
Print Assumptions C27_timer_partial.
(** If no batch is formed while another waits for room, the order is kept to the receiver. *)
Theorem C27_order_partial : ∀ A max (os : list (mop A)), one_sender max batcher_new os → let s := mrun max batcher_new os in
  concat (mb_recv s ++ mb_chan s ++ mb_out s) ++ mb_pending s = added os.
Proof. exact @batches_in_order. Qed.
Print Assumptions C27_order_partial.
(** Otherwise two waiting senders may overtake each other. *)
Theorem C27_order_refuted : ∀ A (x y : A), ∃ os, added os = [x; y] ∧
  let s := mrun 1 batcher_new os in mb_pending s = [] ∧ mb_out s = [] ∧ mb_chan s = [] ∧ concat (mb_recv s) = [y; x].
Proof. intros A x y. exists [MAdd x; MAdd y; MSend 1; MSend 0; MRecv; MRecv]. done. Qed.
Print Assumptions C27_order_refuted.
Example C27_example :
  let os := [MAdd 1%nat; MAdd 2%nat; MSend 0; MRecv; MAdd 3%nat; MTick; MSend 0; MRecv] in
  one_sender 2 batcher_new os ∧ mb_recv (mrun 2 batcher_new os) = [[1;2];[3]]%nat ∧ mb_pending (mrun 2 batcher_new os) = [].
Proof. by vm_compute. Qed.

(** ** C28: debouncing *)
(** While calls do not overlap and the receiver keeps up: what a timer sends is the notification its
    key is owed – the last one added and neither sent nor flushed since – and its quiet period is over. *)
Theorem C28_latest_partial : ∀ wait cs s h tid now k n, keeps_up wait cs → drun wait debouncer_new cs = (s, h) →
  (dcall_step wait s (CFire tid now)).2 = OSent k n → ∃ t, owed k h = Some (n, t) ∧ t + wait k ≤ now.
Proof.
  intros wait cs s h tid now k n Hk Hr Ho. pose proof (inv_run wait cs Hk s h Hr) as Hi.
  assert (Hroom : (length (d_chan s) < capacity)%nat) by (pose proof (Hk cs [] (eq_sym (app_nil_r cs))) as H; by rewrite Hr in H).
  destruct (fire_cases wait s h tid now Hi Hroom) as [(k' & n' & t & _ & Hw & _ & Hle & E)|[E _]]; rewrite E in Ho; cbn in Ho; [|done].
  simplify_eq. eauto.
Qed.
Print Assumptions C28_latest_partial.
(** Everything owed has a timer that sends it once the quiet period is over, and only then. *)
Theorem C28_delivered_partial : ∀ wait cs s h k n t, keeps_up wait cs → drun wait debouncer_new cs = (s, h) → owed k h = Some (n, t) →
  ∃ tid, ∀ now, (dcall_step wait s (CFire tid now)).2 = (if bool_decide (t + wait k ≤ now) then OSent k n else ONone) ∧
    d_chan (dcall_step wait s (CFire tid now)).1 = d_chan s ++ (if bool_decide (t + wait k ≤ now) then [n] else []).
Proof.
  intros wait cs s h k n t Hk Hr Hw. pose proof (inv_run wait cs Hk s h Hr) as Hi.
  assert (Hroom : (length (d_chan s) < capacity)%nat) by (pose proof (Hk cs [] (eq_sym (app_nil_r cs))) as H; by rewrite Hr in H).
  destruct (inv_timer _ _ _ Hi k n t Hw) as (tid & Ht & Htk). exists tid. intros now.
  destruct (fire_cases wait s h tid now Hi Hroom) as [(k' & n' & t' & Htk' & Hw' & _ & Hle & E)|[E Hlt]]; rewrite E; cbn.
  - rewrite Htk in Htk'. simplify_eq. by rewrite bool_decide_eq_true_2.
  - specialize (Hlt _ _ _ Htk Hw). rewrite bool_decide_eq_false_2 by lia. by rewrite app_nil_r.
Qed.
Print Assumptions C28_delivered_partial.
(** At most one timer is set for a key, so nothing else can send for it. *)
Theorem C28_once_partial : ∀ wait cs s h tid1 tid2 now1 now2 k n1 n2, keeps_up wait cs → drun wait debouncer_new cs = (s, h) →
  (dcall_step wait s (CFire tid1 now1)).2 = OSent k n1 → (dcall_step wait s (CFire tid2 now2)).2 = OSent k n2 → tid1 = tid2 ∧ n1 = n2.
Proof.
  intros wait cs s h tid1 tid2 now1 now2 k n1 n2 Hk Hr Ho1 Ho2. pose proof (inv_run wait cs Hk s h Hr) as Hi.
  assert (Hroom : (length (d_chan s) < capacity)%nat) by (pose proof (Hk cs [] (eq_sym (app_nil_r cs))) as H; by rewrite Hr in H).
  destruct (fire_cases wait s h tid1 now1 Hi Hroom) as [(k1 & m1 & t1 & _ & Hw1 & Ht1 & _ & E)|[E _]]; rewrite E in Ho1; cbn in Ho1; [|done].
  destruct (fire_cases wait s h tid2 now2 Hi Hroom) as [(k2 & m2 & t2 & _ & Hw2 & Ht2 & _ & E2)|[E2 _]]; rewrite E2 in Ho2; cbn in Ho2; [|done].
  by simplify_eq.
Qed.
Print Assumptions C28_once_partial.
(** A flush returns exactly what each key is owed, and no timer is left. *)
Theorem C28_flush_partial : ∀ wait cs s h, keeps_up wait cs → drun wait debouncer_new cs = (s, h) →
  ∃ m, (dcall_step wait s CFlush).2 = OFlushed m ∧ (∀ k, m !! k = fst <$> owed k h) ∧
    (∀ tid now, (dcall_step wait (dcall_step wait s CFlush).1 (CFire tid now)).2 = ONone).
Proof.
  intros wait cs s h Hk Hr. pose proof (inv_run wait cs Hk s h Hr) as Hi. rewrite (inv_flush wait s h Hi). cbn [fst snd].
  exists (d_pending s). split; [done|]. split; [apply (inv_pending _ _ _ Hi)|]. done.
Qed.
Print Assumptions C28_flush_partial.
(** A key's debt changes only by its own adds and sends and by flushes: keys are independent. *)
Theorem C28_keys_partial : ∀ wait cs s h k tid now k' n', keeps_up wait cs → drun wait debouncer_new cs = (s, h) → k ≠ k' →
  (∀ n t, owed k (h ++ [(CAdd k' n t, ONone)]) = owed k h) ∧
  ((dcall_step wait s (CFire tid now)).2 = OSent k' n' → owed k (h ++ [(CFire tid now, OSent k' n')]) = owed k h ∧
    d_pending (dcall_step wait s (CFire tid now)).1 !! k = d_pending s !! k).
Proof.
  intros wait cs s h k tid now k' n' Hk Hr Hne. pose proof (inv_run wait cs Hk s h Hr) as Hi.
  assert (Hroom : (length (d_chan s) < capacity)%nat) by (pose proof (Hk cs [] (eq_sym (app_nil_r cs))) as H; by rewrite Hr in H).
  split; [intros n t; rewrite owed_snoc; cbn; by rewrite decide_False|].
  intros Ho. split; [rewrite owed_snoc; cbn; by rewrite decide_False|].
  destruct (fire_cases wait s h tid now Hi Hroom) as [(k1 & m1 & t1 & _ & Hw1 & Ht1 & _ & E)|[E _]]; rewrite E in *; cbn in *; [|done].
  simplify_eq. by rewrite lookup_delete_ne.
Qed.
Print Assumptions C28_keys_partial.
(** If the channel is full, a timer that woke up holds its notification, and the next flush – or the
    next add of the key – destroys it: it is neither sent nor returned. *)
Theorem C28_blocked_refuted : ∀ wait s t k n, d_tasks s !! t = Some (Holding k n) → d_timers s !! k = Some t → d_pending s !! k = None →
  (let '(s', o) := dcall_step wait s CFlush in d_tasks s' !! t = None ∧ d_chan s' = d_chan s ∧ ∃ m, o = OFlushed m ∧ m !! k = None) ∧
  (∀ n' now, (t < d_next s)%nat → let s' := (dcall_step wait s (CAdd k n' now)).1 in
     d_tasks s' !! t = None ∧ d_chan s' = d_chan s ∧ d_pending s' !! k = Some n').
Proof.
  intros wait s t k n Ht Hk Hp. split.
  - cbn. split; [|split; [done|eauto]].
    assert (∀ l m, t ∈ l → (foldr delete m l : gmap nat task) !! t = None) as Hdel.
    { clear. induction l as [|x l IH]; intros m; [by inversion 1|]. rewrite elem_of_cons. intros [->|Hin]; cbn; [by rewrite lookup_delete|].
      destruct (decide (x = t)) as [->|]; [by rewrite lookup_delete|]. rewrite lookup_delete_ne by done. by apply IH. }
    apply Hdel. apply elem_of_list_fmap. exists (k, t). split; [done|]. by apply elem_of_map_to_list.
  - intros n' now Hlt. cbn. unfold d_cancel. cbn. rewrite Hk. cbn. rewrite lookup_insert_ne by lia. rewrite lookup_delete, lookup_insert. done.
Qed.
Print Assumptions C28_blocked_refuted.
(** Two overlapping adds of one key leave two timers; the first sends the second notification before
    the key has been quiet for its interval. *)
Theorem C28_overlap_refuted : ∀ wait k n1 n2 now1 now2, 0 ≤ wait k → now1 < now2 < now1 + wait k →
  let s := fold_left (dstep wait) [DInsert k n1; DCancel k; DSpawn k now1; DInsert k n2; DCancel k; DStore k 0; DSpawn k now2; DStore k 1] debouncer_new in
  (d_fire 0 (now1 + wait k) s).2 = Some (k, n2) ∧ now1 + wait k < now2 + wait k.
Proof.
  intros wait k n1 n2 now1 now2 Hw Hn. split; [|lia]. cbn. unfold d_cancel. cbn. rewrite lookup_empty. cbn. rewrite lookup_empty. cbn.
  unfold d_fire. cbn. rewrite lookup_insert_ne by done. rewrite lookup_insert, bool_decide_eq_true_2 by lia. by rewrite lookup_insert.
Qed.
Print Assumptions C28_overlap_refuted.
Example C28_example :
  let w := λ k, if decide (k = 0%nat) then 50 else 100 in
  let cs := [CAdd 0 1 0; CAdd 1 5 0; CAdd 0 2 30; CFire 0 60; CFire 2 60; CFire 2 80] in
  (drun w debouncer_new cs).2.*2 = [ONone; ONone; ONone; ONone; ONone; OSent 0 2] ∧
  match (dcall_step w (drun w debouncer_new cs).1 CFlush).2 with OFlushed m => map_to_list m = [(1, 5)]%nat | _ => False end.
Proof. by vm_compute. Qed.
(** The blocked state is reached: 100 notifications fill the channel. *)
Example C28_example_blocked :
  let cs := concat ((λ i, [CAdd i i 0; CFire i 10]) <$> seq 0 101) in
  let s := (drun (λ _, 5) debouncer_new cs).1 in
  d_tasks s !! 100%nat = Some (Holding 100 100) ∧ d_timers s !! 100%nat = Some 100%nat ∧ d_pending s !! 100%nat = None.
Proof. by vm_compute. Qed.

(** ** C194: debouncing under any schedule *)
(** Whatever the interleaving of adds, timers, flushes and receives: the receiver gets what the timers
    sent, in their order, and what was sent or flushed are added notifications, each at most once. *)
Theorem C194_once : ∀ wait os s sent flushed, dhist wait debouncer_new os = (s, sent, flushed) →
  sent.*2 = d_recv s ++ d_chan s ∧ sent ++ flushed ⊆+ inserted os.
Proof.
  intros wait os s sent flushed H. destruct (debounce_run wait os s sent flushed H) as [H1 H2]. split; [done|].
  etrans; [|exact H2]. rewrite app_assoc. by apply submseteq_inserts_r.
Qed.
Print Assumptions C194_once.
(** What is still pending or held by a timer that waits for room was not delivered before. *)
Theorem C194_waiting : ∀ wait os s sent flushed k n, dhist wait debouncer_new os = (s, sent, flushed) →
  d_pending s !! k = Some n ∨ (∃ t, d_tasks s !! t = Some (Holding k n)) → (k, n) :: sent ++ flushed ⊆+ inserted os.
Proof.
  intros wait os s sent flushed k n H Hw. destruct (debounce_run wait os s sent flushed H) as [_ H2]. etrans; [|exact H2].
  assert (∃ r, map_to_list (d_pending s) ++ held (d_tasks s) ≡ₚ (k, n) :: r) as [r Hr].
  { destruct Hw as [Hp|(t & Ht)].
    - exists (map_to_list (delete k (d_pending s)) ++ held (d_tasks s)). by rewrite <-(map_to_list_delete _ k n Hp).
    - exists (map_to_list (d_pending s) ++ held (delete t (d_tasks s))). rewrite (held_at _ _ _ Ht). cbn [hold app]. by rewrite <-Permutation_middle. }
  rewrite Hr. solve_submseteq.
Qed.
Print Assumptions C194_waiting.
(** A held notification goes out at the end of the channel as soon as there is room. *)
Theorem C194_room : ∀ s t k n, d_tasks s !! t = Some (Holding k n) → (length (d_chan s) < capacity)%nat →
  (d_unblock t s).2 = Some (k, n) ∧ d_chan (d_unblock t s).1 = d_chan s ++ [n] ∧ d_pending (d_unblock t s).1 = d_pending s.
Proof. intros s t k n Ht Hc. unfold d_unblock. rewrite Ht, bool_decide_eq_true_2 by done. done. Qed.
Print Assumptions C194_room.
Example C194_example :
  let os := concat ((λ i, [DInsert i i; DSpawn i 0; DStore i i; DFire i 10]) <$> seq 0 101) ++ [DReceive; DUnblock 100; DFinish 100; DInsert 7 8; DDrain] in
  let '(s, sent, flushed) := dhist (λ _, 5) debouncer_new os in
  length sent = 101%nat ∧ d_recv s = [0%nat] ∧ last (d_chan s) = Some 100%nat ∧ flushed = [(7, 8)]%nat.
Proof. by vm_compute. Qed.
