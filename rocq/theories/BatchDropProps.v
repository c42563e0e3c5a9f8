(** Theorems about adds of a batcher or debouncer that are given up. *)
From stdpp Require Import base numbers list gmap.
From Verif Require Import DeliveryModel DeliverySpec BatchDropModel BatchDropSpec.

Section proofs.
Context {A : Type} (max : nat).
Implicit Types (s : bstate A) (os : list (bop A)).
Lemma filter_split (P : sender A → bool) (l : list (sender A)) : l ≡ₚ filter (λ w, P w = true) l ++ filter (λ w, P w = false) l.
Proof.
  induction l as [|w l IH]; [done|]. destruct (P w) eqn:E.
  - rewrite (filter_cons_True (λ w, P w = true)), (filter_cons_False (λ w, P w = false)) by (rewrite ?E; done). cbn. by rewrite <-IH.
  - rewrite (filter_cons_False (λ w, P w = true)), (filter_cons_True (λ w, P w = false)) by (rewrite ?E; done). rewrite <-Permutation_middle. by rewrite <-IH.
Qed.
Lemma filter_keeps (P : sender A → Prop) (Q : sender A → Prop) `{∀ w, Decision (Q w)} (l : list (sender A)) : Forall P l → Forall P (filter Q l).
Proof. rewrite !Forall_forall. intros Hl w Hw. apply elem_of_list_filter in Hw as [_ Hw]. by apply Hl. Qed.
Lemma concat_perm (l1 l2 : list (list A)) : l1 ≡ₚ l2 → concat l1 ≡ₚ concat l2.
Proof. induction 1 as [|x l l' ? IH|x y l|l1 l2 l3 ? IH1 ? IH2]; cbn; [done|by rewrite IH| |by rewrite IH1, IH2]. rewrite !app_assoc. f_equiv. apply (comm _). Qed.
Definition gone (o : bop A) : list A := match o with BAdd _ x => [x] | _ => [] end.
Lemma step_there s o : concat (lost_at s o) ++ b_there (b_step max s o) ≡ₚ b_there s ++ gone o.
Proof.
  destruct s as [p ou ch re]. unfold b_there. destruct o as [k x| |i|i|k|]; cbn [b_step lost_at gone b_pending b_out b_chan b_recv concat app].
  - case_bool_decide; cbn [b_pending b_out b_chan b_recv]; [|by rewrite app_assoc]. rewrite fmap_app. cbn [fmap list_fmap w_batch]. rewrite !concat_app. cbn [concat]. rewrite !app_nil_r. by rewrite <-!app_assoc.
  - rewrite app_nil_r. destruct p as [|y p]; [done|]. cbn [b_pending b_out b_chan b_recv]. rewrite fmap_app. cbn [fmap list_fmap w_batch]. rewrite !concat_app. cbn [concat]. rewrite !app_nil_r. by rewrite <-!app_assoc.
  - rewrite app_nil_r. destruct (ou !! i) as [w|] eqn:E; [|done]. case_bool_decide; [|done]. cbn [b_pending b_out b_chan b_recv]. apply Permutation_app_tail, concat_perm. rewrite (fmap_Permutation w_batch _ _ (delete_Permutation ou i w E)), fmap_cons. solve_Permutation.
  - rewrite app_nil_r. destruct (ou !! i) as [w|] eqn:E; [|done]. case_bool_decide; [done|]. cbn [b_pending b_out b_chan b_recv]. rewrite list_fmap_insert. cbn [w_batch]. rewrite list_insert_id; [done|]. by rewrite list_lookup_fmap, E.
  - rewrite app_nil_r, app_assoc, <-concat_app. apply Permutation_app_tail, concat_perm. rewrite (fmap_Permutation w_batch _ _ (filter_split (waits_for k) ou)), fmap_app. solve_Permutation.
  - rewrite app_nil_r. destruct ch; [done|]. cbn [b_pending b_out b_chan b_recv]. apply Permutation_app_tail, concat_perm. solve_Permutation.
Qed.
Lemma run_there s os : concat (lost_from max s os) ++ b_there (b_run max s os) ≡ₚ b_there s ++ b_added os.
Proof.
  revert s. induction os as [|o os IH]; intros s; [cbn; by rewrite app_nil_r|]. cbn [lost_from]. unfold b_run. cbn [fold_left]. change (fold_left (b_step max) os (b_step max s o)) with (b_run max (b_step max s o) os).
  rewrite concat_app, <-app_assoc, (IH (b_step max s o)), app_assoc, step_there. rewrite <-app_assoc. by destruct o.
Qed.
Lemma lost_from_app s os1 os2 : lost_from max s (os1 ++ os2) = lost_from max s os1 ++ lost_from max (b_run max s os1) os2.
Proof. revert s. induction os1 as [|o os1 IH]; intros s; [done|]. cbn [lost_from app]. by rewrite IH, app_assoc. Qed.
Lemma b_run_app s os1 os2 : b_run max s (os1 ++ os2) = b_run max (b_run max s os1) os2.
Proof. apply fold_left_app. Qed.
End proofs.

(** *** C244: what is not lost is there *)
(** Whatever is given up: the notifications received, in the channel, held or pending, and those of the lost batches, are the
    added ones, each as often. *)
Theorem C244_kept : ∀ A max (os : list (bop A)), concat (b_lost max os) ++ b_there (b_after max os) ≡ₚ b_added os.
Proof. intros A max os. apply (run_there max b_new os). Qed.
Print Assumptions C244_kept.
(** If the receiver keeps up, giving up loses nothing. *)
Lemma roomy_out A max (os : list (bop A)) : roomy max os → b_lost max os = [] ∧ Forall (λ w, w_waits w = false) (b_out (b_after max os)).
Proof.
  induction os as [|o os IH] using rev_ind; intros Hr; [split; [done|constructor]|]. destruct IH as [I1 I2]; [intros os1 os2 ->; apply (Hr os1 (os2 ++ [o])); by rewrite app_assoc|].
  assert (length (b_chan (b_after max os)) < capacity) as Hl by (by apply (Hr os [o])). unfold b_lost, b_after in *. rewrite lost_from_app, b_run_app, I1. cbn [app lost_from]. unfold b_run at 2. cbn [fold_left]. destruct (b_run max b_new os) as [p ou ch re]. cbn [b_out b_chan] in *.
  rewrite app_nil_r. destruct o as [k x| |i|i|k|]; cbn [b_step lost_at b_pending b_out b_chan b_recv].
  - split; [done|]. case_bool_decide; cbn [b_out]; [|done]. apply Forall_app. split; [done|]. by constructor.
  - split; [done|]. destruct p; cbn [b_out]; [done|]. apply Forall_app. split; [done|]. by constructor.
  - split; [done|]. destruct (ou !! i) as [w|]; [|done]. case_bool_decide; [|done]. cbn [b_out]. by apply Forall_delete.
  - split; [done|]. destruct (ou !! i) as [w|]; [|done]. by rewrite bool_decide_eq_true_2.
  - cbn [b_out]. split; [|by apply filter_keeps].
    assert (filter (λ w, waits_for k w = true) ou = []) as ->; [|done]. clear -I2. induction I2 as [|w l Hw _ IH]; [done|]. rewrite filter_cons_False; [done|]. unfold waits_for. rewrite Hw, andb_false_r. done.
  - split; [done|]. by destruct ch.
Qed.
Theorem C244_roomy_partial : ∀ A max (os : list (bop A)), roomy max os → b_there (b_after max os) ≡ₚ b_added os.
Proof. intros A max os Hr. rewrite <-(C244_kept A max os). by rewrite (proj1 (roomy_out A max os Hr)). Qed.
Print Assumptions C244_roomy_partial.

(** *** C244: what is lost *)
Lemma out_inv A max (os : list (bop A)) : length (b_pending (b_after max os)) < Nat.max 1 max ∧
  Forall (λ w, length (w_batch w) ≤ Nat.max 1 max ∧ ∀ k, w_by w = Some k → ∃ x, last (w_batch w) = Some x ∧ BAdd k x ∈ os) (b_out (b_after max os)).
Proof.
  induction os as [|o os [I1 I2]] using rev_ind; [split; [cbn; lia|constructor]|]. unfold b_after in *. rewrite b_run_app. unfold b_run at 1 3. cbn [fold_left]. destruct (b_run max b_new os) as [p ou ch re]. cbn [b_out b_pending] in *.
  assert (Forall (λ w, length (w_batch w) ≤ Nat.max 1 max ∧ ∀ k, w_by w = Some k → ∃ x, last (w_batch w) = Some x ∧ BAdd k x ∈ os ++ [o]) ou) as I3. { eapply Forall_impl; [exact I2|]. intros w [H1 H2]. split; [done|]. intros k Hk. destruct (H2 k Hk) as (x & Hx & Hin). exists x. split; [done|]. apply elem_of_app. by left. }
  clear I2. destruct o as [k x| |i|i|k|]; cbn [b_step b_pending b_out b_chan b_recv].
  - case_bool_decide as Hc; cbn [b_out b_pending]; [|split; [rewrite app_length in *; cbn in *; lia|done]]. split; [cbn; lia|]. apply Forall_app. split; [done|]. constructor; [|constructor]. cbn [w_batch w_by]. split; [rewrite app_length; cbn; lia|]. intros k' [= <-]. exists x. split; [by rewrite last_snoc|]. apply elem_of_app. right. left.
  - destruct p as [|y p]; cbn [b_out b_pending]; [done|]. split; [cbn; lia|]. apply Forall_app. split; [done|]. constructor; [|constructor]. cbn [w_batch w_by]. split; [lia|done].
  - destruct (ou !! i) as [w|]; [|done]. case_bool_decide; [|done]. cbn [b_out b_pending]. split; [done|]. by apply Forall_delete.
  - destruct (ou !! i) as [w|] eqn:E; [|done]. case_bool_decide; [done|]. cbn [b_out b_pending]. split; [done|]. apply Forall_insert; [done|]. cbn [w_batch w_by]. by apply (Forall_lookup_1 _ _ _ _ I3 E).
  - split; [done|]. by apply filter_keeps.
  - by destruct ch.
Qed.
(** Giving up an add loses a batch of at most max_batch_size notifications, the last of which is the one that was being added. *)
Theorem C244_lost : ∀ A max (os : list (bop A)) k b, b ∈ lost_at (b_after max os) (BDrop k) → ∃ b' x, b = b' ++ [x] ∧ BAdd k x ∈ os ∧ length b' < Nat.max 1 max.
Proof.
  intros A max os k b Hb. cbn in Hb. apply elem_of_list_fmap in Hb as (w & -> & Hw). apply elem_of_list_filter in Hw as [Hk Hw]. unfold waits_for in Hk. apply andb_true_iff in Hk as [Hk _]. apply bool_decide_eq_true in Hk.
  destruct (out_inv A max os) as [_ H]. rewrite Forall_forall in H. destruct (H w Hw) as [H1 H2]. destruct (H2 k Hk) as (x & Hx & Hin). apply last_Some in Hx as [b' Hb']. exists b', x. split; [done|]. split; [done|]. rewrite Hb', app_length in H1. cbn in H1. lia.
Qed.
Print Assumptions C244_lost.
(** So with batches of one notification nothing else is lost. *)
Theorem C244_own_partial : ∀ A max (os : list (bop A)) k b, max ≤ 1 → b ∈ lost_at (b_after max os) (BDrop k) → ∃ x, b = [x] ∧ BAdd k x ∈ os.
Proof. intros A max os k b Hm Hb. destruct (C244_lost A max os k b Hb) as (b' & x & -> & Hin & Hl). exists x. split; [|done]. destruct b'; [done|cbn in Hl; lia]. Qed.
Print Assumptions C244_own_partial.
(** With larger batches it is: the notifications of other calls, which returned Ok before, are never received, nor anything else
    that was pending, if the call that completes the batch finds the channel full and is given up. *)
Theorem C244_others_refuted : ∀ A max (os1 os2 : list (bop A)) k x y, let s := b_after max os1 in let os := os1 ++ [BAdd k x; BWait (length (b_out s)); BDrop k] ++ os2 in
  length (b_chan s) = capacity → S (length (b_pending s)) = max → y ∈ b_pending s → NoDup (b_added os) → y ∉ b_there (b_after max os).
Proof.
  intros A max os1 os2 k x y s os Hc Hl Hy Hn Hin. assert (y ∈ concat (b_lost max os)) as Hlost.
  { unfold os, b_lost. rewrite !lost_from_app, !concat_app. apply elem_of_app. right. apply elem_of_app. left. change (b_run max b_new os1) with s. cbn [lost_from lost_at app]. destruct s as [p ou ch re]. cbn [b_pending b_chan b_out] in *. cbn [b_step b_pending]. rewrite bool_decide_eq_true_2 by (rewrite app_length; cbn; lia). cbn [b_step b_out b_chan]. rewrite list_lookup_middle by done. rewrite bool_decide_eq_false_2 by lia. cbn [b_out w_by w_batch]. rewrite app_nil_r.
    rewrite insert_app_r_alt by done. rewrite Nat.sub_diag. cbn [insert list_insert]. rewrite filter_app, fmap_app, concat_app. apply elem_of_app. right. rewrite filter_cons_True by (unfold waits_for; cbn; by rewrite bool_decide_eq_true_2). cbn. apply elem_of_app. left. apply elem_of_app. by left. }
  rewrite <-(C244_kept A max os) in Hn. apply NoDup_app in Hn as (_ & Hn & _). by apply (Hn y).
Qed.
Print Assumptions C244_others_refuted.

(** *** C244: without giving up, the batcher is the one of C27 *)
Definition forget {A} (s : bstate A) : batcher A := MkBatcher (b_pending s) (w_batch <$> b_out s) (b_chan s) (b_recv s).
Theorem C244_same : ∀ A max (os : list (bop A)), (∀ k, BDrop k ∉ os) → let s := b_after max os in
  mrun max batcher_new (plain os) = MkBatcher (b_pending s) (w_batch <$> b_out s) (b_chan s) (b_recv s).
Proof.
  intros A max os Hd. change (mrun max batcher_new (plain os) = forget (b_after max os)). induction os as [|o os IH] using rev_ind; [done|]. assert (∀ k, BDrop k ∉ os) as Hd' by (intros k Hk; apply (Hd k), elem_of_app; by left). specialize (IH Hd').
  unfold plain, mrun, b_after in *. rewrite omap_app, fold_left_app, IH, b_run_app. unfold b_run at 2. cbn [fold_left]. destruct (b_run max b_new os) as [p ou ch re]. unfold forget. destruct o as [k x| |i|i|k|]; cbn [omap list_omap fold_left mstep b_step b_pending b_out b_chan b_recv mb_pending mb_out mb_chan mb_recv].
  - case_bool_decide; cbn [b_pending b_out b_chan b_recv]; [by rewrite fmap_app|done].
  - destruct p; cbn [b_pending b_out b_chan b_recv]; [done|by rewrite fmap_app].
  - rewrite list_lookup_fmap. destruct (ou !! i) as [w|]; cbn [fmap option_fmap option_map]; [|done]. case_bool_decide; [|done]. cbn [b_pending b_out b_chan b_recv]. by rewrite list_fmap_delete.
  - destruct (ou !! i) as [w|] eqn:E; [|done]. case_bool_decide; [done|]. cbn [b_pending b_out b_chan b_recv]. rewrite list_fmap_insert. cbn [w_batch]. rewrite list_insert_id; [done|]. by rewrite list_lookup_fmap, E.
  - destruct (Hd k). apply elem_of_app. right. left.
  - by destruct ch.
Qed.
Print Assumptions C244_same.

(** *** C244: the debouncer *)
(** An add of the debouncer that is given up after it stored its notification, while it waits for the timers, is not sent: as
    long as nobody adds the key again or flushes, nothing is sent for the key. *)
Definition idle (k n : nat) (s : debouncer) : Prop := d_pending s !! k = Some n ∧ ∀ t due m, d_tasks s !! t ≠ Some (DeliveryModel.Sleeping k due) ∧ d_tasks s !! t ≠ Some (Holding k m).
Theorem C244_debounce_refuted : ∀ wait k n os s, (∀ t due m, d_tasks s !! t ≠ Some (DeliveryModel.Sleeping k due) ∧ d_tasks s !! t ≠ Some (Holding k m)) →
  Forall (λ o, match o with DInsert k' _ | DSpawn k' _ => k' ≠ k | DDrain => False | _ => True end) os →
  let '(s', sent, _) := dhist wait (dstep wait s (DInsert k n)) os in d_pending s' !! k = Some n ∧ Forall (λ e, e.1 ≠ k) sent.
Proof.
  intros wait k n os s Hs Hos. assert (idle k n (dstep wait s (DInsert k n))) as Hi by (split; [cbn; by rewrite lookup_insert|done]). revert Hi. generalize (dstep wait s (DInsert k n)). clear s Hs.
  induction Hos as [|o os Ho _ IH]; intros s [H1 H2]; [by split|]. cbn [dhist].
  assert (idle k n (dstep wait s o) ∧ Forall (λ e, e.1 ≠ k) (sent_by s o)) as [Hi Hf].
  { destruct s as [pe ti ta nx ch re]. cbn [d_pending d_tasks] in *. unfold idle.
    assert (∀ t, (∀ t' due m, (delete t ta : gmap nat task) !! t' ≠ Some (DeliveryModel.Sleeping k due) ∧ (delete t ta : gmap nat task) !! t' ≠ Some (Holding k m))) as Hdel.
    { intros t t' due m. split; intros E; apply lookup_delete_Some in E as [_ E]; by destruct (H2 t' due m). }
    assert (∀ t x, (∀ due, x ≠ DeliveryModel.Sleeping k due) → (∀ m, x ≠ Holding k m) → (∀ t' due m, (<[t := x]> ta : gmap nat task) !! t' ≠ Some (DeliveryModel.Sleeping k due) ∧ (<[t := x]> ta : gmap nat task) !! t' ≠ Some (Holding k m))) as Hins.
    { intros t x Hx1 Hx2 t' due m. split; intros E; apply lookup_insert_Some in E as [[_ E]|[_ E]]; [by destruct (Hx1 due)|by destruct (H2 t' due m)|by destruct (Hx2 m)|by destruct (H2 t' due m)]. }
    destruct o as [k' n'|k'|k' now|k' t|t now|t|t| | |]; cbn [dstep sent_by].
    - split; [|done]. cbn. split; [by rewrite lookup_insert_ne|done].
    - split; [|done]. unfold d_cancel. cbn. destruct (ti !! k') as [t|]; cbn; [|done]. split; [done|apply Hdel].
    - split; [|done]. cbn. split; [done|]. apply Hins; [intros due [= ? _]; done|done].
    - done.
    - unfold d_fire. cbn. destruct (ta !! t) as [[k' due|k' m|k']|] eqn:E; cbn; try done. assert (k' ≠ k) as Hne by (intros ->; by destruct (H2 t due 0)). case_bool_decide; cbn; [|done]. destruct (pe !! k') as [n'|]; cbn.
      + case_bool_decide; cbn; (split; [split; [by rewrite lookup_delete_ne|apply Hins; [done|]]|]); try done; [by constructor|intros m [= ? _]; done].
      + split; [split; [done|by apply Hins]|done].
    - unfold d_unblock. cbn. destruct (ta !! t) as [[k' due|k' m|k']|] eqn:E; cbn; try done. assert (k' ≠ k) as Hne by (intros ->; by destruct (H2 t 0%Z m)). case_bool_decide; cbn; [|done]. split; [split; [done|by apply Hins]|by constructor].
    - split; [|done]. unfold d_finish. cbn. destruct (ta !! t) as [[k' due|k' m|k']|] eqn:E; by cbn.
    - split; [|done]. cbn. split; [done|]. clear Hins Hdel. generalize ((map_to_list ti).*2). intros l. induction l as [|t l IHl]; [done|]. cbn. intros t' due m. destruct (IHl t' due m). split; intros E; by apply lookup_delete_Some in E as [_ E].
    - done.
    - split; [|done]. unfold d_receive. cbn. by destruct ch. }
  specialize (IH _ Hi). destruct (dhist wait (dstep wait s o) os) as [[s' sent] fl]. destruct IH as [I1 I2]. split; [done|]. by apply Forall_app.
Qed.
Print Assumptions C244_debounce_refuted.

(** One that is given up after it started its timer, before it stored it, leaves a timer that later adds do not stop: it sends
    what they add before the key has been quiet. *)
Theorem C244_early_refuted : ∀ wait k n1 n2 now1 now2, (now1 < now2 < now1 + wait k)%Z →
  let s := fold_left (dstep wait) ([DInsert k n1; DCancel k; DSpawn k now1] ++ [DInsert k n2; DCancel k; DSpawn k now2; DStore k 1]) debouncer_new in
  (d_fire 0 (now1 + wait k) s).2 = Some (k, n2) ∧ (now1 + wait k < now2 + wait k)%Z.
Proof.
  intros wait k n1 n2 now1 now2 Hn. split; [|lia]. cbn. unfold d_cancel. cbn. rewrite lookup_empty. cbn. rewrite lookup_empty. cbn. unfold d_fire. cbn. rewrite lookup_insert_ne by done. rewrite lookup_insert, bool_decide_eq_true_2 by lia. by rewrite lookup_insert.
Qed.
Print Assumptions C244_early_refuted.

(** Batches of two; the channel is full, notification 200 was added by a call that returned, and the call that adds 201 gives up. *)
Example C244_example : let os := concat ((λ i, [BAdd i i; BSend 0]) <$> seq 0 201) in let s := b_after 2 os in
  length (b_chan s) = capacity ∧ b_pending s = [200] ∧ b_out s = [] ∧
  let s' := b_after 2 (os ++ [BAdd 7 201; BWait 0; BDrop 7; BAdd 8 202; BTick; BRecv; BSend 0]) in
  b_recv s' = [[0; 1]] ∧ last (b_chan s') = Some [202] ∧ b_out s' = [] ∧ b_lost 2 (os ++ [BAdd 7 201; BWait 0; BDrop 7]) = [[200; 201]].
Proof. by vm_compute. Qed.
(** The debouncer is idle at first, and others are served meanwhile. *)
Example C244_example_debounce : let '(s, sent, _) := dhist (λ _, 5%Z) (dstep (λ _, 5%Z) debouncer_new (DInsert 1 7)) [DInsert 2 8; DCancel 2; DSpawn 2 0; DStore 2 0; DFire 0 6; DFinish 0; DReceive] in
  sent = [(2, 8)] ∧ d_pending s !! 1 = Some 7 ∧ d_recv s = [8].
Proof. by vm_compute. Qed.
