(** Theorems about adds and flushes of a notification batcher that are given up. *)
From stdpp Require Import base numbers list gmap.
From Verif Require Import NotifDropModel NotifDropSpec.

Section proofs.
Context {A : Type} (key : A → nat) (max cap : nat).
Implicit Types (s : nstate A) (os : list (nop A)).
Lemma filter_split (P : held A → bool) (l : list (held A)) : l ≡ₚ filter (λ w, P w = true) l ++ filter (λ w, P w = false) l.
Proof.
  induction l as [|w l IH]; [done|]. destruct (P w) eqn:E.
  - rewrite (filter_cons_True (λ w, P w = true)), (filter_cons_False (λ w, P w = false)) by (rewrite ?E; done). cbn. by rewrite <-IH.
  - rewrite (filter_cons_False (λ w, P w = true)), (filter_cons_True (λ w, P w = false)) by (rewrite ?E; done). rewrite <-Permutation_middle. by rewrite <-IH.
Qed.
Lemma filter_keeps (P : held A → Prop) (Q : held A → Prop) `{∀ w, Decision (Q w)} (l : list (held A)) : Forall P l → Forall P (filter Q l).
Proof. rewrite !Forall_forall. intros Hl w Hw. apply elem_of_list_filter in Hw as [_ Hw]. by apply Hl. Qed.
Lemma concat_perm (l1 l2 : list (list A)) : l1 ≡ₚ l2 → concat l1 ≡ₚ concat l2.
Proof. induction 1 as [|x l l' ? IH|x y l|l1 l2 l3 ? IH1 ? IH2]; cbn; [done|by rewrite IH| |by rewrite IH1, IH2]. rewrite !app_assoc. f_equiv. apply (comm _). Qed.
(** The batches of a map *)
Definition vals (m : gmap nat (list A)) : list (list A) := (map_to_list m).*2.
Lemma vals_insert m j b : concat (vals (<[j := b]> m)) ≡ₚ b ++ concat (vals (delete j m)).
Proof. unfold vals. rewrite <-insert_delete_insert. rewrite (concat_perm _ _ (fmap_Permutation snd _ _ (map_to_list_insert (delete j m) j b (lookup_delete m j)))). done. Qed.
Lemma vals_lookup m j : concat (vals m) ≡ₚ default [] (m !! j) ++ concat (vals (delete j m)).
Proof. destruct (m !! j) as [b|] eqn:E; cbn [default]; [|by rewrite delete_notin]. unfold vals. rewrite <-(concat_perm _ _ (fmap_Permutation snd _ _ (map_to_list_delete m j b E))). done. Qed.
Lemma there_eq s : n_there s = concat (n_recv s) ++ concat (n_chan s) ++ concat (w_batch <$> n_out s) ++ concat (in_lock (n_lock s)) ++ concat (vals (n_batches s)).
Proof. unfold n_there, batches_there. by rewrite !concat_app. Qed.
Lemma step_there s o : concat (lost_at s o) ++ n_there (n_step key max cap s o) ≡ₚ n_there s ++ added_at s o.
Proof.
  rewrite !there_eq. destruct s as [ba ti ou lo ch re]. destruct o as [k x|i|i|k|i| | |j| | | |]; cbn [n_step lost_at added_at n_batches n_timers n_out n_lock n_chan n_recv concat app].
  - destruct lo; cbn [n_batches n_timers n_out n_lock n_chan n_recv in_lock]; try by rewrite app_nil_r. rewrite (vals_lookup ba (key x)). case_bool_decide; cbn [n_batches n_timers n_out n_lock n_chan n_recv in_lock]; rewrite vals_insert; [rewrite fmap_app, concat_app; cbn [fmap list_fmap w_batch concat app]|cbn [concat app]]; solve_Permutation.
  - rewrite app_nil_r. destruct (ou !! i) as [w|] eqn:E; [|done]. destruct (room cap _); [|done]. cbn [n_batches n_timers n_out n_lock n_chan n_recv]. rewrite concat_app. cbn [concat]. rewrite (concat_perm _ _ (fmap_Permutation w_batch _ _ (delete_Permutation ou i w E))), fmap_cons. cbn [concat]. solve_Permutation.
  - rewrite app_nil_r. destruct (ou !! i) as [w|] eqn:E; [|done]. destruct (room cap _); [done|]. cbn [n_batches n_timers n_out n_lock n_chan n_recv]. rewrite list_fmap_insert. cbn [w_batch]. rewrite list_insert_id; [done|]. by rewrite list_lookup_fmap, E.
  - rewrite app_nil_r. rewrite (concat_perm _ _ (fmap_Permutation w_batch _ _ (filter_split (waits_for k) ou))), fmap_app, concat_app. solve_Permutation.
  - rewrite app_nil_r. destruct lo; cbn [in_lock]; try done. destruct (ti !! i) as [j|]; [|done]. cbn [n_batches n_timers n_out n_lock n_chan n_recv concat app]. rewrite (vals_lookup ba j). destruct (ba !! j) as [[|y b]|]; cbn [default in_lock concat app]; [done| |done]. rewrite ?app_nil_r. solve_Permutation.
  - rewrite app_nil_r. destruct lo; cbn [in_lock]; try done. destruct (room cap _); [|done]. cbn [n_batches n_timers n_out n_lock n_chan n_recv in_lock]. rewrite concat_app. cbn [concat app]. rewrite ?app_nil_r. solve_Permutation.
  - rewrite app_nil_r. destruct lo; cbn [in_lock]; try done. cbn [n_batches n_timers n_out n_lock n_chan n_recv in_lock]. change ((map_to_list ba).*2) with (vals ba). assert (vals ∅ = []) as -> by (unfold vals; by rewrite map_to_list_empty). cbn [concat app]. by rewrite ?app_nil_r.
  - rewrite app_nil_r. destruct lo as [| |m wt]; cbn [in_lock]; try done. destruct (m !! j) as [[|y b]|] eqn:E; [| |done].
    + cbn [n_batches n_timers n_out n_lock n_chan n_recv in_lock]. change ((map_to_list m).*2) with (vals m). change ((map_to_list (delete j m)).*2) with (vals (delete j m)). by rewrite (vals_lookup m j), E.
    + destruct (room cap _); [|done]. cbn [n_batches n_timers n_out n_lock n_chan n_recv in_lock]. change ((map_to_list m).*2) with (vals m). change ((map_to_list (delete j m)).*2) with (vals (delete j m)). rewrite (vals_lookup m j), E, concat_app. cbn [default concat]. rewrite app_nil_r. solve_Permutation.
  - rewrite app_nil_r. destruct lo; cbn [in_lock]; try done. by destruct (room cap _).
  - rewrite app_nil_r. destruct lo as [| |m wt]; cbn [in_lock]; try done. case_bool_decide as Hm; [|done]. subst m. cbn [n_batches n_timers n_out n_lock n_chan n_recv in_lock]. by rewrite map_to_list_empty.
  - rewrite app_nil_r. destruct lo as [| |m []]; cbn [in_lock n_batches n_timers n_out n_lock n_chan n_recv concat app]; try done. change ((map_to_list m).*2) with (vals m). solve_Permutation.
  - rewrite app_nil_r. destruct ch; [done|]. cbn [n_batches n_timers n_out n_lock n_chan n_recv]. rewrite concat_app. cbn [concat]. rewrite ?app_nil_r. solve_Permutation.
Qed.
Lemma run_there s os : concat (lost_from key max cap s os) ++ n_there (n_run key max cap s os) ≡ₚ n_there s ++ added_from key max cap s os.
Proof.
  revert s. induction os as [|o os IH]; intros s; [cbn; by rewrite app_nil_r|]. cbn [lost_from added_from]. unfold n_run. cbn [fold_left]. change (fold_left (n_step key max cap) os (n_step key max cap s o)) with (n_run key max cap (n_step key max cap s o) os).
  rewrite concat_app, <-app_assoc, (IH (n_step key max cap s o)), app_assoc, step_there. by rewrite <-app_assoc.
Qed.
Lemma lost_from_app s os1 os2 : lost_from key max cap s (os1 ++ os2) = lost_from key max cap s os1 ++ lost_from key max cap (n_run key max cap s os1) os2.
Proof. revert s. induction os1 as [|o os1 IH]; intros s; [done|]. cbn [lost_from app]. by rewrite IH, app_assoc. Qed.
Lemma n_run_app s os1 os2 : n_run key max cap s (os1 ++ os2) = n_run key max cap (n_run key max cap s os1) os2.
Proof. apply fold_left_app. Qed.
Lemma n_run_snoc s os o : n_run key max cap s (os ++ [o]) = n_step key max cap (n_run key max cap s os) o.
Proof. by rewrite n_run_app. Qed.
End proofs.

(** *** C245: what is not lost is there *)
(** Whatever is given up: the notifications received, in the channel, held or collected, and those of the lost batches, are the
    added ones, each as often. *)
Theorem C245_kept : ∀ A key max cap (os : list (nop A)), concat (n_lost key max cap os) ++ n_there (n_after key max cap os) ≡ₚ n_added key max cap os.
Proof. intros A key max cap os. apply (run_there key max cap n_new os). Qed.
Print Assumptions C245_kept.
(** If the receiver keeps up, giving up loses nothing. *)
Lemma roomy_out A key max cap (os : list (nop A)) : roomy key max cap os → n_lost key max cap os = [] ∧ Forall (λ w, w_waits w = false) (n_out (n_after key max cap os)) ∧ ∀ m, n_lock (n_after key max cap os) ≠ ByFlush m true.
Proof.
  induction os as [|o os IH] using rev_ind; intros Hr; [split; [done|]; by split; [constructor|]|]. destruct IH as (I1 & I2 & I3); [intros os1 os2 ->; apply (Hr os1 (os2 ++ [o])); by rewrite app_assoc|].
  assert (length (n_chan (n_after key max cap os)) < cap) as Hl by (by apply (Hr os [o])). unfold n_lost, n_after in *. rewrite lost_from_app, n_run_snoc, I1. cbn [app lost_from]. destruct (n_run key max cap n_new os) as [ba ti ou lo ch re]. cbn [n_out n_chan n_lock] in *. rewrite app_nil_r. clear I1.
  destruct o as [k x|i|i|k|i| | |j| | | |]; cbn [n_step lost_at n_batches n_timers n_out n_lock n_chan n_recv].
  - destruct lo; try (by split_and!). case_bool_decide; cbn [n_out n_lock]; (split_and!; [done| |done]); [|done]. apply Forall_app. split; [done|]. by constructor.
  - destruct (ou !! i) as [w|]; [|by split_and!]. destruct (room cap _); [|by split_and!]. cbn. split_and!; [done|by apply Forall_delete|done].
  - destruct (ou !! i) as [w|]; [|by split_and!]. unfold room. cbn [n_chan]. rewrite bool_decide_eq_true_2 by done. by split_and!.
  - split_and!; [|by apply filter_keeps|done]. assert (filter (λ w, waits_for k w = true) ou = []) as ->; [|done]. clear -I2. induction I2 as [|w l Hw _ IH]; [done|]. rewrite filter_cons_False; [done|]. unfold waits_for. rewrite Hw, andb_false_r. done.
  - destruct lo; try (by split_and!). destruct (ti !! i) as [j|]; [|by split_and!]. cbn. split_and!; [done|done|]. intros m. by destruct (ba !! j) as [[]|].
  - destruct lo; try (by split_and!). destruct (room cap _); by split_and!.
  - destruct lo; by split_and!.
  - destruct lo as [| |m wt]; try (by split_and!). destruct (m !! j) as [[|y b]|]; try (by split_and!). destruct (room cap _); by split_and!.
  - destruct lo as [| |m wt]; try (by split_and!). unfold room. cbn [n_chan]. rewrite bool_decide_eq_true_2 by done. by split_and!.
  - destruct lo as [| |m wt]; try (by split_and!). case_bool_decide; by split_and!.
  - destruct lo as [| |m []]; try (by split_and!). by destruct (I3 m).
  - destruct ch; by split_and!.
Qed.
Theorem C245_roomy_partial : ∀ A key max cap (os : list (nop A)), roomy key max cap os → n_there (n_after key max cap os) ≡ₚ n_added key max cap os.
Proof. intros A key max cap os Hr. rewrite <-(C245_kept A key max cap os). by rewrite (proj1 (roomy_out A key max cap os Hr)). Qed.
Print Assumptions C245_roomy_partial.

(** *** C245: what giving up an add loses *)
Lemma out_inv A (key : A → nat) max cap (os : list (nop A)) :
  (∀ j b, n_batches (n_after key max cap os) !! j = Some b → length b < Nat.max 1 max ∧ Forall (λ y, key y = j) b) ∧
  Forall (λ w, ∃ b x, w_batch w = b ++ [x] ∧ NAdd (w_by w) x ∈ os ∧ length b < Nat.max 1 max ∧ Forall (λ y, key y = key x) b) (n_out (n_after key max cap os)).
Proof.
  induction os as [|o os [I1 I2]] using rev_ind; [split; [intros j b Hb; cbn in Hb; by rewrite lookup_empty in Hb|constructor]|]. unfold n_after in *. rewrite n_run_snoc. destruct (n_run key max cap n_new os) as [ba ti ou lo ch re]. cbn [n_out n_batches] in *.
  assert (Forall (λ w, ∃ b x, w_batch w = b ++ [x] ∧ NAdd (w_by w) x ∈ os ++ [o] ∧ length b < Nat.max 1 max ∧ Forall (λ y, key y = key x) b) ou) as I3. { eapply Forall_impl; [exact I2|]. intros w (b & x & H1 & H2 & H3). exists b, x. split; [done|]. split; [|done]. apply elem_of_app. by left. }
  clear I2. destruct o as [k x|i|i|k|i| | |j| | | |]; cbn [n_step n_batches n_timers n_out n_lock n_chan n_recv].
  - destruct lo; try done. assert (length (default [] (ba !! key x)) < Nat.max 1 max ∧ Forall (λ y, key y = key x) (default [] (ba !! key x))) as [Hl Hf]. { destruct (ba !! key x) as [b|] eqn:E; cbn; [by apply I1|]. split; [lia|constructor]. }
    case_bool_decide as Hc; cbn [n_out n_batches].
    + split; [|apply Forall_app; split; [done|]; constructor; [|constructor]; eexists _, x; cbn [w_batch w_by]; split; [done|]; split; [|done]; apply elem_of_app; right; left]. intros j b Hb. apply lookup_insert_Some in Hb as [[_ <-]|[_ Hb]]; [|by apply I1]. split; [cbn; lia|constructor].
    + split; [|done]. intros j b Hb. apply lookup_insert_Some in Hb as [[<- <-]|[_ Hb]]; [|by apply I1]. split; [lia|]. apply Forall_app. split; [done|]. by constructor.
  - destruct (ou !! i) as [w|]; [|done]. destruct (room cap _); [|done]. cbn. split; [done|by apply Forall_delete].
  - destruct (ou !! i) as [w|] eqn:E; [|done]. destruct (room cap _); [done|]. cbn. split; [done|]. apply Forall_insert; [done|]. by apply (Forall_lookup_1 _ _ _ _ I3 E).
  - split; [done|by apply filter_keeps].
  - destruct lo; try done. destruct (ti !! i) as [j|]; [|done]. cbn. split; [|done]. intros j' b Hb. apply lookup_delete_Some in Hb as [_ Hb]. by apply I1.
  - destruct lo; try done. by destruct (room cap _).
  - by destruct lo.
  - destruct lo as [| |m wt]; try done. destruct (m !! j) as [[|y b]|]; try done. by destruct (room cap _).
  - destruct lo as [| |m wt]; try done. by destruct (room cap _).
  - destruct lo as [| |m wt]; try done. by case_bool_decide.
  - by destruct lo as [| |m []].
  - by destruct ch.
Qed.
(** It loses a batch of at most max_batch_size notifications, all of one kind, the last of which is the one that was being added. *)
Theorem C245_add : ∀ A (key : A → nat) max cap (os : list (nop A)) k b, b ∈ lost_at (n_after key max cap os) (NDrop k) →
  ∃ b' x, b = b' ++ [x] ∧ NAdd k x ∈ os ∧ length b' < Nat.max 1 max ∧ Forall (λ y, key y = key x) b'.
Proof.
  intros A key max cap os k b Hb. cbn in Hb. apply elem_of_list_fmap in Hb as (w & -> & Hw). apply elem_of_list_filter in Hw as [Hk Hw]. unfold waits_for in Hk. apply andb_true_iff in Hk as [Hk _]. apply bool_decide_eq_true in Hk.
  destruct (out_inv A key max cap os) as [_ H]. rewrite Forall_forall in H. destruct (H w Hw) as (b' & x & H1 & H2 & H3). rewrite Hk in H2. by exists b', x.
Qed.
Print Assumptions C245_add.
(** The notifications of other calls, which returned Ok before, are among them. *)
Theorem C245_others_refuted : ∀ A (key : A → nat) max cap (os1 os2 : list (nop A)) k x y b, let s := n_after key max cap os1 in let os := os1 ++ [NAdd k x; NWait (length (n_out s)); NDrop k] ++ os2 in
  n_lock s = Free → cap ≤ length (n_chan s) → n_batches s !! key x = Some b → max ≤ S (length b) → y ∈ b → NoDup (n_added key max cap os) → y ∉ n_there (n_after key max cap os).
Proof.
  intros A key max cap os1 os2 k x y b s os Hf Hc Hb Hl Hy Hn Hin. assert (y ∈ concat (n_lost key max cap os)) as Hlost.
  { unfold os, n_lost. rewrite !lost_from_app, !concat_app. apply elem_of_app. right. apply elem_of_app. left. change (n_run key max cap n_new os1) with s. cbn [lost_from lost_at app]. destruct s as [ba ti ou lo ch re]. cbn [n_batches n_chan n_out n_lock] in *. subst lo. cbn [n_step n_batches n_lock n_timers n_out n_chan n_recv]. rewrite Hb. cbn [default]. rewrite bool_decide_eq_true_2 by (unfold id; rewrite app_length; cbn; lia). cbn [n_step n_out n_chan]. rewrite list_lookup_middle by done. unfold room. cbn [n_chan]. rewrite bool_decide_eq_false_2 by lia. cbn [n_out w_by w_batch]. rewrite app_nil_r.
    rewrite insert_app_r_alt by done. rewrite Nat.sub_diag. cbn [insert list_insert]. rewrite filter_app, fmap_app, concat_app. apply elem_of_app. right. rewrite filter_cons_True by (unfold waits_for; cbn; by rewrite bool_decide_eq_true_2). cbn. apply elem_of_app. left. apply elem_of_app. by left. }
  rewrite <-(C245_kept A key max cap os) in Hn. apply NoDup_app in Hn as (_ & Hn & _). by apply (Hn y).
Qed.
Print Assumptions C245_others_refuted.

(** *** C245: what giving up a flush loses *)
(** Everything that was collected, of every kind, if the channel was full when flush was called. *)
Theorem C245_flush_refuted : ∀ A (key : A → nat) max cap (os1 os2 : list (nop A)) j b y, let s := n_after key max cap os1 in let os := os1 ++ [NFlush; NFlushWait; NFlushDrop] ++ os2 in
  n_lock s = Free → cap ≤ length (n_chan s) → n_batches s !! j = Some b → y ∈ b → NoDup (n_added key max cap os) → y ∉ n_there (n_after key max cap os).
Proof.
  intros A key max cap os1 os2 j b y s os Hf Hc Hb Hy Hn Hin. assert (y ∈ concat (n_lost key max cap os)) as Hlost.
  { unfold os, n_lost. rewrite !lost_from_app, !concat_app. apply elem_of_app. right. apply elem_of_app. left. change (n_run key max cap n_new os1) with s. cbn [lost_from lost_at app]. destruct s as [ba ti ou lo ch re]. cbn [n_batches n_chan n_out n_lock] in *. subst lo. cbn [n_step n_batches n_lock n_timers n_out n_chan n_recv]. unfold room. cbn [n_chan]. rewrite bool_decide_eq_false_2 by lia. cbn [n_lock]. rewrite app_nil_r. change ((map_to_list ba).*2) with (vals ba). rewrite (vals_lookup ba j), Hb. cbn [default]. apply elem_of_app. by left. }
  rewrite <-(C245_kept A key max cap os) in Hn. apply NoDup_app in Hn as (_ & Hn & _). by apply (Hn y).
Qed.
Print Assumptions C245_flush_refuted.
(** A flush that is not given up ends only when everything that was collected when it began was sent, whatever else goes on. *)
Theorem C245_flush : ∀ A (key : A → nat) max cap (s : nstate A) os j b, n_lock s = Free → NFlushDrop ∉ os → NFlushEnd ∉ os → n_batches s !! j = Some b → b ≠ [] →
  let s' := n_run key max cap s (NFlush :: os ++ [NFlushEnd]) in n_lock s' = Free → b ∈ n_recv s' ++ n_chan s'.
Proof.
  intros A key max cap s os j b Hf Hd He Hb Hne. assert (∃ m wt, n_lock (n_run key max cap s (NFlush :: os)) = ByFlush m wt ∧ (m !! j = Some b ∨ b ∈ n_recv (n_run key max cap s (NFlush :: os)) ++ n_chan (n_run key max cap s (NFlush :: os)))) as (m & wt & Hm & Hin).
  { induction os as [|o os IH] using rev_ind; [unfold n_run; cbn [fold_left n_step]; rewrite Hf; cbn [n_lock]; eexists _, _; split; [done|]; by left|].
    destruct IH as (m & wt & Hm & Hin); [intros H; apply Hd, elem_of_app; by left|intros H; apply He, elem_of_app; by left|]. change (NFlush :: os ++ [o]) with ((NFlush :: os) ++ [o]). rewrite n_run_snoc. destruct (n_run key max cap s (NFlush :: os)) as [ba ti ou lo ch re]. cbn [n_lock n_recv n_chan] in *. subst lo.
    destruct o as [k x|i|i|k|i| | |j'| | | |]; cbn [n_step n_lock n_batches n_timers n_out n_chan n_recv].
    - by exists m, wt.
    - destruct (ou !! i) as [w|]; [|by exists m, wt]. destruct (room cap _); [|by exists m, wt]. cbn [n_lock n_recv n_chan]. exists m, wt. split; [done|]. destruct Hin as [Hin|Hin]; [by left|]. right. rewrite app_assoc. apply elem_of_app. by left.
    - destruct (ou !! i) as [w|]; [|by exists m, wt]. destruct (room cap _); by exists m, wt.
    - by exists m, wt.
    - by exists m, wt.
    - by exists m, wt.
    - by exists m, wt.
    - destruct (m !! j') as [b'|] eqn:E; [|by exists m, wt]. destruct (decide (j' = j)) as [->|Hj].
      + destruct b' as [|y b']; [cbn [n_lock n_recv n_chan]; eexists _, _; split; [done|]; destruct Hin as [Hin|Hin]; [by rewrite E in Hin; injection Hin as <-|by right]|].
        destruct (room cap _); [|by exists m, wt]. cbn [n_lock n_recv n_chan]. eexists _, _. split; [done|]. right. rewrite app_assoc. apply elem_of_app. destruct Hin as [Hin|Hin]; [|by left]. right. rewrite E in Hin. injection Hin as <-. left.
      + destruct b' as [|y b']; [cbn [n_lock n_recv n_chan]; eexists _, _; split; [done|]; destruct Hin as [Hin|Hin]; [left; by rewrite lookup_delete_ne|by right]|].
        destruct (room cap _); [|by exists m, wt]. cbn [n_lock n_recv n_chan]. eexists _, _. split; [done|]. destruct Hin as [Hin|Hin]; [left; by rewrite lookup_delete_ne|]. right. rewrite app_assoc. apply elem_of_app. by left.
    - destruct (room cap _); [by exists m, wt|]. cbn [n_lock n_recv n_chan]. by eexists _, _.
    - destruct He. apply elem_of_app. right. left.
    - destruct Hd. apply elem_of_app. right. left.
    - destruct ch as [|c ch]; [by exists m, wt|]. cbn [n_lock n_recv n_chan]. exists m, wt. split; [done|]. by rewrite <-app_assoc. }
  change (NFlush :: os ++ [NFlushEnd]) with ((NFlush :: os) ++ [NFlushEnd]). cbv zeta. rewrite n_run_snoc. destruct (n_run key max cap s (NFlush :: os)) as [ba ti ou lo ch re]. cbn [n_lock n_recv n_chan n_step] in *. subst lo. case_bool_decide as Hm; [|done]. intros _. subst m. destruct Hin as [Hin|Hin]; [by rewrite lookup_empty in Hin|done].
Qed.
Print Assumptions C245_flush.

(** A channel of one; two kinds wait; a flush is given up, and an add too. *)
Example C245_example : let key := λ x : nat, x / 10 in let os := [NAdd 0 1; NAdd 0 2; NSend 0; NAdd 0 3; NAdd 0 11] in let s := n_after key 2 1 os in
  n_lock s = Free ∧ n_chan s = [[1; 2]] ∧ n_batches s !! 0 = Some [3] ∧ n_batches s !! 1 = Some [11] ∧
  n_lost key 2 1 (os ++ [NFlush; NFlushWait; NFlushDrop]) = [[3]; [11]] ∧ n_there (n_after key 2 1 (os ++ [NFlush; NFlushWait; NFlushDrop])) = [1; 2] ∧
  n_lost key 2 1 (os ++ [NAdd 5 4; NWait 0; NDrop 5]) = [[3; 4]] ∧ n_recv (n_after key 2 1 (os ++ [NFlush; NRecv; NFlushSend 0; NRecv; NFlushSend 0; NFlushSend 1; NFlushEnd; NRecv])) = [[1; 2]; [3]; [11]].
Proof. by vm_compute. Qed.
