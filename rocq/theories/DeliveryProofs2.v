(** Lemmas for debouncing under any schedule. *)
From stdpp Require Import gmap list.
From Verif Require Import DeliveryModel DeliverySpec.
Local Open Scope Z_scope.

Definition hold (x : task) : list (nat * nat) := match x with Holding k n => [(k, n)] | _ => [] end.
Definition held (m : gmap nat task) : list (nat * nat) := map_to_list m ≫= λ p, hold p.2.
Lemma bind_perm {A B} (f : A → list B) l1 l2 : l1 ≡ₚ l2 → l1 ≫= f ≡ₚ l2 ≫= f.
Proof. induction 1 as [|x l1 l2 _ IH|x y l|l1 l2 l3 _ IH1 _ IH2]; [done|cbn; by rewrite IH| |by rewrite IH1].
  rewrite !bind_cons, !app_assoc. f_equiv. apply (comm _).
Qed.
Lemma held_at m t x : m !! t = Some x → held m ≡ₚ hold x ++ held (delete t m).
Proof. intros H. unfold held. rewrite (bind_perm _ _ _ (symmetry (map_to_list_delete m t x H))). done. Qed.
Lemma held_delete m t : held (delete t m) ⊆+ held m.
Proof.
  destruct (m !! t) as [x|] eqn:E; [|by rewrite delete_notin]. rewrite (held_at m t x E). apply submseteq_inserts_l. done.
Qed.
Lemma held_insert m t y : held (<[t := y]> m) ≡ₚ hold y ++ held (delete t m).
Proof. rewrite (held_at _ t y) by apply lookup_insert. by rewrite delete_insert_delete. Qed.
Lemma held_deletes l : ∀ m, held (foldr delete m l) ⊆+ held m.
Proof. induction l as [|t l IH]; intros m; [done|]. cbn [foldr]. etrans; [apply held_delete|apply IH]. Qed.
Lemma pending_insert (m : gmap nat nat) k n : map_to_list (<[k := n]> m) ⊆+ (k, n) :: map_to_list m.
Proof.
  destruct (m !! k) as [x|] eqn:E.
  - rewrite <-insert_delete_insert, map_to_list_insert by apply lookup_delete. apply submseteq_skip.
    rewrite <-(map_to_list_delete m k x E). by apply submseteq_cons.
  - by rewrite map_to_list_insert.
Qed.
(** Everything that left, waits or is held was added, each time once. *)
Lemma debounce_inv wait os : ∀ s sent fl ins, sent.*2 = d_recv s ++ d_chan s →
  sent ++ fl ++ map_to_list (d_pending s) ++ held (d_tasks s) ⊆+ ins → let h := dhist wait s os in
  (sent ++ h.1.2).*2 = d_recv h.1.1 ++ d_chan h.1.1 ∧ (sent ++ h.1.2) ++ (fl ++ h.2) ++ map_to_list (d_pending h.1.1) ++ held (d_tasks h.1.1) ⊆+ ins ++ inserted os.
Proof.
  induction os as [|o os IH]; intros s sent fl ins Hs Hi; cbn zeta.
  - cbn. rewrite !app_nil_r. done.
  - cbn [dhist]. specialize (IH (dstep wait s o) (sent ++ sent_by s o) (fl ++ flushed_by s o) (ins ++ inserted [o])).
    destruct (dhist wait (dstep wait s o) os) as [[s2 se] f2] eqn:Eh. cbn [fst snd] in *.
    replace (ins ++ inserted (o :: os)) with ((ins ++ inserted [o]) ++ inserted os) by (unfold inserted; cbn; destruct o; cbn; by rewrite <-?app_assoc, ?app_nil_r).
    rewrite <-!app_assoc in IH. rewrite !app_assoc in IH. rewrite !app_assoc. apply IH; clear IH Eh s2 se f2.
    + destruct o; cbn [sent_by dstep]; rewrite ?app_nil_r; try done.
      * unfold d_cancel. by case_match.
      * unfold d_fire. repeat case_match; cbn; rewrite ?app_nil_r; try done. by rewrite fmap_app, Hs, <-app_assoc.
      * unfold d_unblock. repeat case_match; cbn; rewrite ?app_nil_r; try done. by rewrite fmap_app, Hs, <-app_assoc.
      * unfold d_finish. by repeat case_match.
      * unfold d_receive. destruct (d_chan s) eqn:E; [by rewrite E|]. cbn. by rewrite Hs, <-app_assoc.
    + assert (Hbase : ∀ p q, map_to_list p ++ held q ⊆+ map_to_list (d_pending s) ++ held (d_tasks s) → sent ++ fl ++ map_to_list p ++ held q ⊆+ ins).
      { intros p q H. etrans; [|exact Hi]. by do 2 apply submseteq_skips_l. }
      rewrite <-!app_assoc.
      destruct o as [k n|k|k now|k t|t now|t|t| | |]; cbn [sent_by flushed_by dstep inserted omap list_omap app]; rewrite ?app_nil_r; try (apply Hbase; done).
      * cbn [d_insert d_pending d_tasks]. etrans; [|apply submseteq_skips_r, Hi].
        rewrite <-!app_assoc. do 2 apply submseteq_skips_l. etrans; [apply submseteq_skips_r, (pending_insert _ k n)|]. solve_submseteq.
      * unfold d_cancel. case_match; [|by apply Hbase]. apply Hbase. cbn. apply submseteq_skips_l, held_delete.
      * cbn [d_spawn d_pending d_tasks]. apply Hbase. apply submseteq_skips_l. rewrite held_insert. cbn [hold app]. apply held_delete.
      * unfold d_fire. destruct (d_tasks s !! t) as [[k due| |]|] eqn:Et; try (cbn; by apply Hbase).
        case_match; [|cbn; by apply Hbase]. destruct (d_pending s !! k) as [n|] eqn:Ep.
        -- case_match; cbn [fst snd option_list d_pending d_tasks app].
           ++ etrans; [|exact Hi]. rewrite <-(map_to_list_delete _ k n Ep). rewrite held_insert. cbn [hold app].
              etrans; [do 4 apply submseteq_skips_l; apply (held_delete _ t)|]. solve_submseteq.
           ++ rewrite ?app_nil_r. etrans; [|exact Hi]. rewrite <-(map_to_list_delete _ k n Ep). rewrite held_insert. cbn [hold app].
              etrans; [do 4 apply submseteq_skips_l; apply submseteq_skip, (held_delete _ t)|]. solve_submseteq.
        -- cbn. rewrite ?app_nil_r. apply Hbase. apply submseteq_skips_l. rewrite held_insert. cbn [hold app]. apply held_delete.
      * unfold d_unblock. destruct (d_tasks s !! t) as [[|k n|]|] eqn:Et; try (cbn; rewrite ?app_nil_r; by apply Hbase).
        case_match; [|cbn; rewrite ?app_nil_r; by apply Hbase]. cbn [fst snd option_list d_pending d_tasks app].
        etrans; [|exact Hi]. rewrite (held_at _ _ _ Et), held_insert. cbn [hold app]. solve_submseteq.
      * unfold d_finish. repeat case_match; try by apply Hbase. apply Hbase. cbn. apply submseteq_skips_l, held_delete.
      * cbn [d_abort_all d_pending d_tasks]. apply Hbase. apply submseteq_skips_l, held_deletes.
      * unfold d_receive. case_match; by apply Hbase.
Qed.
Lemma debounce_run wait os s sent fl : dhist wait debouncer_new os = (s, sent, fl) →
  sent.*2 = d_recv s ++ d_chan s ∧ sent ++ fl ++ map_to_list (d_pending s) ++ held (d_tasks s) ⊆+ inserted os.
Proof.
  intros H. destruct (debounce_inv wait os debouncer_new [] [] []) as [H1 H2]; [done| |].
  - cbn. unfold held. rewrite !map_to_list_empty. done.
  - rewrite H in H1, H2. cbn [fst snd app] in *. done.
Qed.
