(** Lemmas about the resource watcher. *)
From stdpp Require Import gmap strings list.
From Verif Require Import TextLib SerdeLib WatchModel WatchSpec.
Local Open Scope Z_scope.

Lemma quiet_spec d now ts : quiet_for d now ts = true ↔ ripe d now ts.
Proof. unfold quiet_for, ripe. rewrite Z.leb_le. lia. Qed.
Lemma quiet_spec' d now ts : quiet_for d now ts = false ↔ ¬ ripe d now ts.
Proof. rewrite <- quiet_spec. by destruct (quiet_for d now ts). Qed.
Global Instance file_inj : Inj (=) (=) file_uri.
Proof. intros a b H. unfold file_uri in H. by apply app_inv_head in H. Qed.
Section watch.
  Context (d : Z) (mx : nat).
  Local Notation run := (w_run d mx).
  Local Notation step := (w_step d mx).
  Lemma run_snoc os o : run (os ++ [o]) = step (run os) o.
  Proof. unfold w_run. by rewrite fold_left_app. Qed.
  Definition all (w : watcher) : gmap text Z := received (w_queue w) (w_pending w).
  Lemma all_event w p ts : all (step w (WEvent p ts)) = <[p := ts]> (all w).
  Proof. unfold all. cbn. unfold received. by rewrite fold_left_app. Qed.
  Lemma all_tick w now : all (step w (WTick now)) = filter (λ e : text * Z, quiet_for d now e.2 = false) (all w).
  Proof. done. Qed.
  Lemma unannounced_snoc p ts h o : unannounced d p ts (h ++ [o]) ↔
    o = WEvent p ts ∨ ((∀ ts', o ≠ WEvent p ts') ∧ (∀ now, o = WTick now → ¬ ripe d now ts) ∧ unannounced d p ts h).
  Proof.
    split.
    - intros (l1 & l2 & E & He & Ht). destruct l2 as [|x l2 _] using rev_ind.
      + left. by apply app_inj_tail in E as [_ ->].
      + right. change (WEvent p ts :: l2 ++ [x]) with ((WEvent p ts :: l2) ++ [x]) in E. rewrite app_assoc in E. apply app_inj_tail in E as [-> ->].
        split; [intros ts' ->; apply (He ts'), elem_of_app; right; by left|]. split; [intros now ->; apply Ht, elem_of_app; right; by left|].
        exists l1, l2. split; [done|]. split; [intros ts' H; apply (He ts'), elem_of_app; by left|]. intros now H. apply Ht, elem_of_app. by left.
    - intros [->|(H1 & H2 & l1 & l2 & -> & He & Ht)]; [exists h, []; split; [done|]; split; [by intros ? ?%elem_of_nil|by intros ? ?%elem_of_nil]|].
      exists l1, (l2 ++ [o]). split; [by rewrite <- app_assoc|]. split.
      + intros ts' [H|H%elem_of_list_singleton]%elem_of_app; [by eapply He|by eapply H1].
      + intros now [H|H%elem_of_list_singleton]%elem_of_app; [by eapply Ht|by eapply H2].
  Qed.
  Lemma all_run h p ts : all (run h) !! p = Some ts ↔ unannounced d p ts h.
  Proof.
    induction h as [|o h IH] using rev_ind.
    - cbn. rewrite lookup_empty. split; [done|]. intros (l1 & l2 & E & _). by destruct l1.
    - rewrite run_snoc, unannounced_snoc. destruct o as [q ts'|now|u i|u].
      + rewrite all_event. destruct (decide (q = p)) as [->|Hq].
        * rewrite lookup_insert. split; [intros [= ->]; by left|]. intros [[= ->]|(H & _)]; [done|]. by destruct (H ts').
        * rewrite lookup_insert_ne by done. rewrite IH. split; [intros H; right; split; [intros ? ?; congruence|]; split; [done|done]|]. intros [?|(_ & _ & H)]; [congruence|done].
      + rewrite all_tick, map_filter_lookup_Some, IH. cbn [snd]. rewrite quiet_spec'. split.
        * intros [H1 H2]. right. split; [done|]. split; [intros now' [= ->]; done|done].
        * intros [?|(_ & H2 & H1)]; [done|]. split; [done|]. by apply H2.
      + cbn [w_step]. transitivity (unannounced d p ts h). { rewrite <- IH. by destruct (mx <=? _)%nat. } split; [intros H; by right|]. intros [?|(_ & _ & H)]; done.
      + transitivity (unannounced d p ts h); [by rewrite <- IH|]. split; [intros H; by right|]. intros [?|(_ & _ & H)]; done.
  Qed.
  Lemma tick_spec h now : ∃ l, w_sent (run (h ++ [WTick now])) = w_sent (run h) ++ l ∧ NoDup l ∧
    ∀ u, u ∈ l ↔ ∃ p ts, u = file_uri p ∧ unannounced d p ts h ∧ ripe d now ts ∧ tracked (run h) u.
  Proof.
    rewrite run_snoc. cbn [w_step]. unfold tick. cbn [w_sent]. eexists. split; [done|]. fold (all (run h)). split.
    - apply NoDup_filter. apply NoDup_fmap_2_strong.
      + intros [p ts] [q ts'] [_ H1]%elem_of_list_filter [_ H2]%elem_of_list_filter E. cbn in E. simplify_eq. apply elem_of_map_to_list in H1, H2. congruence.
      + apply NoDup_filter, NoDup_map_to_list.
    - intros u. rewrite elem_of_list_filter, elem_of_list_fmap. split.
      + intros [Ht ([p ts] & -> & [Hq Hin]%elem_of_list_filter)]. apply elem_of_map_to_list in Hin. cbn in Hq. exists p, ts. split; [done|]. split; [by apply all_run|]. split; [by apply quiet_spec|done].
      + intros (p & ts & -> & Hu & Hr & Ht). split; [done|]. exists (p, ts). split; [done|]. apply elem_of_list_filter. split; [by apply quiet_spec|]. by apply elem_of_map_to_list, all_run.
  Qed.
  Lemma other_sent h o : (∀ now, o ≠ WTick now) → w_sent (run (h ++ [o])) = w_sent (run h).
  Proof. intros H. rewrite run_snoc. destruct o as [q ts'|now|u i|u]; cbn [w_step]; try done; [by destruct (H now)|]. by destruct (mx <=? _)%nat. Qed.
  Lemma count_in (l : list text) u : NoDup l → length (filter (λ v, v = u) l) = if decide (u ∈ l) then 1%nat else 0%nat.
  Proof.
    induction l as [|x l IH]; intros Hn; [done|]. apply NoDup_cons in Hn as [Hx Hn]. destruct (decide (x = u)) as [->|Hne].
    - rewrite filter_cons_True by done. cbn [length]. rewrite IH by done. rewrite (decide_False (P := u ∈ l)) by done. by rewrite decide_True by (by left).
    - rewrite filter_cons_False by done. rewrite IH by done. destruct (decide (u ∈ l)) as [H|H]; [by rewrite decide_True by (by right)|]. rewrite decide_False; [done|]. intros [?|?]%elem_of_cons; [congruence|done].
  Qed.
  Lemma announced_step h o p ts : unannounced d p ts h → tracked (run h) (file_uri p) → announced (file_uri p) (run (h ++ [o])) = (announced (file_uri p) (run h) + match o with WTick now => if quiet_for d now ts then 1 else 0 | _ => 0 end)%nat.
  Proof.
    intros Hu Ht. unfold announced. destruct o as [q ts'|now|u i|u]; try (rewrite other_sent by done; lia). destruct (tick_spec h now) as (l & -> & Hn & Hl). rewrite filter_app, app_length. f_equal. rewrite count_in by done.
    destruct (quiet_for d now ts) eqn:E.
    - rewrite decide_True; [done|]. apply Hl. exists p, ts. split; [done|]. split; [done|]. split; [by apply quiet_spec|done].
    - rewrite decide_False; [done|]. intros (q & ts' & Eq & Hu' & Hr & _)%Hl. simplify_eq. apply all_run in Hu, Hu'. rewrite Hu in Hu'. simplify_eq. apply quiet_spec in Hr. congruence.
  Qed.
  Lemma announced_not h o p : (∀ ts, ¬ unannounced d p ts h) → announced (file_uri p) (run (h ++ [o])) = announced (file_uri p) (run h).
  Proof.
    intros Hu. unfold announced. destruct o as [q ts'|now|u i|u]; try (by rewrite other_sent by done). destruct (tick_spec h now) as (l & -> & Hn & Hl). rewrite filter_app, app_length. rewrite (count_in l) by done.
    rewrite decide_False; [lia|]. intros (q & ts' & Eq & Hu' & _)%Hl. simplify_eq. by eapply Hu.
  Qed.
  Definition seen_quiet (ts : Z) (l : list wop) : bool := existsb (λ o, match o with WTick now => quiet_for d now ts | _ => false end) l.
  Lemma once h p ts l : (∀ ts', WEvent p ts' ∉ l) → (∀ l1 l2, l = l1 ++ l2 → tracked (run (h ++ WEvent p ts :: l1)) (file_uri p)) →
    announced (file_uri p) (run (h ++ WEvent p ts :: l)) = (announced (file_uri p) (run h) + if seen_quiet ts l then 1 else 0)%nat ∧
    (if seen_quiet ts l then ∀ ts', ¬ unannounced d p ts' (h ++ WEvent p ts :: l) else unannounced d p ts (h ++ WEvent p ts :: l)).
  Proof.
    intros He Ht. induction l as [|o l IH] using rev_ind.
    - cbn. split; [unfold announced; rewrite other_sent by done; lia|apply unannounced_snoc; by left].
    - assert (h ++ WEvent p ts :: l ++ [o] = (h ++ WEvent p ts :: l) ++ [o]) as E by (by rewrite <- app_assoc). rewrite E in *. clear E.
      destruct IH as [IH1 IH2]; [intros ts' H; apply (He ts'), elem_of_app; by left|intros l1 l2 ->; apply (Ht l1 (l2 ++ [o])); by rewrite app_assoc|].
      specialize (Ht l [o] eq_refl). assert (∀ ts', o ≠ WEvent p ts') as Ho by (intros ts' ->; apply (He ts'), elem_of_app; right; by left).
      assert (seen_quiet ts (l ++ [o]) = seen_quiet ts l || match o with WTick now => quiet_for d now ts | _ => false end) as -> by (unfold seen_quiet; rewrite existsb_app; cbn; by rewrite orb_false_r).
      destruct (seen_quiet ts l); cbn [orb].
      + rewrite announced_not by done. split; [done|]. intros ts' [->|(_ & _ & H)]%unannounced_snoc; [by destruct (Ho ts')|by eapply IH2].
      + rewrite (announced_step _ _ _ _ IH2 Ht), IH1. destruct o as [q ts'|now|u i|u].
        * split; [lia|]. apply unannounced_snoc. by right.
        * destruct (quiet_for d now ts) eqn:Eq; (split; [lia|]).
          -- intros ts' [?|(_ & H2 & H3)]%unannounced_snoc; [done|]. assert (ts' = ts) as -> by (apply all_run in H3, IH2; congruence). eapply H2; [done|]. by apply quiet_spec.
          -- apply unannounced_snoc. right. split; [done|]. split; [|done]. intros now' [= <-]. by apply quiet_spec'.
        * split; [lia|]. apply unannounced_snoc. by right.
        * split; [lia|]. apply unannounced_snoc. by right.
  Qed.
  Lemma seen_quiet_spec ts l : seen_quiet ts l = true ↔ ∃ now, WTick now ∈ l ∧ ripe d now ts.
  Proof.
    unfold seen_quiet. rewrite existsb_exists. split.
    - intros (o & Ho%elem_of_list_In & H). destruct o; try done. exists now. by rewrite <- quiet_spec.
    - intros (now & Ho%elem_of_list_In & H). exists (WTick now). split; [done|]. by apply quiet_spec.
  Qed.
  (** Announcements of what is not tracked *)
  Lemma untracked h o u : ¬ tracked (run h) u → announced u (run (h ++ [o])) = announced u (run h).
  Proof.
    intros Hu. unfold announced. destruct o as [q ts'|now|v i|v]; try (by rewrite other_sent by done). destruct (tick_spec h now) as (l & -> & Hn & Hl). rewrite filter_app, app_length. rewrite (count_in l) by done.
    rewrite decide_False; [lia|]. intros (q & ts' & Eq & Hu' & _ & Ht)%Hl. done.
  Qed.
End watch.
