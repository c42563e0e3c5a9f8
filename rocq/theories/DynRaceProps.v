(** C238: overlapping changes at runtime. *)
From stdpp Require Import gmap strings list.
From Verif Require Import TextLib JsonLib SerdeLib TypesModel RpcModel ServerModel DynModel DynSpec DynProofs DynProps DynRaceModel DynRaceSpec.

Lemma rc_snoc cf rs r : rc_run cf (rs ++ [r]) = rc_step cf (rc_run cf rs) r.
Proof. unfold rc_run. by rewrite fold_left_app. Qed.
Lemma changes_snoc cf rs r s : changes cf s (rs ++ [r]) = changes cf s rs ++ changes cf (fold_left (rc_step cf) rs s) [r].
Proof. revert s. induction rs as [|x rs IH]; intros s; cbn [changes app fold_left]; [done|]. rewrite IH. by rewrite <-app_assoc. Qed.
(** A whole call is its two halves. *)
Lemma step_halves cf m o : (d_step cf m o).1 = match to_tell m o with Some f => announce cf f (registered m o) | None => registered m o end.
Proof.
  destruct o; cbn [d_step to_tell registered fst]; try done.
  - destruct (mg_tools m !! n) eqn:E; [done|]. cbn [fst]. destruct m. unfold set_tools. cbn in *. by rewrite delete_notin.
  - destruct (mg_prompts m !! n) eqn:E; [done|]. cbn [fst]. destruct m. unfold set_prompts. cbn in *. by rewrite delete_notin.
Qed.
Lemma same_step m m' o : same_registries m m' → same_registries (registered m o) (registered m' o).
Proof. intros (H1 & H2 & H3 & H4 & H5). destruct o; unfold same_registries; cbn; rewrite ?H1, ?H2, ?H3, ?H4, ?H5; done. Qed.
Lemma same_told cf f m : same_registries (announce cf f m) m.
Proof. done. Qed.
Lemma same_refl m : same_registries m m. Proof. done. Qed.
Lemma same_trans m1 m2 m3 : same_registries m1 m2 → same_registries m2 m3 → same_registries m1 m3.
Proof. intros (A1 & A2 & A3 & A4 & A5) (B1 & B2 & B3 & B4 & B5). unfold same_registries. by rewrite A1, A2, A3, A4, A5. Qed.
Lemma same_sym m1 m2 : same_registries m1 m2 → same_registries m2 m1.
Proof. intros (A1 & A2 & A3 & A4 & A5). unfold same_registries. by rewrite A1, A2, A3, A4, A5. Qed.
Lemma same_d cf m o : same_registries (d_step cf m o).1 (registered m o).
Proof. rewrite step_halves. by destruct (to_tell m o). Qed.

(** ** C238 *)
(** Whatever overlaps, the registries are those of the changes made one after the other, in the order in which they were
    made (so C53 holds of them). *)
Theorem C238_registries : ∀ cf rs, same_registries (rc_manager (rc_run cf rs)) (d_run cf (changes cf racing_new rs) manager_new).
Proof.
  intros cf rs. induction rs as [|r rs IH] using rev_ind; [done|]. rewrite rc_snoc, changes_snoc. fold (rc_run cf rs). unfold d_run in *. rewrite fold_left_app. fold (d_run cf (changes cf racing_new rs) manager_new) in *.
  cbn [changes]. rewrite app_nil_r. destruct r as [t o|t]; cbn [rc_step].
  - destruct (rc_calls (rc_run cf rs) !! t); [exact IH|]. cbn [fold_left rc_manager]. eapply same_trans; [by apply same_step|]. apply same_sym, same_d.
  - destruct (rc_calls (rc_run cf rs) !! t); exact IH.
Qed.
Print Assumptions C238_registries.
(** Calls one after the other do what the model of whole calls says. *)
Theorem C238_sequential : ∀ cf os, rc_run cf (one_by_one os) = MkRacing (d_run cf os manager_new) ∅.
Proof.
  intros cf os. unfold rc_run, d_run, racing_new. generalize manager_new. induction os as [|o os IH]; intros m; [done|]. unfold one_by_one in *. cbn [mbind list_bind fold_left app].
  replace (rc_step cf (rc_step cf (MkRacing m ∅) (RChange 0 o)) (RTell 0)) with (MkRacing (d_step cf m o).1 ∅); [apply IH|].
  rewrite step_halves. cbn [rc_step rc_calls rc_manager]. rewrite lookup_empty. cbn [rc_calls rc_manager]. destruct (to_tell m o) as [f|].
  - cbn [rc_calls rc_manager]. rewrite lookup_insert. by rewrite delete_insert by apply lookup_empty.
  - cbn [rc_calls]. by rewrite lookup_empty.
Qed.
Print Assumptions C238_sequential.
(** Every change is announced once to each listener there is by then: finishing a call tells each of them, in the order in which
    they were added, and the call is over. *)
Theorem C238_told : ∀ cf rs t f, rc_calls (rc_run cf rs) !! t = Some f → let s := rc_run cf rs in let s' := rc_step cf s (RTell t) in
  (∀ l, told_to l (rc_manager s') = told_to l (rc_manager s) ++ (if decide (l < mg_listeners (rc_manager s)) then [f (cf_caps cf)] else [])) ∧
  rc_calls s' !! t = None ∧ rc_step cf s' (RTell t) = s'.
Proof.
  intros cf rs t f Ht s s'. subst s'. cbn [rc_step]. unfold s. rewrite Ht. cbn [rc_calls rc_manager]. split; [|by rewrite !lookup_delete].
  intros l. unfold told_to, announce. cbn [mg_told]. rewrite filter_app, fmap_app. f_equal. generalize (mg_listeners (rc_manager (rc_run cf rs))). intros n.
  assert (∀ k, snd <$> filter (λ x : nat * scaps, x.1 = l) ((λ l0 : nat, (l0, f (cf_caps cf))) <$> seq k n) = if decide (k ≤ l < k + n) then [f (cf_caps cf)] else []) as H.
  { induction n as [|n IH]; intros k; [cbn; by rewrite decide_False by lia|]. change (seq k (S n)) with (k :: seq (S k) n). rewrite fmap_cons. destruct (decide (k = l)) as [->|Hne].
    - rewrite filter_cons_True by done. rewrite fmap_cons, IH, decide_False by lia. by rewrite decide_True by lia.
    - rewrite filter_cons_False by done. rewrite IH. destruct (decide (S k ≤ l < S k + n)); [by rewrite decide_True by lia|by rewrite decide_False by lia]. }
  rewrite H. destruct (decide (0 ≤ l < 0 + n)); [by rewrite decide_True by lia|by rewrite decide_False by lia].
Qed.
Print Assumptions C238_told.
(** False that listeners end up knowing what there is: after any history, when a resource handler is set and removed by two calls
    that overlap, the last thing each listener is told is that there are resources, while there are none, and no call is left
    that would put it right. *)
Theorem C238_stale_refuted : ∀ cf rs t1 t2 h l, let s := rc_run cf rs in t1 ≠ t2 → rc_calls s !! t1 = None → rc_calls s !! t2 = None → l < mg_listeners (rc_manager s) →
  let s' := rc_run cf (rs ++ [RChange t1 (DResources (Some h)); RChange t2 (DResources None); RTell t2; RTell t1]) in
  mg_resources (rc_manager s') = None ∧ (∃ c, last (told_to l (rc_manager s')) = Some c ∧ sc_resources c = Some watched) ∧ rc_calls s' = rc_calls s.
Proof.
  intros cf rs t1 t2 h l s Hne H1 H2 Hl s'. unfold s'. unfold rc_run. rewrite fold_left_app. fold (rc_run cf rs). fold s. 
  set (a := rc_step cf s (RChange t1 (DResources (Some h)))). set (b := rc_step cf a (RChange t2 (DResources None))). set (c := rc_step cf b (RTell t2)).
  change (fold_left (rc_step cf) _ s) with (rc_step cf c (RTell t1)).
  assert (rc_calls c !! t1 = Some (with_resources (Some watched)) ∧ mg_resources (rc_manager c) = None ∧ mg_listeners (rc_manager c) = mg_listeners (rc_manager s) ∧ delete t1 (rc_calls c) = rc_calls s) as (E1 & E2 & E3 & E4).
  { unfold c, b, a. cbn [rc_step]. rewrite H1. cbn [rc_calls rc_manager to_tell]. rewrite (lookup_insert_ne _ t1 t2) by done. rewrite H2. cbn [rc_calls rc_manager]. rewrite lookup_insert. cbn [rc_calls rc_manager].
    rewrite delete_insert by (by rewrite lookup_insert_ne). rewrite lookup_insert. split; [done|]. split; [done|]. split; [done|]. by apply delete_insert. }
  assert (c = rc_run cf (rs ++ [RChange t1 (DResources (Some h)); RChange t2 (DResources None); RTell t2])) as Ec by (unfold rc_run; by rewrite fold_left_app).
  pose proof (C238_told cf (rs ++ [RChange t1 (DResources (Some h)); RChange t2 (DResources None); RTell t2]) t1 (with_resources (Some watched))) as H. rewrite <-Ec in H. destruct (H E1) as (K1 & _ & _).
  split; [cbn [rc_step]; rewrite E1; exact E2|]. split; [|cbn [rc_step]; rewrite E1; exact E4].
  exists (with_resources (Some watched) (cf_caps cf)). split; [|done]. rewrite K1, E3, decide_True by done. by rewrite last_snoc.
Qed.
Print Assumptions C238_stale_refuted.
Example C238_example :
  let s := rc_run ex_conf [RChange 0 DListen; RChange 1 (DAddTool (lit "a") 1); RChange 2 (DRemoveTool (lit "a")); RTell 2] in
  mg_listeners (rc_manager s) = 1 ∧ rc_calls s !! 3 = None ∧ rc_calls s !! 4 = None ∧ is_Some (rc_calls s !! 1) ∧ length (told_to 0 (rc_manager s)) = 1 ∧
  changes ex_conf racing_new [RChange 0 DListen; RChange 1 (DAddTool (lit "a") 1); RChange 2 (DRemoveTool (lit "a")); RTell 2] = [DListen; DAddTool (lit "a") 1; DRemoveTool (lit "a")].
Proof. cbv zeta. repeat split; try (by vm_compute). eexists. by vm_compute. Qed.
