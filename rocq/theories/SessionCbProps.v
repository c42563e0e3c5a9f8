(** C237: the callbacks of the session manager. *)
From stdpp Require Import gmap strings list.
From Verif Require Import ListLib TextLib SessionModel SessionSpec SessionProofs SessionCbModel SessionCbSpec.

Lemma log_snoc M T h o m : cb_log M T m (h ++ [o]) = cb_log M T m h ++ cb_step T (sruns M T m h) o.
Proof. revert m. induction h as [|x h IH]; intros m; cbn [cb_log app]; [by rewrite app_nil_r|]. rewrite IH, <-app_assoc. done. Qed.
Lemma begun_app id l l' : begun id (l ++ l') = begun id l + begun id l'.
Proof. unfold begun. by rewrite filter_app, app_length. Qed.
Lemma ended_app id l l' : ended id (l ++ l') = ended id l + ended id l'.
Proof. unfold ended. by rewrite filter_app, app_length. Qed.
Lemma restored_snoc M T id h o m : restored M T id m (h ++ [o]) = restored M T id m h + restored M T id (sruns M T m h) [o].
Proof. revert m. induction h as [|x h IH]; intros m; cbn [restored app]; [done|]. rewrite IH. cbn [restored]. change (sruns M T m (x :: h)) with (sruns M T (sexec M T m x).1 h). lia. Qed.
Lemma begun_1 id s : begun id [OnCreate s] = if decide (s_id s = id) then 1 else 0.
Proof. unfold begun. rewrite filter_cons. destruct (decide (s_id s = id)) as [E|E]; [by rewrite decide_True by (cbn; by rewrite E)|rewrite decide_False by (cbn; congruence); done]. Qed.
Lemma ended_1 id s : ended id [OnDestroy s] = if decide (s_id s = id) then 1 else 0.
Proof. unfold ended. rewrite filter_cons. destruct (decide (s_id s = id)) as [E|E]; [by rewrite decide_True by (cbn; by rewrite E)|rewrite decide_False by (cbn; congruence); done]. Qed.
Lemma expired_1 id s : ended id [OnExpire s] = if decide (s_id s = id) then 1 else 0.
Proof. unfold ended. rewrite filter_cons. destruct (decide (s_id s = id)) as [E|E]; [by rewrite decide_True by (cbn; by rewrite E)|rewrite decide_False by (cbn; congruence); done]. Qed.
Lemma begun_x id s : begun id [OnDestroy s] = 0 ∧ begun id [OnExpire s] = 0 ∧ ended id [OnCreate s] = 0.
Proof. done. Qed.
(** One step: what is reported is the change. *)
Lemma step_balance M T m o id : (∀ id s, sessions m !! id = Some s → s_id s = id) → (∀ t id' now, o = CreateInsert t id' now → sessions m !! id' = None) →
  live id m + begun id (cb_step T m o) + restored M T id m [o] = live id (sexec M T m o).1 + ended id (cb_step T m o).
Proof.
  intros Hid Hnew. assert (∀ ss c, live id (MkMgr ss c) = match ss !! id with Some _ => 1 | None => 0 end) as Hl by done.
  destruct o as [t c|t i now|t v i now|t|t now|i f now|i|t now|t]; cbn [cb_step sexec restored]; rewrite ?Nat.add_0_r.
  - destruct (calls m !! t); [done|]. by destruct (decide _).
  - destruct (calls m !! t) as [[c| | |]|]; try done. rewrite begun_1. cbn [fst]. rewrite Hl. cbn [s_id fresh_session]. specialize (Hnew _ _ _ eq_refl). cbn. destruct (decide (i = id)) as [->|Hne].
    + rewrite lookup_insert. unfold live. rewrite Hnew. done.
    + rewrite lookup_insert_ne by done. unfold live. by destruct (sessions m !! id).
  - destruct (calls m !! t); [done|]. by destruct (sessions m !! i).
  - destruct (calls m !! t) as [[c|v i s| |]|]; try done. 
    assert (live id m + (if bool_decide (i = id ∧ sessions m !! id = None) then 1 else 0) = match (<[i:=s]> (sessions m)) !! id with Some _ => 1 | None => 0 end) as E.
    { unfold live. destruct (decide (i = id)) as [->|Hne]; [rewrite lookup_insert|rewrite lookup_insert_ne by done]; case_bool_decide as Hb.
      - by rewrite (proj2 Hb). - destruct (sessions m !! id); [done|]. exfalso. by apply Hb. - by destruct Hb. - lia. }
    destruct v; cbn [fst]; rewrite Hl; cbn; lia.
  - destruct (calls m !! t) as [[| |i s|]|]; try done. destruct (decide _); [|done]. cbn [fst]. rewrite Hl. destruct (sessions m !! i) as [s'|] eqn:Es.
    + rewrite ended_1, (Hid _ _ Es). cbn. unfold live. destruct (decide (i = id)) as [->|Hne]; [by rewrite lookup_delete, Es|]. rewrite lookup_delete_ne by done. by destruct (sessions m !! id).
    + rewrite delete_notin by done. cbn. unfold live. by destruct (sessions m !! id).
  - destruct (sessions m !! i) as [s|] eqn:Es; [|done]. cbn [fst]. rewrite Hl. cbn. unfold live. destruct (decide (i = id)) as [->|Hne]; [by rewrite lookup_insert, Es|]. rewrite lookup_insert_ne by done. by destruct (sessions m !! id).
  - destruct (sessions m !! i) as [s'|] eqn:Es; [|done]. cbn [fst]. rewrite Hl, ended_1, (Hid _ _ Es). cbn. unfold live. destruct (decide (i = id)) as [->|Hne]; [by rewrite lookup_delete, Es|]. rewrite lookup_delete_ne by done. by destruct (sessions m !! id).
  - by destruct (calls m !! t).
  - destruct (calls m !! t) as [[| | |[|i ids]]|]; try done. cbn [fst]. rewrite Hl. destruct (sessions m !! i) as [s'|] eqn:Es.
    + rewrite expired_1, (Hid _ _ Es). cbn. unfold live. destruct (decide (i = id)) as [->|Hne]; [by rewrite lookup_delete, Es|]. rewrite lookup_delete_ne by done. by destruct (sessions m !! id).
    + rewrite delete_notin by done. cbn. unfold live. by destruct (sessions m !! id).
Qed.

(** ** C237 *)
(** In every interleaving, the reports of a session add up: beginnings reported and sessions put back by a lookup are the ends
    reported and the session that is there. *)
Theorem C237_balance : ∀ M T h id, Forall keeps_expiry h → new_ids M T h →
  let l := cb_log M T mgr0 h in begun id l + restored M T id mgr0 h = ended id l + live id (sruns M T mgr0 h).
Proof.
  intros M T h id. induction h as [|o h IH] using rev_ind; intros Hk Hn l; [done|]. apply Forall_app in Hk as [Hk _].
  assert (new_ids M T h) as Hn' by (intros h1 t i now h2 ->; apply (Hn h1 t i now (h2 ++ [o])); by rewrite <-app_assoc).
  specialize (IH Hk Hn'). cbn zeta in IH. subst l. rewrite log_snoc, begun_app, ended_app, restored_snoc. 
  pose proof (step_balance M T (sruns M T mgr0 h) o id) as H. rewrite sruns_snoc. 
  assert (live id (sruns M T mgr0 h) + begun id (cb_step T (sruns M T mgr0 h) o) + restored M T id (sruns M T mgr0 h) [o] = live id (sexec M T (sruns M T mgr0 h) o).1 + ended id (cb_step T (sruns M T mgr0 h) o)) as E; [|lia].
  apply H.
  - intros i s Hs. by apply (proj1 (good_runs M T h Hk)) in Hs as [-> _].
  - intros t i now ->. by apply (Hn h t i now []).
Qed.
Print Assumptions C237_balance.
(** So without such lookups each session that began was reported to end once, or is still there. *)
Theorem C237_once_partial : ∀ M T h id, Forall keeps_expiry h → new_ids M T h → restored M T id mgr0 h = 0 →
  let l := cb_log M T mgr0 h in (sessions (sruns M T mgr0 h) !! id = None → begun id l = ended id l) ∧ (is_Some (sessions (sruns M T mgr0 h) !! id) → begun id l = S (ended id l)).
Proof.
  intros M T h id Hk Hn Hr l. pose proof (C237_balance M T h id Hk Hn) as H. cbn zeta in H. fold l in H. rewrite Hr in H. unfold live in H. split; [intros E; rewrite E in H; lia|intros [s E]; rewrite E in H; lia].
Qed.
Print Assumptions C237_once_partial.
(** The sessions reported are those concerned: a creation reports the session it returns, and a removal the session it removed.
    (Every state a history without changes of ids and dates leads to meets the condition: SessionProofs.good_runs.) *)
Theorem C237_which : ∀ M T m o, (∀ id s, sessions m !! id = Some s → s_id s = id) →
  (∀ s, OnCreate s ∈ cb_step T m o ↔ (∃ t id now, o = CreateInsert t id now) ∧ (sexec M T m o).2 = RSession s) ∧
  (∀ s, OnDestroy s ∈ cb_step T m o ∨ OnExpire s ∈ cb_step T m o ↔ sessions m !! s_id s = Some s ∧ sessions (sexec M T m o).1 !! s_id s = None).
Proof.
  intros M T m o Hid. split; intros s.
  - split.
    + intros H. destruct o; cbn [cb_step] in H; cbn [sexec]; repeat case_match; try (by apply elem_of_nil in H); apply elem_of_list_singleton in H; simplify_eq. split; [by eauto|done].
    + intros [(t & id & now & ->) H]. cbn [cb_step sexec] in *. destruct (calls m !! t) as [[]|]; try done. cbn [snd] in H. injection H as <-. by apply elem_of_list_singleton.
  - assert (∀ i s', sessions m !! i = Some s' → (s' = s ↔ sessions m !! s_id s = Some s ∧ delete i (sessions m) !! s_id s = None)) as Hdel.
    { intros i s' Hs'. split.
      - intros ->. rewrite (Hid _ _ Hs'). by rewrite lookup_delete.
      - intros [H1 H2]. apply lookup_delete_None in H2 as [->|H2]; [|by rewrite H1 in H2]. rewrite Hs' in H1. by injection H1. }
    assert (∀ ss' : gmap string session, (sessions m !! s_id s = Some s → ss' !! s_id s = None → False) → OnDestroy s ∈ [] ∨ OnExpire s ∈ [] ↔ sessions m !! s_id s = Some s ∧ ss' !! s_id s = None) as H0 by (intros ss' Hf; split; [intros [H|H]; by apply elem_of_nil in H|intros [H1 H2]; by destruct (Hf H1 H2)]).
    assert (∀ s', OnDestroy s ∈ [OnDestroy s'] ∨ OnExpire s ∈ [OnDestroy s'] ↔ s' = s) as HD by (intros s'; rewrite !elem_of_list_singleton; naive_solver).
    assert (∀ s', OnDestroy s ∈ [OnExpire s'] ∨ OnExpire s ∈ [OnExpire s'] ↔ s' = s) as HE by (intros s'; rewrite !elem_of_list_singleton; naive_solver).
    destruct o as [t c|t i now|t v i now|t|t now|i f now|i|t now|t]; cbn [cb_step sexec].
    + apply H0. destruct (calls m !! t); [|destruct (decide _)]; cbn; congruence.
    + destruct (calls m !! t) as [[]|]; try (apply H0; cbn; congruence). split; [intros [H|H]; apply elem_of_list_singleton in H; done|]. cbn [fst sessions]. intros [H1 H2]. apply lookup_insert_None in H2 as [H2 _]. congruence.
    + apply H0. destruct (calls m !! t); [|destruct (sessions m !! i)]; cbn; congruence.
    + apply H0. destruct (calls m !! t) as [[| [] | |]|]; cbn [fst sessions]; try congruence; intros H1 H2; apply lookup_insert_None in H2 as [H2 _]; congruence.
    + destruct (calls m !! t) as [[| |i s'|]|]; try (apply H0; cbn; congruence). destruct (decide _); [|apply H0; cbn; congruence]. cbn [fst sessions]. destruct (sessions m !! i) as [s''|] eqn:Es.
      * rewrite HD. by apply Hdel.
      * apply H0. rewrite delete_notin by done. congruence.
    + apply H0. destruct (sessions m !! i); cbn [fst sessions]; [|congruence]. intros H1 H2. apply lookup_insert_None in H2 as [H2 _]. congruence.
    + destruct (sessions m !! i) as [s''|] eqn:Es; [|apply H0; cbn; congruence]. rewrite HD. by apply Hdel.
    + apply H0. destruct (calls m !! t); cbn; congruence.
    + destruct (calls m !! t) as [[| | |[|i ids]]|]; try (apply H0; cbn; congruence). cbn [fst sessions]. destruct (sessions m !! i) as [s''|] eqn:Es.
      * rewrite HE. by apply Hdel.
      * apply H0. rewrite delete_notin by done. congruence.
Qed.
Print Assumptions C237_which.
(** cleanup_expired, nothing interfering, reports as expired exactly the sessions that have expired. *)
Theorem C237_cleanup : ∀ M T m now n, calls m !! 0 = None → size (sessions m) ≤ n →
  let l := cb_log M T m (CleanCollect 0 now :: replicate n (CleanRemove 0)) in
  ∀ c, c ∈ l ↔ ∃ id s, c = OnExpire s ∧ sessions m !! id = Some s ∧ (s_expires s < now)%Z.
Proof.
  intros M T m now n Hc Hn l c. subst l. cbn [cb_log]. cbn [cb_step sexec]. rewrite Hc. cbn [app fst].
  set (old := filter _ _). assert (NoDup old) as Hnd by (apply NoDup_filter, NoDup_fst_map_to_list).
  assert (∀ id, id ∈ old ↔ ∃ s, sessions m !! id = Some s ∧ (s_expires s < now)%Z) as Hin.
  { intros id. unfold old. rewrite elem_of_list_filter. split.
    - intros [H1 H2]. unfold is_old in H1. destruct (sessions m !! id) as [s|]; [|done]. apply bool_decide_eq_true in H1. by eauto.
    - intros (s & Hs & Ho). split; [rewrite Hs; by apply bool_decide_eq_true|]. apply elem_of_list_fmap. exists (id, s). split; [done|]. by apply elem_of_map_to_list. }
  assert (length old ≤ n) as Hl. { etrans; [apply filter_length|]. rewrite fmap_length. done. }
  assert (∀ ids n ss c0 c, NoDup ids → length ids ≤ n → c ∈ cb_log M T (MkMgr ss (<[0 := PClean ids]> c0)) (replicate n (CleanRemove 0)) ↔ ∃ id s, id ∈ ids ∧ c = OnExpire s ∧ ss !! id = Some s) as H.
  { clear. intros ids. induction ids as [|id ids IH]; intros n ss c0 c Hnd Hl.
    - split; [|by intros (? & ? & ?%elem_of_nil & _)]. intros H. exfalso. assert (∀ n c0, (c0 !! 0 = Some (PClean []) ∨ c0 !! 0 = None) → cb_log M T (MkMgr ss c0) (replicate n (CleanRemove 0)) = []) as E.
      { clear. induction n as [|n IH]; intros c0 Hc; [done|]. cbn [replicate cb_log cb_step sexec calls sessions]. destruct Hc as [Hc|Hc]; rewrite Hc; cbn [fst app]; apply IH; [right; by rewrite lookup_delete|by right]. }
      rewrite E in H; [by apply elem_of_nil in H|]. left. by rewrite lookup_insert.
    - destruct n as [|n]; [cbn in Hl; lia|]. apply NoDup_cons in Hnd as [Hni Hnd]. cbn [replicate cb_log cb_step sexec calls sessions]. rewrite lookup_insert. cbn [fst calls sessions]. rewrite insert_insert, elem_of_app, IH by (done || cbn in Hl; lia).
      split.
      + intros [H|(id' & s & H1 & -> & H2)].
        * destruct (ss !! id) as [s|] eqn:Es; [|by apply elem_of_nil in H]. apply elem_of_list_singleton in H as ->. exists id, s. split; [by left|done].
        * apply lookup_delete_Some in H2 as [_ H2]. exists id', s. split; [by right|done].
      + intros (id' & s & [->|H1]%elem_of_cons & -> & H2); [left; rewrite H2; by left|]. right. exists id', s. split; [done|]. split; [done|]. rewrite lookup_delete_ne; [done|]. by intros ->. }
  rewrite H by done. split.
  - intros (id & s & H1 & -> & H2). exists id, s. split; [done|]. split; [done|]. apply Hin in H1 as (s' & H1 & H3). congruence.
  - intros (id & s & -> & H1 & H2). exists id, s. split; [|done]. apply Hin. by eauto.
Qed.
Print Assumptions C237_cleanup.
(** False that an expired session is reported as expired: found by validate_session it is reported as destroyed. *)
Theorem C237_expired_refuted : ∀ M T m id s now now', calls m !! 0 = None → sessions m !! id = Some s → (s_expires s < now')%Z →
  cb_log M T m [GetRead 0 true id now; GetWrite 0; ValidateEnd 0 now'] = [OnDestroy (touch now s)].
Proof.
  intros M T m id s now now' Hc Hs He. cbn [cb_log cb_step sexec]. rewrite Hc, Hs. cbn [fst calls sessions app]. rewrite lookup_insert. cbn [fst calls sessions app]. rewrite lookup_insert. cbn [s_expires touch].
  rewrite decide_True by done. by rewrite lookup_insert.
Qed.
Print Assumptions C237_expired_refuted.
(** False that the end of a session is reported once: after any history, one put back by a lookup is reported to end again. *)
Theorem C237_twice_refuted : ∀ M T m t v id s now, calls m !! t = None → sessions m !! id = Some s →
  cb_log M T m [GetRead t v id now; Destroy id; GetWrite t; Destroy id] = [OnDestroy s; OnDestroy (touch now s)].
Proof.
  intros M T m t v id s now Hc Hs. cbn [cb_log cb_step sexec]. rewrite Hc, Hs. cbn [fst calls sessions app]. rewrite Hs. cbn [fst calls sessions app]. rewrite lookup_insert. destruct v; cbn [fst calls sessions app]; by rewrite lookup_insert.
Qed.
Print Assumptions C237_twice_refuted.
Example C237_example :
  let h := [CreateCheck 1 7; CreateInsert 1 "a" 0; CreateCheck 1 8; CreateInsert 1 "b" 50; Destroy "b"; CleanCollect 0 200; CleanRemove 0; CleanRemove 0] in
  Forall keeps_expiry h ∧ restored 10 100 "a" mgr0 h = 0 ∧ cb_log 10 100 mgr0 h =
    [OnCreate (fresh_session "a" 0 100 7); OnCreate (fresh_session "b" 50 100 8); OnDestroy (fresh_session "b" 50 100 8); OnExpire (fresh_session "a" 0 100 7)].
Proof. cbv zeta. split; [by repeat constructor|]. split; by vm_compute. Qed.
