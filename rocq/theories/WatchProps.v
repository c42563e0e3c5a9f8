(** C55, C107: the resource watcher. *)
From stdpp Require Import gmap strings list.
From Verif Require Import TextLib SerdeLib WatchModel WatchSpec WatchProofs.
Local Open Scope Z_scope.

(** *** C55: every tracked file that changed is announced exactly once per quiet period *)
(** A tick announces, once each, exactly the tracked files whose last event no tick has found ripe
    before, and that are ripe now; *)
Theorem C55_tick : ∀ d mx h now, ∃ l, w_sent (w_run d mx (h ++ [WTick now])) = w_sent (w_run d mx h) ++ l ∧ NoDup l ∧
  ∀ u, u ∈ l ↔ ∃ p ts, u = file_uri p ∧ unannounced d p ts h ∧ ripe d now ts ∧ tracked (w_run d mx h) u.
Proof. exact tick_spec. Qed.
Print Assumptions C55_tick.
(** nothing else announces anything, and what is not tracked is not announced. *)
Theorem C55_only : ∀ d mx h o u, (∀ now, o ≠ WTick now) ∨ ¬ tracked (w_run d mx h) u → announced u (w_run d mx (h ++ [o])) = announced u (w_run d mx h).
Proof. intros d mx h o u [H|H]; [unfold announced; by rewrite other_sent|by apply untracked]. Qed.
Print Assumptions C55_only.
(** Between an event of a tracked file and its next event the file is announced once if a tick finds
    it quiet for long enough, and not at all otherwise. *)
Theorem C55_once : ∀ d mx h p ts l, (∀ ts', WEvent p ts' ∉ l) → (∀ l1 l2, l = l1 ++ l2 → tracked (w_run d mx (h ++ WEvent p ts :: l1)) (file_uri p)) →
  let before := announced (file_uri p) (w_run d mx h) in let after := announced (file_uri p) (w_run d mx (h ++ WEvent p ts :: l)) in
  ((∃ now, WTick now ∈ l ∧ ripe d now ts) → after = S before) ∧ ((∀ now, WTick now ∈ l → ¬ ripe d now ts) → after = before).
Proof.
  intros d mx h p ts l He Ht before after. destruct (once d mx h p ts l He Ht) as [E _]. fold before after in E. split; intros H.
  - apply (seen_quiet_spec d) in H. rewrite H in E. lia.
  - destruct (seen_quiet d ts l) eqn:Eq; [|lia]. apply seen_quiet_spec in Eq as (now & H1 & H2). by destruct (H now).
Qed.
Print Assumptions C55_once.
(** What the operating system reports reaches the processor: exactly the paths the patterns let
    through, in order, as long as the channel of 1000 reports is never full; *)
Definition reported (glob : text → text → bool) (rel : text → option text) (pats ign : list text) (os : list fop) : list text :=
  concat ((λ o, match o with FReport true ps => filter (λ p, matches_patterns glob rel pats ign p = true) ps | _ => [] end) <$> os).
Definition waiting (glob : text → text → bool) (rel : text → option text) (pats ign : list text) (s : front) : list text :=
  concat ((λ r : bool * list text, if r.1 then filter (λ p, matches_patterns glob rel pats ign p = true) r.2 else []) <$> f_raw s).
Lemma f_snoc glob rel pats ign os o : f_run glob rel pats ign (os ++ [o]) = f_step glob rel pats ign (f_run glob rel pats ign os) o.
Proof. unfold f_run. by rewrite fold_left_app. Qed.
Theorem C55_reports_partial : ∀ glob rel pats ign os, (∀ l1 k ps l2, os = l1 ++ FReport k ps :: l2 → (length (f_raw (f_run glob rel pats ign l1)) < 1000)%nat) →
  let s := f_run glob rel pats ign os in (f_out s).*1 ++ waiting glob rel pats ign s = reported glob rel pats ign os.
Proof.
  intros glob rel pats ign os. change 1000%nat with capacity. cbn zeta. induction os as [|o os IH] using rev_ind; intros H; [done|].
  assert (reported glob rel pats ign (os ++ [o]) = reported glob rel pats ign os ++ match o with FReport true ps => filter (λ p, matches_patterns glob rel pats ign p = true) ps | _ => [] end) as ->.
  { unfold reported. rewrite fmap_app, concat_app. cbn. by rewrite app_nil_r. }
  rewrite <- IH by (intros l1 k ps l2 ->; apply (H l1 k ps (l2 ++ [o])); by rewrite <- app_assoc). rewrite f_snoc. destruct o as [k ps|ts]; cbn [f_step].
  - specialize (H os k ps [] eq_refl). apply Nat.ltb_lt in H. rewrite H. unfold waiting. cbn [f_raw f_out]. rewrite fmap_app, concat_app, app_assoc. f_equal. cbn. rewrite app_nil_r. by destruct k.
  - rewrite app_nil_r. unfold waiting. destruct (f_raw (f_run glob rel pats ign os)) as [|[k ps] r] eqn:E; [by rewrite E|]. cbn [f_raw f_out]. rewrite fmap_app. cbn [fmap list_fmap concat fst snd]. rewrite <- app_assoc. f_equal. f_equal.
    destruct k; [|done]. rewrite <- list_fmap_compose. rewrite (list_fmap_ext _ id); [by rewrite list_fmap_id|done].
Qed.
Print Assumptions C55_reports_partial.
(** Refuted beyond that: with the channel full a report is as if it had never been made. *)
Theorem C55_overflow_refuted : ∀ glob rel pats ign os k ps os', (length (f_raw (f_run glob rel pats ign os)) = 1000)%nat →
  f_run glob rel pats ign (os ++ FReport k ps :: os') = f_run glob rel pats ign (os ++ os').
Proof.
  intros glob rel pats ign os k ps os'. change 1000%nat with capacity. intros H. unfold f_run in *. rewrite !fold_left_app. cbn [fold_left]. f_equal. unfold f_step at 1. rewrite H. by rewrite Nat.ltb_irrefl.
Qed.
Print Assumptions C55_overflow_refuted.
Lemma C55_overflow_reached : ∀ glob rel pats ign n, (n <= 1000)%nat → length (f_raw (f_run glob rel pats ign (replicate n (FReport true [lit "/d/f"])))) = n.
Proof.
  intros glob rel pats ign n. change 1000%nat with capacity. induction n as [|n IH]; intros Hn; [done|]. assert (S n = n + 1)%nat as -> by lia. rewrite replicate_add. cbn [replicate]. rewrite f_snoc. cbn [f_step].
  rewrite IH by lia. assert ((n <? capacity)%nat = true) as -> by (apply Nat.ltb_lt; lia). cbn [f_raw]. rewrite app_length, IH by lia. done.
Qed.
(** A file is matched exactly when it lies under the base directory, some pattern matches it there
    and no ignored pattern does. *)
Theorem C55_patterns : ∀ glob rel pats ign p, matches_patterns glob rel pats ign p = true ↔
  ∃ r, rel p = Some r ∧ (∃ g, g ∈ pats ∧ glob g r = true) ∧ ∀ g, g ∈ ign → glob g r = false.
Proof.
  intros glob rel pats ign p. unfold matches_patterns. destruct (rel p) as [r|]; [|split; [done|]; by intros (? & ? & _)]. rewrite andb_true_iff, negb_true_iff, existsb_exists. split.
  - intros [H1 (g & Hg%elem_of_list_In & Hgr)]. exists r. split; [done|]. split; [by exists g|]. intros g' Hg'. destruct (glob g' r) eqn:E; [|done].
    assert (existsb (λ g, glob g r) ign = true) as Hx; [|congruence]. apply existsb_exists. exists g'. split; [by apply elem_of_list_In|done].
  - intros (r' & [= <-] & (g & Hg & Hgr) & H). split; [|exists g; split; [by apply elem_of_list_In|done]]. apply not_true_is_false. intros (g' & Hg'%elem_of_list_In & E)%existsb_exists. rewrite (H g' Hg') in E. done.
Qed.
Print Assumptions C55_patterns.
Example C55_example : let h := [WAdd (file_uri (lit "/d/a")) 1; WEvent (lit "/d/a") 0; WEvent (lit "/d/b") 5; WTick 100; WEvent (lit "/d/a") 200; WTick 300; WTick 600; WTick 700; WEvent (lit "/d/a") 800; WTick 1400] in
  w_sent (w_run 500 10 h) = [file_uri (lit "/d/a"); file_uri (lit "/d/a")] ∧ w_sent (w_run 500 10 (take 7 h)) = [] ∧ w_sent (w_run 500 10 (take 8 h)) = [file_uri (lit "/d/a")].
Proof. repeat split; by vm_compute. Qed.

(** *** C107: add_resource tracks the resource or reports an error *)
Theorem C107_add_partial : ∀ d mx h u i, (size (w_tracked (w_run d mx h)) < mx)%nat → w_tracked (w_run d mx (h ++ [WAdd u i])) = <[u := i]> (w_tracked (w_run d mx h)).
Proof. intros d mx h u i H. rewrite run_snoc. cbn [w_step]. apply Nat.leb_gt in H. by rewrite H. Qed.
Print Assumptions C107_add_partial.
(** The limit is never exceeded; *)
Theorem C107_limit : ∀ d mx h, (size (w_tracked (w_run d mx h)) <= mx)%nat.
Proof.
  intros d mx h. induction h as [|o h IH] using rev_ind; [cbn; rewrite map_size_empty; lia|]. rewrite run_snoc. destruct o as [q ts'|now|u i|u]; cbn [w_step]; try done.
  - destruct (mx <=? size (w_tracked (w_run d mx h)))%nat eqn:E; [done|]. apply Nat.leb_gt in E. cbn [w_tracked]. destruct (w_tracked (w_run d mx h) !! u) as [v|] eqn:Eu.
    + rewrite map_size_insert_Some by (by eexists). lia.
    + rewrite map_size_insert_None by done. lia.
  - cbn [w_tracked]. destruct (w_tracked (w_run d mx h) !! u) as [v|] eqn:Eu.
    + rewrite map_size_delete_Some by (by eexists). lia.
    + rewrite map_size_delete_None by done. done.
Qed.
Print Assumptions C107_limit.
(** Refuted: at the limit adding succeeds without any effect, for new resources and for updates, and
    the files of a resource added so are never announced. *)
Theorem C107_full_refuted : ∀ d mx h u i, (size (w_tracked (w_run d mx h)) = mx)%nat → w_run d mx (h ++ [WAdd u i]) = w_run d mx h.
Proof. intros d mx h u i H. rewrite run_snoc. cbn [w_step]. rewrite H. by rewrite Nat.leb_refl. Qed.
Print Assumptions C107_full_refuted.
Theorem C107_remove : ∀ d mx h u, w_tracked (w_run d mx (h ++ [WRemove u])) = delete u (w_tracked (w_run d mx h)).
Proof. intros. by rewrite run_snoc. Qed.
Print Assumptions C107_remove.
Example C107_example : size (w_tracked (w_run 500 1 [WAdd (lit "a") 1])) = 1%nat ∧ w_tracked (w_run 500 1 [WAdd (lit "a") 1; WAdd (lit "b") 2]) !! lit "b" = None ∧ w_tracked (w_run 500 2 [WAdd (lit "a") 1; WAdd (lit "b") 2]) !! lit "b" = Some 2%nat.
Proof. repeat split; by vm_compute. Qed.
