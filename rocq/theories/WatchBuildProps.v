(** C231: watchers made by the builder. *)
From stdpp Require Import gmap strings list.
From Verif Require Import TextLib SerdeLib WatchModel WatchBuildModel WatchBuildSpec.
Local Open Scope Z_scope.

Lemma given_snoc {B} (f : wcall → option B) os o : last_given f (os ++ [o]) = match f o with Some x => Some x | None => last_given f os end.
Proof. unfold last_given. rewrite omap_app. cbn [omap list_omap]. destruct (f o); [apply last_snoc|by rewrite app_nil_r]. Qed.
Lemma builder_inv os : let b := fold_left wcall_step os wbuilder_new in
  wb_base b = last_given base_given os ∧ wg_debounce (wb_config b) = default 500 (last_given debounce_given os) ∧
  wg_max (wb_config b) = default (N.to_nat 10000) (last_given max_given os) ∧
  wg_patterns (wb_config b) = wg_patterns wconfig_default ++ omap pattern_given os ∧ wg_ignored (wb_config b) = wg_ignored wconfig_default ++ omap ignore_given os.
Proof.
  cbv zeta. induction os as [|o os IH] using rev_ind; [done|]. rewrite fold_left_app. cbn [fold_left]. destruct IH as (H1 & H2 & H3 & H4 & H5).
  rewrite !given_snoc, !omap_app, !(app_assoc (wg_patterns _)), !(app_assoc (wg_ignored wconfig_default)), <-H4, <-H5.
  destruct o; cbn [wcall_step wb_base wb_config wg_debounce wg_max wg_patterns wg_ignored base_given debounce_given max_given pattern_given ignore_given omap list_omap]; rewrite ?app_nil_r; done.
Qed.
(** What is built: an error without a base directory; otherwise the last base directory, interval and limit given, and the
    patterns given after the default ones. *)
Theorem C231_builder : ∀ os, match watch_build os with
  | None => last_given base_given os = None
  | Some (d, c) => last_given base_given os = Some d ∧ wg_debounce c = default 500 (last_given debounce_given os) ∧ wg_max c = default (N.to_nat 10000) (last_given max_given os) ∧
      wg_patterns c = [lit "**/*"] ++ omap pattern_given os ∧
      wg_ignored c = [lit "**/.git/**"; lit "**/node_modules/**"; lit "**/.DS_Store"; lit "**/target/**"] ++ omap ignore_given os
  end.
Proof.
  intros os. destruct (builder_inv os) as (H1 & H2 & H3 & H4 & H5). unfold watch_build. destruct (wb_base _) as [d|]; [|by rewrite <-H1]. cbn [fmap option_fmap option_map]. by rewrite <-H1, H2, H3, H4, H5.
Qed.
Print Assumptions C231_builder.
Lemma noticed_matches glob rel pats ign fs p : noticed p (f_run glob rel pats ign fs) → matches_patterns glob rel pats ign p = true ∧ reported_path p fs.
Proof.
  assert (∀ fs, let s := f_run glob rel pats ign fs in (∀ p ts, (p, ts) ∈ f_out s → matches_patterns glob rel pats ign p = true ∧ reported_path p fs) ∧ (∀ ps, (true, ps) ∈ f_raw s → FReport true ps ∈ fs)) as H; [|intros (ts & Hp); by apply H in Hp].
  clear fs p. intros fs. cbv zeta. induction fs as [|o fs [IH1 IH2]] using rev_ind; [split; [intros p ts H|intros ps H]; by apply elem_of_nil in H|]. unfold f_run in *. rewrite fold_left_app. cbn [fold_left]. set (s := fold_left _ fs _) in *.
  assert (∀ p, reported_path p fs → reported_path p (fs ++ [o])) as Hmore. { intros p (ps & H1 & H2). exists ps. split; [|done]. apply elem_of_app. by left. }
  destruct o as [k ps|ts]; cbn [f_step].
  - destruct (_ <? _)%nat.
    + cbn [f_out f_raw]. split; [intros p ts Hp; apply IH1 in Hp as [? ?]; split; [done|by apply Hmore]|]. intros ps' H. rewrite elem_of_app, elem_of_list_singleton in H. rewrite elem_of_app, elem_of_list_singleton. destruct H as [H|H]; [left; by apply IH2|right]. by simplify_eq.
    + split; [intros p ts Hp; apply IH1 in Hp as [? ?]; split; [done|by apply Hmore]|]. intros ps' H. apply elem_of_app. left. by apply IH2.
  - destruct (f_raw s) as [|[k ps] r] eqn:E.
    + split; [intros p ts' Hp; apply IH1 in Hp as [? ?]; split; [done|by apply Hmore]|]. intros ps' H. rewrite E in H. by apply elem_of_nil in H.
    + cbn [f_out f_raw]. split.
      * intros p ts' Hp. apply elem_of_app in Hp as [Hp|Hp]; [apply IH1 in Hp as [? ?]; split; [done|by apply Hmore]|]. destruct k; [|by apply elem_of_nil in Hp]. apply elem_of_list_fmap in Hp as (p' & Hp' & Hf). injection Hp' as -> _. apply elem_of_list_filter in Hf as [Hm Hp].
        split; [done|]. exists ps. split; [|done]. apply elem_of_app. left. apply IH2. left.
      * intros ps' H. apply elem_of_app. left. apply IH2. by right.
Qed.
(** Ignored is ignored: nothing matching a pattern given to ignore, or one of the four ignored by default, is noticed, and
    neither is anything outside the base directory or not reported. *)
Theorem C231_ignored : ∀ glob relative os d c fs p, watch_build os = Some (d, c) → noticed p (watch_reports glob relative (d, c) fs) →
  reported_path p fs ∧ ∃ r, relative d p = Some r ∧
    ∀ g, g ∈ omap ignore_given os ∨ g ∈ [lit "**/.git/**"; lit "**/node_modules/**"; lit "**/.DS_Store"; lit "**/target/**"] → glob g r = false.
Proof.
  intros glob relative os d c fs p Hb Hn. pose proof (C231_builder os) as H. rewrite Hb in H. destruct H as (_ & _ & _ & _ & Hi). apply noticed_matches in Hn as [Hm Hr]. split; [done|].
  unfold matches_patterns in Hm. destruct (relative (d, c).1 p) as [r|] eqn:E; [|done]. exists r. split; [exact E|]. apply andb_true_iff in Hm as [Hm _]. apply negb_true_iff in Hm. change (d, c).2 with c in Hm. intros g Hg. destruct (glob g r) eqn:Eg; [|done]. exfalso.
  assert (existsb (λ g, glob g r) (wg_ignored c) = true) as Hx; [|by rewrite Hx in Hm]. apply existsb_exists. exists g. split; [|done]. apply elem_of_list_In. rewrite Hi. apply elem_of_app. tauto.
Qed.
Print Assumptions C231_ignored.
(** False for the patterns to watch: "**/*" stays among them, so giving patterns does not narrow anything down. Whatever
    the patterns, the watcher notices what one without them does. *)
Theorem C231_narrow_refuted : ∀ glob relative os os' d c d' c' fs, (∀ r, glob (lit "**/*") r = true) →
  os' = filter (λ o, pattern_given o = None) os → watch_build os = Some (d, c) → watch_build os' = Some (d', c') →
  watch_reports glob relative (d, c) fs = watch_reports glob relative (d', c') fs.
Proof.
  intros glob relative os os' d c d' c' fs Hg Ho H1 H2. pose proof (C231_builder os) as B1. pose proof (C231_builder os') as B2. rewrite H1 in B1. rewrite H2 in B2. destruct B1 as (E1 & _ & _ & P1 & I1), B2 as (E2 & _ & _ & P2 & I2).
  assert (∀ B (f : wcall → option B), (∀ g, f (WPattern g) = None) → omap f os' = omap f os) as Hf.
  { intros B f Hp. subst os'. clear -Hp. induction os as [|o os IH]; [done|]. rewrite filter_cons. case_decide as E; cbn [omap list_omap]; rewrite <-IH; [done|]. destruct o; try done. by rewrite Hp. }
  unfold last_given in E1, E2. rewrite (Hf _ base_given) in E2 by done. rewrite (Hf _ ignore_given) in I2 by done. assert (d' = d) as -> by congruence. rewrite <-I1 in I2. clear I1 H1 H2 E1 E2 Ho Hf.
  assert (∀ p, matches_patterns glob (relative d) (wg_patterns c) (wg_ignored c) p = matches_patterns glob (relative d) (wg_patterns c') (wg_ignored c') p) as Hm.
  { intros p. unfold matches_patterns. rewrite I2, P1, P2. destruct (relative d p) as [r|]; [|done]. cbn [app existsb]. by rewrite Hg. }
  unfold watch_reports. cbn [fst snd]. induction fs as [|o fs IH] using rev_ind; [done|]. unfold f_run in *. rewrite !fold_left_app. cbn [fold_left]. rewrite <-IH. set (s := fold_left _ fs _).
  destruct o as [k ps|ts]; cbn [f_step]; [done|]. destruct (f_raw s) as [|[k ps] r]; [done|]. destruct k; [|done]. do 3 f_equal. clear -Hm. induction ps as [|p ps IH]; [done|]. rewrite !filter_cons, Hm, IH. done.
Qed.
Print Assumptions C231_narrow_refuted.
(** In particular a change that no given pattern matches is noticed. *)
Theorem C231_unwanted_refuted : ∀ glob relative os d c p r ts, (∀ r, glob (lit "**/*") r = true) → watch_build os = Some (d, c) → relative d p = Some r →
  (∀ g, g ∈ wg_ignored c → glob g r = false) → (∀ g, g ∈ omap pattern_given os → glob g r = false) → noticed p (watch_reports glob relative (d, c) [FReport true [p]; FForward ts]).
Proof.
  intros glob relative os d c p r ts Hg Hb Hr Hi _. pose proof (C231_builder os) as H. rewrite Hb in H. destruct H as (_ & _ & _ & Hp & _). exists ts.
  unfold watch_reports, f_run. cbn [fst snd fold_left f_step f_raw length]. assert ((0 <? capacity)%nat = true) as -> by (by vm_compute). cbn [f_raw app f_out].
  assert (matches_patterns glob (relative d) (wg_patterns c) (wg_ignored c) p = true) as Hm.
  { unfold matches_patterns. rewrite Hr, Hp. apply andb_true_iff. split; [|cbn [app existsb]; by rewrite Hg]. apply negb_true_iff. destruct (existsb _ _) eqn:E; [|done]. apply existsb_exists in E as (g & Hin & E). apply elem_of_list_In in Hin. by rewrite (Hi g Hin) in E. }
  rewrite filter_cons_True by done. left.
Qed.
Print Assumptions C231_unwanted_refuted.
(** A matcher of the endings of names that takes "**/*" for everything. *)
Definition ends_glob (g r : text) : bool :=
  bool_decide (g = lit "**/*") || match g with 42%N :: 42%N :: 47%N :: 42%N :: e => bool_decide (e = drop (length r - length e) r) | _ => false end.
Example C231_example :
  let os := [WPattern (lit "**/*.rs"); WBase (lit "/a"); WIgnore (lit "**/*.tmp"); WBase (lit "/src"); WDebounce 20] in
  let relative (d p : text) := if bool_decide (take (length d + 1) p = d ++ [47%N]) then Some (drop (length d + 1) p) else None in
  watch_build os = Some (lit "/src", MkWatchConfig 20 [lit "**/*"; lit "**/*.rs"] (wg_ignored wconfig_default ++ [lit "**/*.tmp"]) (N.to_nat 10000)) ∧
  (∀ r, ends_glob (lit "**/*") r = true) ∧ ends_glob (lit "**/*.rs") (lit "notes.md") = false ∧ relative (lit "/src") (lit "/src/notes.md") = Some (lit "notes.md") ∧
  ((λ w, f_out (watch_reports ends_glob relative w [FReport true [lit "/src/notes.md"; lit "/src/x.tmp"; lit "/etc/passwd"; lit "/src/main.rs"]; FForward 3])) <$> watch_build os) =
    Some [(lit "/src/notes.md", 3); (lit "/src/main.rs", 3)].
Proof. split; [by vm_compute|]. split; [done|]. by vm_compute. Qed.
