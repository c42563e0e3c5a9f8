(** C108-C112: debouncing and batching of server notifications. *)
From stdpp Require Import gmap strings list.
From Verif Require Import TextLib SerdeLib NotifModel NotifSpec NotifProofs.
Local Open Scope Z_scope.

(** A stand-in for the Debug of tokens, for the examples *)
Definition ex_dbg (t : token) : text := match t with TkStr s => lit "String(" ++ s ++ lit ")" | TkNum n => lit "Number(" ++ [Z.to_N (n + 48)] ++ lit ")" end.

(** *** C108: with merging every notification is sent exactly once, in order per kind *)
(** As long as no more than the configured number waits and nobody flushes: what was sent, followed by
    what waits, is what was submitted. *)
Theorem C108_merged_partial : ∀ dbg cf os k, n_merge cf = true → no_flush os → has_room dbg cf os →
  of_kind dbg k (nd_out (n_run dbg cf os)) ++ waiting k (n_run dbg cf os) = of_kind dbg k (submitted os).
Proof. exact conservation. Qed.
Print Assumptions C108_merged_partial.
(** Refuted beyond the limit: the notification is neither sent nor kept, *)
Theorem C108_lost_refuted : ∀ dbg cf os n t, n_merge cf = true → (length (waiting (notification_key dbg n) (n_run dbg cf os)) = S (n_max cf))%nat →
  let s := n_run dbg cf os in let s' := n_run dbg cf (os ++ [NSubmit n t]) in nd_out s' = nd_out s ∧ ∀ k, waiting k s' = waiting k s.
Proof.
  intros dbg cf os n t Hm Hl s s'. split; [apply submit_out|]. intros k. destruct (decide (notification_key dbg n = k)) as [<-|Hk]; [by apply submit_full|]. unfold waiting, s', s. by rewrite submit_other.
Qed.
Print Assumptions C108_lost_refuted.
(** and refuted for flush: what waits is sent by every flush, and again by the tick that comes later. *)
Theorem C108_flush_refuted : ∀ dbg cf os k, let s := n_run dbg cf os in
  of_kind dbg k (nd_out (n_run dbg cf (os ++ [NFlush; NFlush]))) = of_kind dbg k (nd_out s) ++ waiting k s ++ waiting k s ∧ waiting k (n_run dbg cf (os ++ [NFlush; NFlush])) = waiting k s.
Proof.
  intros dbg cf os k s. assert (os ++ [NFlush; NFlush] = (os ++ [NFlush]) ++ [NFlush]) as -> by (by rewrite <- app_assoc).
  destruct (flush_kind dbg cf (os ++ [NFlush]) k) as [-> H2]. destruct (flush_kind dbg cf os k) as [-> H1]. unfold waiting. rewrite H2, H1. by rewrite app_assoc.
Qed.
Print Assumptions C108_flush_refuted.
(** A flush does send all that waits. *)
Theorem C108_flush : ∀ dbg cf os k, of_kind dbg k (nd_out (n_run dbg cf (os ++ [NFlush]))) = of_kind dbg k (nd_out (n_run dbg cf os)) ++ waiting k (n_run dbg cf os).
Proof. intros. apply flush_kind. Qed.
Print Assumptions C108_flush.
Definition ex_progress (r : nat) : notice := NfProgress (TkNum 1) r.
Definition ex_nops : list nop := [NSubmit (ex_progress 1) 0; NSubmit NfTools 10; NTick 50; NSubmit (ex_progress 2) 60; NTick 300; NSubmit (ex_progress 3) 310; NTick 600].
Example C108_example : no_flush ex_nops ∧ nd_out (n_run ex_dbg nconfig_default ex_nops) = [NfTools; ex_progress 1; ex_progress 2; ex_progress 3] ∧
  waiting (notification_key ex_dbg (ex_progress 1)) (n_run ex_dbg (MkNconfig 250 ∅ 1 true 5000) [NSubmit (ex_progress 1) 0; NSubmit (ex_progress 2) 1; NSubmit (ex_progress 3) 2]) = [ex_progress 1; ex_progress 2].
Proof. split; [|split; by vm_compute]. unfold no_flush, ex_nops. intros H. repeat (apply elem_of_cons in H as [H|H]; [done|]). by apply elem_of_nil in H. Qed.
Example C108_room_example : has_room ex_dbg nconfig_default [NSubmit (ex_progress 1) 0; NSubmit (ex_progress 2) 60].
Proof. intros l1 n t l2 E. destruct l1 as [|a [|b [|c l1]]]; simplify_eq/=; try (vm_compute; lia). Qed.

(** *** C109: no notification waits too long *)
(** A kind that has been quiet for its interval does not wait any longer after a tick, *)
Theorem C109_quiet : ∀ dbg cf h n ts l now, (∀ n' t, NSubmit n' t ∈ l → notification_key dbg n' ≠ notification_key dbg n) → ts + (match n_types cf !! notification_key dbg n with Some d => d | None => n_default cf end) <= now →
  waiting (notification_key dbg n) (n_run dbg cf (h ++ NSubmit n ts :: l ++ [NTick now])) = [].
Proof. exact quiet. Qed.
Print Assumptions C109_quiet.
(** and whatever waits after a tick, of any kind, has not waited for the maximal waiting time yet: the submission it began to
    wait with, before which nothing of its kind waited, is not that long ago.  This holds for every history and configuration. *)
Theorem C109_max : ∀ dbg cf os k now, waiting k (n_run dbg cf (os ++ [NTick now])) ≠ [] →
  ∃ l1 n t l2, os = l1 ++ NSubmit n t :: l2 ∧ notification_key dbg n = k ∧ now < t + n_wait cf ∧ waiting k (n_run dbg cf l1) = [] ∧
    ∀ a b, l2 = a ++ b → waiting k (n_run dbg cf (l1 ++ NSubmit n t :: a)) ≠ [].
Proof. exact waits_short. Qed.
Print Assumptions C109_max.
(** With merging every notification, and those of its kind before it, has been sent by the first
    tick after the maximal waiting time. *)
Theorem C109_sent : ∀ dbg cf h n ts l now, n_merge cf = true → let os := h ++ NSubmit n ts :: l ++ [NTick now] in no_flush os → has_room dbg cf os → in_time os → ts + n_wait cf <= now →
  of_kind dbg (notification_key dbg n) (submitted h) ++ [n] `prefix_of` of_kind dbg (notification_key dbg n) (nd_out (n_run dbg cf os)).
Proof. exact max_wait. Qed.
Print Assumptions C109_sent.
Example C109_max_example :
  let os := [NSubmit (ex_progress 1) 0; NSubmit (ex_progress 2) 90; NTick 100; NSubmit (ex_progress 3) 120; NSubmit (ex_progress 4) 190] in
  let cf := MkNconfig 1000 ∅ 9 true 100 in
  waiting (notification_key ex_dbg (ex_progress 1)) (n_run ex_dbg cf (os ++ [NTick 219])) = [ex_progress 3; ex_progress 4] ∧ waiting (notification_key ex_dbg (ex_progress 1)) (n_run ex_dbg cf (os ++ [NTick 220])) = [].
Proof. split; by vm_compute. Qed.
Example C109_example : waiting (notification_key ex_dbg (ex_progress 1)) (n_run ex_dbg nconfig_default (take 2 ex_nops)) = [ex_progress 1] ∧
  waiting (notification_key ex_dbg (ex_progress 1)) (n_run ex_dbg nconfig_default (take 4 ex_nops)) = [ex_progress 1; ex_progress 2] ∧
  nd_out (n_run ex_dbg (MkNconfig 1000 ∅ 9 true 100) [NSubmit (ex_progress 1) 0; NSubmit (ex_progress 2) 90; NTick 99]) = [] ∧
  nd_out (n_run ex_dbg (MkNconfig 1000 ∅ 9 true 100) [NSubmit (ex_progress 1) 0; NSubmit (ex_progress 2) 90; NTick 100]) = [ex_progress 1; ex_progress 2].
Proof. repeat split; by vm_compute. Qed.

(** *** C110: without merging the latest notification of each kind is sent *)
Theorem C110_latest_partial : ∀ dbg cf os k n, n_merge cf = false → n ∈ waiting k (n_run dbg cf os) → waiting k (n_run dbg cf os) = [n] ∧ last (of_kind dbg k (submitted os)) = Some n.
Proof.
  intros dbg cf os k n Hm. unfold waiting. destruct (nd_pending (n_run dbg cf os) !! k) as [w|] eqn:E; [|by intros ?%elem_of_nil]. destruct (latest dbg cf os k w Hm E) as [-> Hl]. intros ->%elem_of_list_singleton. done.
Qed.
Print Assumptions C110_latest_partial.
(** Two notifications are of one kind exactly if they are about the same operation, resource or list ([dbg] tells
    tokens apart, as the derived Debug does). *)
Theorem C110_kinds : ∀ dbg a b, (∀ t t' : token, dbg t = dbg t' → t = t') → notification_key dbg a = notification_key dbg b ↔ same_subject a b.
Proof.
  intros dbg a b Hinj. split; [|destruct a, b; cbn; by intros; subst]. destruct a, b; cbn [notification_key same_subject]; intros H; try done; try (apply app_inv_head in H; by apply Hinj || done).
Qed.
Print Assumptions C110_kinds.
(** Submitting changes nothing that waits about another subject. *)
Theorem C110_other : ∀ dbg cf os n t n', (∀ t t' : token, dbg t = dbg t' → t = t') → ¬ same_subject n n' →
  waiting (notification_key dbg n') (n_run dbg cf (os ++ [NSubmit n t])) = waiting (notification_key dbg n') (n_run dbg cf os).
Proof. intros dbg cf os n t n' Hd Hn. unfold waiting. rewrite submit_other; [done|]. by rewrite (C110_kinds _ _ _ Hd). Qed.
Print Assumptions C110_other.
(** Refuted across types: log messages and changes of the roots are one kind, so each displaces what
    waits of the others. *)
Theorem C110_unknown_refuted : ∀ dbg cf os a b t t', n_merge cf = false → (∃ r, a = NfLog r) → b = NfRoots ∨ (∃ r, b = NfLog r) → a ≠ b →
  let s := n_run dbg cf os in let s' := n_run dbg cf (os ++ [NSubmit a t; NSubmit b t']) in nd_out s' = nd_out s ∧ ∀ k, a ∉ waiting k s' ∨ (a ∈ waiting k s ∧ k ≠ lit "unknown").
Proof.
  intros dbg cf os a b t t' Hm [r Ha] Hb Hne s s'. unfold s'. assert (os ++ [NSubmit a t; NSubmit b t'] = (os ++ [NSubmit a t]) ++ [NSubmit b t']) as -> by (by rewrite <- app_assoc). rewrite !submit_out. split; [done|]. intros k.
  assert (notification_key dbg a = lit "unknown") as Ea by (by subst a). assert (notification_key dbg b = lit "unknown") as Eb by (destruct Hb as [-> |[r' ->]]; done).
  destruct (decide (k = lit "unknown")) as [->|Hk].
  - left. intros Hin. apply C110_latest_partial in Hin as [_ H]; [|done]. rewrite submitted_app, kind_app in H. cbn [submitted omap list_omap] in H. rewrite (kind_all dbg (lit "unknown") [b]) in H by (by repeat constructor). rewrite last_snoc in H. congruence.
  - unfold waiting. rewrite submit_other by (rewrite Eb; done). rewrite submit_other by (rewrite Ea; done). fold (waiting k (n_run dbg cf os)). fold s. destruct (decide (a ∈ waiting k s)) as [H|H]; [by right|by left].
Qed.
Print Assumptions C110_unknown_refuted.
Example C110_example : let cf := MkNconfig 250 ∅ 9 false 5000 in nd_out (n_run ex_dbg cf [NSubmit (ex_progress 1) 0; NSubmit (ex_progress 2) 10; NTick 300]) = [ex_progress 2] ∧
  nd_out (n_run ex_dbg cf [NSubmit (NfLog 1) 0; NSubmit NfRoots 10; NTick 300]) = [NfRoots].
Proof. split; by vm_compute. Qed.

(** *** C111: the interval configured for a type of notification applies to it *)
(** Configurations that give the keys in use the same intervals behave the same. *)
Lemma pending_keys dbg cf os k w : nd_pending (n_run dbg cf os) !! k = Some w → ∃ n, k = notification_key dbg n.
Proof.
  revert w. induction os as [|o os IH] using rev_ind; intros w Hw; [cbn in Hw; by rewrite lookup_empty in Hw|]. rewrite nrun_snoc in Hw. destruct o as [n t|t|]; cbn [n_step] in Hw.
  - unfold submit in Hw. destruct (decide (notification_key dbg n = k)) as [<-|Hk]; [by exists n|]. destruct (nd_pending (n_run dbg cf os) !! notification_key dbg n); cbn [nd_pending] in Hw; rewrite lookup_insert_ne in Hw by done; by apply (IH w).
  - cbn [flush_pending nd_pending] in Hw. apply map_filter_lookup_Some in Hw as [Hw _]. by apply (IH w).
  - by apply (IH w).
Qed.
Lemma same_intervals dbg dflt mx merge wait ty ty' os : (∀ n, default dflt (ty !! notification_key dbg n) = default dflt (ty' !! notification_key dbg n)) →
  n_run dbg (MkNconfig dflt ty mx merge wait) os = n_run dbg (MkNconfig dflt ty' mx merge wait) os.
Proof.
  intros H. induction os as [|o os IH] using rev_ind; [done|]. rewrite !nrun_snoc, <-IH. destruct o as [n t|t|]; [done| |done]. cbn [n_step]. unfold flush_pending.
  set (s := n_run dbg (MkNconfig dflt ty mx merge wait) os). assert (∀ k w, nd_pending s !! k = Some w → should_flush (MkNconfig dflt ty mx merge wait) t (k, w) = should_flush (MkNconfig dflt ty' mx merge wait) t (k, w)) as Hs.
  { intros k w Hw. destruct (pending_keys _ _ _ _ _ Hw) as [n ->]. unfold should_flush, interval_of. cbn [n_types n_default n_wait fst snd]. by rewrite H. }
  f_equal; [apply map_filter_ext; intros k w Hw; by rewrite (Hs k w Hw)|]. f_equal. f_equal. f_equal.
  assert (Forall (λ e, should_flush (MkNconfig dflt ty mx merge wait) t e = should_flush (MkNconfig dflt ty' mx merge wait) t e) (map_to_list (nd_pending s))) as Hl.
  { apply Forall_forall. intros [k w] Hin. apply Hs. by apply elem_of_map_to_list in Hin. }
  induction Hl as [|e l He _ IHl]; [done|]. rewrite !filter_cons, He, IHl. done.
Qed.
(** The interval is the one configured under the notification's key: a notification that comes when
    none of its kind waits is sent by a tick exactly when this interval or the maximal waiting time has
    passed. *)
Theorem C111_interval_partial : ∀ dbg cf h n ts now, ts <= now → waiting (notification_key dbg n) (n_run dbg cf h) = [] →
  (waiting (notification_key dbg n) (n_run dbg cf (h ++ [NSubmit n ts; NTick now])) = [] ↔
   (match n_types cf !! notification_key dbg n with Some d => d | None => n_default cf end) <= now - ts ∨ n_wait cf <= now - ts).
Proof.
  intros dbg cf h n ts now Ht Hw. rewrite (app_assoc h [NSubmit n ts] [NTick now] : h ++ [NSubmit n ts; NTick now] = _), nrun_snoc.
  pose proof (waiting_tick dbg cf (h ++ [NSubmit n ts]) (notification_key dbg n) now) as H. cbn zeta in H.
  assert (nd_pending (n_run dbg cf (h ++ [NSubmit n ts])) !! notification_key dbg n = Some (MkWait n ts ts 1 [])) as E.
  { rewrite nrun_snoc. cbn [n_step]. unfold submit. unfold waiting in Hw. destruct (nd_pending (n_run dbg cf h) !! notification_key dbg n); [done|]. cbn [nd_pending]. by rewrite lookup_insert. }
  rewrite E in H. unfold waiting. destruct (should_flush cf now (notification_key dbg n, MkWait n ts ts 1 [])) eqn:Es; destruct H as [_ ->]; unfold should_flush, interval_of in Es; cbn [fst snd wn_last wn_first] in Es;
    rewrite ?orb_true_iff, ?orb_false_iff, ?Z.leb_le, ?Z.leb_gt, Z.max_r in Es by lia; unfold default in Es; destruct (n_types cf !! notification_key dbg n); unfold Datatypes.id in Es; split; intros; try done; lia.
Qed.
Print Assumptions C111_interval_partial.
(** Refuted: the key names for progress the token and for updates the resource, and is not the type's
    name for the others.  So the three intervals of the default configuration are never used: it does in
    every history what it would do without them. *)
Theorem C111_default_refuted : ∀ dbg os, n_run dbg nconfig_default os = n_run dbg (MkNconfig 250 ∅ 100 true 5000) os.
Proof.
  intros dbg os. apply same_intervals. intros n. rewrite lookup_empty. assert (default_types !! notification_key dbg n = None) as ->; [|done]. unfold default_types. rewrite !lookup_insert_None. split; [split|].
  - apply lookup_singleton_None. destruct n; vm_compute; congruence.
  - destruct n; vm_compute; congruence.
  - destruct n; vm_compute; congruence.
Qed.
Print Assumptions C111_default_refuted.
(** No interval configured under "progress" is ever used. *)
Theorem C111_progress_refuted : ∀ dbg dflt max merge wait types d os,
  n_run dbg (MkNconfig dflt (<[lit "progress" := d]> types) max merge wait) os = n_run dbg (MkNconfig dflt types max merge wait) os.
Proof. intros dbg dflt mx merge wait types d os. apply same_intervals. intros n. rewrite lookup_insert_ne; [done|]. destruct n; vm_compute; congruence. Qed.
Print Assumptions C111_progress_refuted.
Example C111_example : let cf := MkNconfig 250 {[ lit "tool_list_changed" := 7 ]} 9 true 5000 in
  waiting (lit "tool_list_changed") (n_run ex_dbg cf [NSubmit NfTools 0; NTick 6]) = [NfTools] ∧ waiting (lit "tool_list_changed") (n_run ex_dbg cf [NSubmit NfTools 0; NTick 7]) = [] ∧
  waiting (notification_key ex_dbg (ex_progress 1)) (n_run ex_dbg nconfig_default [NSubmit (ex_progress 1) 0; NTick 100]) = [ex_progress 1].
Proof. split; [|split]; by vm_compute. Qed.

(** *** C112: the notification batcher delivers every notification once, in batches of one kind *)
(** What was sent, is being sent or waits is what was added, each as often; *)
Theorem C112_once : ∀ dbg max os, let s := b_run dbg max os in concat (nb_sent s) ++ concat (nb_flight s) ++ concat (map_to_list (nb_batches s)).*2 ≡ₚ added os.
Proof. exact batch_conservation. Qed.
Print Assumptions C112_once.
(** every batch sent has between one and the maximal number of notifications, all of one kind; *)
Theorem C112_batch : ∀ dbg max os b, (∀ t t' : token, dbg t = dbg t' → t = t') → b ∈ nb_sent (b_run dbg max os) →
  b ≠ [] ∧ (length b <= Nat.max 1 max)%nat ∧ ∀ n n', n ∈ b → n' ∈ b → same_subject n n'.
Proof.
  intros dbg max os b Hd Hb. destruct (batch_shape dbg max os) as [H _]. rewrite Forall_forall in H. destruct (H b Hb) as (H1 & H2 & k & H3). split; [done|]. split; [done|].
  rewrite Forall_forall in H3. intros n n' Hn Hn'. apply (C110_kinds _ _ _ Hd). by rewrite (H3 n Hn), (H3 n' Hn').
Qed.
Print Assumptions C112_batch.
(** whatever waits has a timer that will send it; *)
Theorem C112_timer : ∀ dbg max os k b, nb_batches (b_run dbg max os) !! k = Some b → b ≠ [] → ∃ i, nb_timers (b_run dbg max os) !! i = Some k ∧ b ∈ nb_sent (b_run dbg max (os ++ [BTimer i])).
Proof.
  intros dbg max os k b H Hb. destruct (batch_shape dbg max os) as (_ & _ & H3). destruct (H3 k b H) as (_ & _ & Ht). apply elem_of_list_lookup in Ht as [i Hi]; [|done]. exists i. split; [done|]. rewrite brun_snoc. cbn [b_step]. rewrite Hi. cbn [nb_sent]. apply elem_of_app. right.
  apply elem_of_list_filter. split; [by destruct b|]. rewrite H. by left.
Qed.
Print Assumptions C112_timer.
(** and the notifications of one kind arrive in order, if a full batch is sent before anything else happens. *)
Theorem C112_order_partial : ∀ dbg max ws k, let os := concat (whole_ops <$> ws) in
  of_kind dbg k (concat (nb_sent (b_run dbg max os))) ++ default [] (nb_batches (b_run dbg max os) !! k) = of_kind dbg k (added os).
Proof. intros. by apply batch_order. Qed.
Print Assumptions C112_order_partial.
(** Refuted otherwise: the lock is released before a full batch is sent, and a later notification can
    overtake it. *)
Theorem C112_order_refuted : ∀ dbg os a b c, let k := notification_key dbg a in let s := b_run dbg 2 os in nb_batches s = ∅ → nb_flight s = [] → nb_timers s = [] → notification_key dbg b = k → notification_key dbg c = k →
  let os' := os ++ [BAdd a; BAdd b; BAdd c; BTimer 0; BSend 0] in added os' = added os ++ [a; b; c] ∧ nb_sent (b_run dbg 2 os') = nb_sent s ++ [[c]; [a; b]].
Proof.
  intros dbg os a b c k s Hb Hf Ht Hb' Hc os'. split; [unfold os', added; by rewrite omap_app|]. unfold os'. assert (notification_key dbg a = k) as Ha by done. clearbody k.
  assert (os ++ [BAdd a; BAdd b; BAdd c; BTimer 0; BSend 0] = ((((os ++ [BAdd a]) ++ [BAdd b]) ++ [BAdd c]) ++ [BTimer 0]) ++ [BSend 0]) as -> by (by rewrite <- !app_assoc).
  rewrite !brun_snoc. fold s. destruct s as [m f ts se]. cbn [nb_batches nb_flight nb_timers] in Hb, Hf, Ht. subst m f ts. cbn [b_step nb_batches nb_flight nb_timers nb_sent]. rewrite Ha, lookup_empty. cbn [default app length Nat.leb nb_batches nb_flight nb_timers nb_sent].
  rewrite Hb', lookup_insert. cbn [default app length Nat.leb nb_batches nb_flight nb_timers nb_sent id]. rewrite Hc, lookup_insert. cbn [default app length Nat.leb nb_batches nb_flight nb_timers nb_sent id lookup list_lookup]. rewrite lookup_insert. cbn. by rewrite <- app_assoc.
Qed.
Print Assumptions C112_order_refuted.
Example C112_example : let os := [BAdd (ex_progress 1); BAdd NfTools; BAdd (ex_progress 2); BSend 0; BAdd (ex_progress 3); BTimer 1; BFlush] in
  nb_sent (b_run ex_dbg 2 os) = [[ex_progress 1; ex_progress 2]; [NfTools]; [ex_progress 3]] ∧ nb_timers (b_run ex_dbg 2 os) = [notification_key ex_dbg (ex_progress 1); notification_key ex_dbg (ex_progress 1)].
Proof. split; by vm_compute. Qed.
