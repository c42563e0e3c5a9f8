(** Properties C07 - C10, C65, C66 (event store and resumption). *)
From stdpp Require Import gmap strings list.
From Verif Require Import EventStoreModel EventStoreSpec EventStoreProofs EventStoreProofs2.

(** C07: after every history of atomic steps what the store holds is a newest, contiguous suffix
    of everything stored, in storing order. *)
Theorem C07_newest_suffix : ∀ max_events max_age h,
  ∃ k, k ≤ length (stored h) ∧ st_events (sruns max_events max_age h) = drop k (stored h).
Proof. exact events_suffix. Qed.
Print Assumptions C07_newest_suffix.

(** C07: once a store call has cleaned up, at most [max_events] are held; in between at most one
    more per store call that has not cleaned up yet. *)
Theorem C07_bounded : ∀ max_events max_age h now h2,
  length (st_events (sruns max_events max_age (h ++ SCleanup now :: h2)))
  ≤ max_events + length (stored h2).
Proof. intros. apply bounded_inflight. Qed.
Print Assumptions C07_bounded.

(** C07: exactly which events are kept.  With distinct ids and non-decreasing timestamps, the
    event is held after any later steps iff it survived each of them. *)
Theorem C07_retained_iff : ∀ max_events max_age h1 e h2,
  NoDup (ev_id <$> stored (h1 ++ SPush e :: h2)) →
  (∀ i j a b, i ≤ j → stored (h1 ++ SPush e :: h2) !! i = Some a →
     stored (h1 ++ SPush e :: h2) !! j = Some b → (ev_ts a <= ev_ts b)%Z) →
  e ∈ st_events (sruns max_events max_age (h1 ++ SPush e :: h2)) ↔
  survives max_events max_age (ev_ts e) 0 h2.
Proof. exact retained_iff. Qed.
Print Assumptions C07_retained_iff.

(** C07: [clear_events_before] removes exactly the returned number of events, all too old, and
    stops at the first that is not. *)
Theorem C07_clear_count : ∀ t s,
  st_events s = take (clear_count t s) (st_events s) ++ pop_older t (st_events s) ∧
  Forall (λ e, (ev_ts e < t)%Z) (take (clear_count t s) (st_events s)) ∧
  (∀ e, head (pop_older t (st_events s)) = Some e → (t <= ev_ts e)%Z).
Proof. exact clear_count_spec. Qed.
Print Assumptions C07_clear_count.

(** C08: asking for what follows a retained event gives exactly the events stored after it. *)
Theorem C08_resume_after_known : ∀ max_events max_age h1 e h2 limit,
  NoDup (ev_id <$> stored (h1 ++ SPush e :: h2)) →
  e ∈ st_events (sruns max_events max_age (h1 ++ SPush e :: h2)) →
  get_events_since (sruns max_events max_age (h1 ++ SPush e :: h2)) (ev_id e) limit
  = match limit with Some n => take n (stored h2) | None => stored h2 end.
Proof. exact since_retained. Qed.
Print Assumptions C08_resume_after_known.

(** C09: resuming returns only events stored after the token was created, in order; all of them
    while the store has not dropped any of those, otherwise exactly what it still holds. *)
Theorem C09_resume_no_replay : ∀ max_events max_age h1 h2 tok e now,
  NoDup (ev_id <$> stored (h1 ++ SToken tok :: h2)) → SToken tok ∉ h2 →
  last (st_events (sruns max_events max_age h1)) = Some e →
  ∃ k, resume_events (sruns max_events max_age (h1 ++ SToken tok :: h2)) now tok
         = Some (drop k (stored h2)) ∧
       (k = 0 ∨ st_events (sruns max_events max_age (h1 ++ SToken tok :: h2)) = drop k (stored h2)).
Proof. exact resume_only_new. Qed.
Print Assumptions C09_resume_no_replay.

(** C09: while the newest event at token creation is still retained nothing is missing. *)
Theorem C09_resume_complete : ∀ max_events max_age h1 h2 tok e now,
  NoDup (ev_id <$> stored (h1 ++ SToken tok :: h2)) → SToken tok ∉ h2 →
  last (st_events (sruns max_events max_age h1)) = Some e →
  e ∈ st_events (sruns max_events max_age (h1 ++ SToken tok :: h2)) →
  resume_events (sruns max_events max_age (h1 ++ SToken tok :: h2)) now tok = Some (stored h2).
Proof. exact resume_retained. Qed.
Print Assumptions C09_resume_complete.

(** C67: but a gap is silent: once the first event after the token is no longer held, resuming
    still succeeds, without it, and gives whatever happens to be held. *)
Theorem C67_silent_gap_refuted : ∀ max_events max_age h1 h2 tok e now e1 l,
  NoDup (ev_id <$> stored (h1 ++ SToken tok :: h2)) → SToken tok ∉ h2 →
  last (st_events (sruns max_events max_age h1)) = Some e → stored h2 = e1 :: l →
  e1 ∉ st_events (sruns max_events max_age (h1 ++ SToken tok :: h2)) →
  resume_events (sruns max_events max_age (h1 ++ SToken tok :: h2)) now tok
    = Some (st_events (sruns max_events max_age (h1 ++ SToken tok :: h2))).
Proof.
  intros M A h1 h2 tok e now e1 l Hnd Hnt Hl Hs He.
  destruct (resume_only_new M A h1 h2 tok e now Hnd Hnt Hl) as (k & Hk & [->|Hev]); [|by rewrite Hk, Hev].
  exfalso. rewrite drop_0, Hs in Hk. apply He. unfold resume_events in Hk. apply bind_Some in Hk as (r & _ & Hk).
  assert (get_events_since (sruns M A (h1 ++ SToken tok :: h2)) (rs_last r) None = e1 :: l) as Hg by congruence.
  apply (since_subset _ (rs_last r) None). rewrite Hg. by left.
Qed.
Print Assumptions C67_silent_gap_refuted.

(** C10, the part that holds: the numbers one manager hands out are consecutive, whatever the
    other callers do, as long as it does not resume. *)
Theorem C10_consecutive_partial : ∀ max_events max_age sess w m h,
  (∀ tok now, MResume m tok now ∉ h) →
  taken_by max_events max_age sess m w h =
  (λ i, counter w m + N.of_nat i)%N <$> seq 0 (length (taken_by max_events max_age sess m w h)).
Proof. exact taken_consecutive. Qed.
Print Assumptions C10_consecutive_partial.

(** C10: so no two events held for one session have the same number, whatever the interleaving of
    the record calls. *)
Theorem C10_distinct_partial : ∀ max_events max_age sess m h, (∀ a b, sess a = sess b → a = b) → (∀ tok now, MResume m tok now ∉ h) →
  NoDup (ev_seq <$> filter (λ e, ev_session e = sess m) (st_events (w_store (mruns max_events max_age sess h)))).
Proof.
  intros max_events max_age sess m h Hi Hr. pose proof (ni_nodup _ _ _ (ninv_run max_events max_age sess m Hi h Hr)) as H. unfold numbers in H.
  erewrite list_filter_iff; [exact H|]. intros e. unfold mine. by rewrite bool_decide_eq_true.
Qed.
Print Assumptions C10_distinct_partial.
(** C10: every record call that has taken a number stores one event, with this number and its session. *)
Theorem C10_recorded : ∀ max_events max_age sess w t m h id ts msg d, w_tasks w !! t = None → (∀ o, o ∈ h → ∀ i s' g d', o ≠ MPush t i s' g d') →
  let run := fold_left (mstep max_events max_age sess) in let w1 := run h (mstep max_events max_age sess w (MTake t m)) in
  let w2 := mstep max_events max_age sess w1 (MPush t id ts msg d) in
  st_events (w_store w2) = st_events (w_store w1) ++ [MkEvent id ts msg d (sess m) (counter w m)] ∧
  ∀ id' ts' msg' d', mstep max_events max_age sess w2 (MPush t id' ts' msg' d') = w2.
Proof.
  intros max_events max_age sess w t m h id ts msg d Ht Hh. cbn zeta.
  assert (w_tasks (fold_left (mstep max_events max_age sess) h (mstep max_events max_age sess w (MTake t m))) !! t = Some (m, counter w m)) as E.
  { induction h as [|o h IH] using rev_ind.
    - cbn [fold_left mstep]. rewrite Ht. cbn [w_tasks]. by rewrite lookup_insert.
    - rewrite fold_left_app. cbn [fold_left]. set (w' := fold_left _ h _) in *. assert (w_tasks w' !! t = Some (m, counter w m)) as E by (apply IH; intros o' Ho'; apply Hh, elem_of_app; by left).
      clearbody w'. assert (∀ i s' g d', o ≠ MPush t i s' g d') as Ho by (apply Hh, elem_of_app; right; by apply elem_of_list_singleton).
      destruct o as [t' m'|t' i s' g d'|now|t'|tok|m' tok now]; cbn [mstep]; try done.
      + destruct (w_tasks w' !! t') as [?|] eqn:E'; [done|]. cbn [w_tasks]. rewrite lookup_insert_ne; [done|]. intros ->. congruence.
      + destruct (w_tasks w' !! t') as [[? ?]|] eqn:E'; [|done]. cbn [w_tasks]. rewrite lookup_delete_ne; [done|]. intros ->. by eapply Ho.
      + by destruct (validate_token (w_store w') now tok). }
  set (w1 := fold_left _ h _) in *. clearbody w1. cbn [mstep]. rewrite E. split; [done|]. intros id' ts' msg' d'. cbn [w_tasks]. by rewrite lookup_delete.
Qed.
Print Assumptions C10_recorded.

(** C10 fails across [resume_from_token]: the first number handed out after a token was made is
    handed out again by the first record call after resuming with that token. *)
Theorem C10_resume_reuses_refuted : ∀ max_events max_age sess w m e tok now h t,
  last (st_events (w_store w)) = Some e → counter w m = (ev_seq e + 1)%N →
  MToken tok ∉ h → (∀ tok' now', MResume m tok' now' ∉ h) →
  taken_by max_events max_age sess m (mstep max_events max_age sess w (MToken tok)) h ≠ [] →
  w_tasks (fold_left (mstep max_events max_age sess) (MToken tok :: h) w) !! t = None →
  ∃ l, taken_by max_events max_age sess m w (MToken tok :: h ++ [MResume m tok now; MTake t m]) = (ev_seq e + 1)%N :: l ++ [(ev_seq e + 1)%N].
Proof. exact resume_repeats. Qed.
Print Assumptions C10_resume_reuses_refuted.

(** C10 also fails for the order of storing: any two concurrent records can be stored in the
    opposite order of their numbers. *)
Theorem C10_store_order_refuted : ∀ max_events max_age sess w m t1 t2 id1 ts1 msg1 d1 id2 ts2 msg2 d2,
  w_tasks w !! t1 = None → w_tasks w !! t2 = None → t1 ≠ t2 →
  st_events (w_store (fold_left (mstep max_events max_age sess) [MTake t1 m; MTake t2 m; MPush t2 id2 ts2 msg2 d2; MPush t1 id1 ts1 msg1 d1] w))
  = st_events (w_store w) ++ [MkEvent id2 ts2 msg2 d2 (sess m) (counter w m + 1); MkEvent id1 ts1 msg1 d1 (sess m) (counter w m)].
Proof.
  intros M A sess w m t1 t2 id1 ts1 msg1 d1 id2 ts2 msg2 d2 H1 H2 Hne. cbn [fold_left mstep]. rewrite H1. cbn [w_tasks w_counter w_store]. rewrite lookup_insert_ne, H2 by done.
  cbn [w_tasks w_counter w_store]. rewrite lookup_insert. cbn [w_tasks w_counter w_store].
  rewrite lookup_delete_ne, lookup_insert_ne, lookup_insert by done.
  cbn [w_store sstep st_events]. rewrite <-app_assoc. unfold counter. cbn [w_counter]. by rewrite lookup_insert.
Qed.
Print Assumptions C10_store_order_refuted.

(** C65: resuming hands one session the events of another: what a token made for one session gives
    back is everything stored since, whatever session it belongs to. *)
Theorem C65_session_isolation_refuted : ∀ max_events max_age h1 h2 tok e now other,
  NoDup (ev_id <$> stored (h1 ++ SToken tok :: h2)) → SToken tok ∉ h2 →
  last (st_events (sruns max_events max_age h1)) = Some e →
  e ∈ st_events (sruns max_events max_age (h1 ++ SToken tok :: h2)) →
  other ∈ stored h2 → ev_session other ≠ ev_session e →
  (∃ r, validate_token (sruns max_events max_age (h1 ++ SToken tok :: h2)) now tok = Some r ∧ rs_session r = ev_session e) ∧
  ∃ l, resume_events (sruns max_events max_age (h1 ++ SToken tok :: h2)) now tok = Some l ∧ other ∈ l.
Proof.
  intros M A h1 h2 tok e now other Hnd Hnt Hl He Ho Hne. split.
  - unfold validate_token. change (SToken tok :: h2) with ([SToken tok] ++ h2). rewrite app_assoc, (tokens_mono M A) by done. rewrite (token_created M A h1 e) by done. by eexists.
  - eexists. split; [by eapply resume_retained|done].
Qed.
Print Assumptions C65_session_isolation_refuted.

(** C66: a token is accepted at every later time, also beyond the 24 hours it states, whatever
    happens to the store. *)
Theorem C66_token_never_expires_refuted : ∀ max_events max_age h1 h2 tok e now,
  last (st_events (sruns max_events max_age h1)) = Some e → SToken tok ∉ h2 →
  validate_token (sruns max_events max_age ((h1 ++ [SToken tok]) ++ h2)) now tok
  = Some (MkRState (ev_session e) (ev_id e) (ev_seq e + 1)).
Proof.
  intros M A h1 h2 tok e now Hl Hn. unfold validate_token.
  rewrite (tokens_mono M A) by done. by apply token_created.
Qed.
Print Assumptions C66_token_never_expires_refuted.

(** Non-vacuity: room for two events, three stored after the token; a resumption repeats a number;
    two records are stored in the opposite order; a token of alice gives back an event of bob. *)
Definition evn (id : string) (ts : Z) (q : N) : event := MkEvent id ts 0 Outbound "s" q.
Example C67_example :
  let h1 := [SPush (evn "a" 0 0); SCleanup 0] in
  let h2 := [SPush (evn "b" 1 1); SCleanup 1; SPush (evn "c" 2 2); SCleanup 2;
             SPush (evn "d" 3 3); SCleanup 3] in
  stored h2 = [evn "b" 1 1; evn "c" 2 2; evn "d" 3 3] ∧
  resume_events (sruns 2 100 (h1 ++ SToken "t" :: h2)) 3 "t" = Some [evn "c" 2 2; evn "d" 3 3].
Proof. vm_compute. done. Qed.
Example C10_resume_example :
  taken_by 10 100 (λ _, "s"%string) 0 world0
    [MTake 0 0; MPush 0 "a" 0 0 Outbound; MCleanup 0; MToken "t";
     MTake 1 0; MPush 1 "b" 1 0 Outbound; MCleanup 1; MResume 0 "t" 2; MTake 2 0] = [0; 1; 1]%N.
Proof. vm_compute. reflexivity. Qed.
Example C10_order_example :
  ev_seq <$> st_events (w_store (mruns 10 100 (λ _, "s"%string)
    [MTake 0 0; MTake 1 0; MPush 1 "b" 0 0 Outbound; MCleanup 0; MPush 0 "a" 1 0 Outbound; MCleanup 1]))
  = [1; 0]%N.
Proof. vm_compute. reflexivity. Qed.
Example C65_example :
  let sess m := if decide (m = 0) then "alice"%string else "bob"%string in
  let w := mruns 10 100 sess
    [MTake 0 0; MPush 0 "a" 0 0 Outbound; MCleanup 0; MToken "t";
     MTake 1 1; MPush 1 "b" 1 7 Outbound; MCleanup 1; MResume 0 "t" 2] in
  ∃ r, validate_token (w_store w) 2 "t" = Some r ∧ rs_session r = "alice"%string ∧
       (ev_session <$> default [] (resume_events (w_store w) 2 "t")) = ["bob"%string].
Proof. eexists. vm_compute. done. Qed.

(** Non-vacuity: five events, room for three, a clear in between. *)
Example C07_example :
  let h := [SPush (evn "a" 0 0); SCleanup 0; SPush (evn "b" 1 1); SCleanup 1;
            SPush (evn "c" 2 2); SCleanup 2; SPush (evn "d" 3 3); SCleanup 3; SClear 2; SPush (evn "e" 4 4); SCleanup 4] in
  (ev_id <$> st_events (sruns 3 100 h)) = ["c"; "d"; "e"] ∧
  survives 3 100 2 0 [SCleanup 2; SPush (evn "d" 3 3); SCleanup 3; SClear 2; SPush (evn "e" 4 4); SCleanup 4] ∧
  ¬ survives 3 100 1 0 [SCleanup 1; SPush (evn "c" 2 2); SCleanup 2; SPush (evn "d" 3 3); SCleanup 3; SClear 2; SPush (evn "e" 4 4); SCleanup 4] ∧
  (ev_id <$> get_events_since (sruns 3 100 h) "c" (Some 1)) = ["d"].
Proof. split; [vm_compute; done|]. split; [simpl; lia|]. split; [simpl; lia|]. vm_compute; done. Qed.
