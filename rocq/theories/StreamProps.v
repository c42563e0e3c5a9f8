(** Properties C214 (a parser that is reset) and C215 (the stream builder). *)
From stdpp Require Import sets list strings.
From Verif Require Import ListLib TextLib SseModel SseSpec SseSpec2 SseProofs SseProofs2 SseProps StreamModel StreamSpec.

Lemma run_feeds chunks p es : fold_left p_step (texts chunks) (Some (p, es)) = (λ r, (r.1, es ++ r.2)) <$> feed_all p chunks.
Proof.
  revert p es. induction chunks as [|c cs IH]; intros p es; [cbn; by rewrite app_nil_r|]. cbn [texts fmap list_fmap fold_left p_step feed_all].
  destruct (feed p c) as [[p1 es1]|] eqn:E.
  - fold (texts cs). rewrite IH. destruct (feed_all p1 cs) as [[p2 es2]|]; [|done]. cbn. by rewrite app_assoc.
  - clear IH. induction cs as [|c' cs IH']; [done|]. cbn [fmap list_fmap fold_left p_step]. done.
Qed.
Lemma run_app os os' : p_run (os ++ os') = fold_left p_step os' (p_run os).
Proof. apply fold_left_app. Qed.

(** ** C214 *)
(** After a reset the stream is read from its start: whatever was fed before – half an event, half a line – the
    events of the text that follows arrive exactly as they would have arrived alone (C18), those before
    the first id with the id known so far. *)
Theorem C214_restart : ∀ os p got es chunks, p_run os = Some (p, got) → Forall headed es → concat chunks = concat (display <$> es) →
  ∃ p', p_run (os ++ PReset :: texts chunks) = Some (p', got ++ seen (last_event_id p) es) ∧ last_event_id p' = fold_left next_id es (last_event_id p).
Proof.
  intros os p got es chunks Hr He Hc. rewrite run_app, Hr. cbn [fold_left p_step]. rewrite run_feeds. unfold reset. rewrite (all_seen es chunks (p_last p) He Hc).
  eexists. by split.
Qed.
Print Assumptions C214_restart.
(** For any text, well-formed or not, what happens after a reset depends on the past only through the id. *)
Theorem C214_forgets : ∀ os1 os2 p1 p2 got1 got2 chunks, p_run os1 = Some (p1, got1) → p_run os2 = Some (p2, got2) → last_event_id p1 = last_event_id p2 →
  match p_run (os1 ++ PReset :: texts chunks), p_run (os2 ++ PReset :: texts chunks) with
  | Some (p1', got1'), Some (p2', got2') => p1' = p2' ∧ drop (length got1) got1' = drop (length got2) got2'
  | None, None => True
  | _, _ => False
  end.
Proof.
  intros os1 os2 p1 p2 got1 got2 chunks H1 H2 He. rewrite !run_app, H1, H2. cbn [fold_left p_step]. rewrite !run_feeds. unfold reset. unfold last_event_id in He. rewrite He.
  destruct (feed_all _ chunks) as [[q es]|]; [|done]. cbn. by rewrite !drop_app.
Qed.
Print Assumptions C214_forgets.
(** A parser that has seen no id is after a reset like a new one. *)
Theorem C214_fresh : ∀ os p got chunks, p_run os = Some (p, got) → last_event_id p = None →
  p_run (os ++ PReset :: texts chunks) = (λ r, (r.1, got ++ r.2)) <$> p_run (texts chunks).
Proof.
  intros os p got chunks H He. rewrite run_app, H. cbn [fold_left p_step]. rewrite run_feeds. unfold reset. unfold last_event_id in He. rewrite He.
  unfold p_run. rewrite run_feeds. fold parser0. by destruct (feed_all parser0 chunks) as [[q es]|].
Qed.
Print Assumptions C214_fresh.
(** A reset loses nothing that has arrived and keeps the last event id. *)
Theorem C214_keeps : ∀ os p got, p_run os = Some (p, got) → ∃ p', p_run (os ++ [PReset]) = Some (p', got) ∧ last_event_id p' = last_event_id p.
Proof. intros os p got H. rewrite run_app, H. by eexists. Qed.
Print Assumptions C214_keeps.
(** Refuted: that the id known is that of an event that arrived.  It is that of the last id line, though the
    event it belongs to never came to its end: asked to resume after it, a server will not send that event. *)
Theorem C214_unfinished_refuted : ∀ os p got id, p_run os = Some (p, got) → no_break id → 0%N ∉ id →
  ∃ p', p_run (os ++ [PReset; PFeed (lit "id: " ++ id ++ [LF]); PReset]) = Some (p', got) ∧ last_event_id p' = Some id.
Proof.
  intros os p got id H [Hlf Hcr] H0. rewrite run_app, H. cbn [fold_left p_step].
  change (lit "id: " ++ id ++ [LF]) with (lit "id" ++ [COLON; SP] ++ id ++ [LF]).
  assert (feed (reset p) (lit "id" ++ [COLON; SP] ++ id ++ [LF]) = Some (MkP [] (MkB (Some id) None [] None) (Some id), [])) as ->; [|rewrite app_nil_r; by eexists].
  unfold reset.
  assert (∀ c, c ∉ id → c ∉ lit "id: " → c ∉ lit "id" ++ [COLON; SP] ++ id) as Hno.
  { intros c H1 H2. change (lit "id" ++ [COLON; SP] ++ id) with (lit "id: " ++ id). rewrite elem_of_app. tauto. }
  assert (LF ∉ lit "id: ") as Hl by (apply (bool_decide_unpack _); by vm_compute). assert (CR ∉ lit "id: ") as Hr by (apply (bool_decide_unpack _); by vm_compute).
  assert (lit "id" ++ [COLON; SP] ++ id ++ [LF] = (lit "id" ++ [COLON; SP] ++ id) ++ LF :: []) as -> by (by rewrite <-!app_assoc).
  rewrite C71_lines_partial; [|by apply Hno|].
  2:{ apply plain_tame. right. rewrite elem_of_app. intros [Hin|Hin]; [by eapply Hno in Hin|]. revert Hin. apply (bool_decide_unpack _). by vm_compute. }
  rewrite strip_cr_none by (by apply Hno).
  rewrite (proj1 (C71_field_lines builder0 (p_last p) (lit "id") id ltac:(done) ltac:(apply (bool_decide_unpack _); by vm_compute))).
  unfold field_effect. rewrite decide_False by done. rewrite decide_False by done. rewrite decide_True by done. rewrite decide_False by done. done.
Qed.
Print Assumptions C214_unfinished_refuted.
Example C214_example :
  (λ r, (last_event_id r.1, r.2)) <$> p_run [PFeed (lit "id: 1" ++ [LF] ++ lit "data: lost" ++ [LF] ++ lit "data: ha"); PReset; PFeed (lit "data: x" ++ [LF]); PFeed ([LF] ++ lit "id: 2" ++ [LF] ++ lit "data: y" ++ [LF; LF])]
  = Some (Some (lit "2"), [MkSse (Some (lit "1")) None (lit "x") None; MkSse (Some (lit "2")) None (lit "y") None]).
Proof. by vm_compute. Qed.

(** ** C215 *)
Lemma built_events os es : fold_left b_step os es = es ++ asked_for os.
Proof.
  revert es. induction os as [|o os IH]; intros es; [by rewrite app_nil_r|]. cbn [fold_left]. rewrite IH.
  destruct o; cbn [b_step asked_for omap list_omap]; rewrite <-?app_assoc; done.
Qed.
(** What a stream was built from arrives, in order, however the text is cut: exactly (an event without id with
    the id before it) if it can be written, see C18 ... *)
Theorem C215_arrives_partial : ∀ os chunks, Forall writable (asked_for os) → concat chunks = stream_of os →
  ∃ p, feed_all parser0 chunks = Some (p, received None (asked_for os)).
Proof.
  intros os chunks Hw Hc. unfold stream_of in Hc. rewrite built_events in Hc. eexists. exact (C18_round_trip_partial _ _ None Hw Hc).
Qed.
Print Assumptions C215_arrives_partial.
(** ... and otherwise without the line feeds at the ends of its data. *)
Theorem C215_seen_partial : ∀ os chunks, Forall headed (asked_for os) → concat chunks = stream_of os →
  ∃ p, feed_all parser0 chunks = Some (p, seen None (asked_for os)).
Proof.
  intros os chunks Hw Hc. unfold stream_of in Hc. rewrite built_events in Hc. eexists. exact (C18_seen_partial _ _ None Hw Hc).
Qed.
Print Assumptions C215_seen_partial.
(** Refuted: comments, for keeping connections alive, are not written at all. *)
Theorem C215_comment_refuted : ∀ os os' c, stream_of (os ++ BComment c :: os') = stream_of (os ++ os').
Proof. intros os os' c. unfold stream_of. by rewrite !fold_left_app. Qed.
Print Assumptions C215_comment_refuted.
(** A stream of nothing but comments is empty, though a parser would skip their lines. *)
Theorem C215_silent_refuted : ∀ cs, stream_of (BComment <$> cs) = [] ∧
  (∀ p, p_buf p = [] → Forall (λ c, LF ∉ c ∧ CR ∉ c) cs → feed_all p (comment_line <$> cs) = Some (p, [])).
Proof.
  intros cs. split.
  { unfold stream_of. rewrite built_events. cbn [app]. assert (asked_for (BComment <$> cs) = []) as -> by (by induction cs). done. }
  intros [buf cur lastid] Hb H. cbn in Hb. subst buf. induction H as [|c cs [Hl Hr] _ IH]; [done|]. cbn [fmap list_fmap feed_all]. unfold comment_line at 1.
  change (COLON :: c ++ [LF]) with ((COLON :: c) ++ LF :: []).
  assert (CR ∉ COLON :: c) as Hc by (rewrite not_elem_of_cons; split; [by vm_compute|done]).
  rewrite C71_lines_partial; [|rewrite not_elem_of_cons; split; [by vm_compute|done]|].
  2:{ apply plain_tame. right. rewrite elem_of_app. intros [Hin|Hin]; [by apply Hc|]. revert Hin. apply (bool_decide_unpack _). by vm_compute. }
  rewrite strip_cr_none by done. rewrite (proj1 (C71_other_lines cur lastid c)).
  assert (feed (MkP [] cur lastid) [] = Some (MkP [] cur lastid, [])) as -> by done. cbn [option_list app]. rewrite IH. done.
Qed.
Print Assumptions C215_silent_refuted.
Example C215_example : let os := [BData (lit "a" ++ [LF] ++ lit "b"); BComment (lit "ping"); BTyped (lit "t") (lit "c"); BEvent (MkSse (Some (lit "7")) None (lit "d") (Some 5%N))] in
  Forall writable (asked_for os) ∧ snd <$> feed_all parser0 [take 9 (stream_of os); drop 9 (stream_of os)] = Some (asked_for os).
Proof.
  split; [|by vm_compute].
  repeat (apply Forall_cons; split); try by apply Forall_nil_2.
  all: split; [intros v Hv; first [discriminate Hv|injection Hv as <-; split; [split|]; apply (bool_decide_unpack _); by vm_compute]|].
  all: split; [intros v Hv; first [discriminate Hv|injection Hv as <-; split; apply (bool_decide_unpack _); by vm_compute]|].
  all: split; [intros v Hv; first [discriminate Hv|injection Hv as <-; by vm_compute]|].
  all: split; [apply (bool_decide_unpack _); by vm_compute|]; split; [apply (bool_decide_unpack _); by vm_compute|]; split; apply (bool_decide_unpack _); by vm_compute.
Qed.
