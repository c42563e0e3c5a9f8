(** Lemmas for the HTTP transport with an event stream. *)
From stdpp Require Import list strings.
From Verif Require Import ListLib TextLib Utf8Lib JsonLib RpcModel RpcSpec SseModel SseSpec SseProofs HttpSseModel HttpSseSpec.
Global Arguments parse_message : simpl never.
Global Arguments serialize_message : simpl never.
Global Arguments feed : simpl never.
Global Arguments lossy : simpl never.
Global Arguments room : simpl never.
Global Arguments events_messages : simpl never.
Global Arguments queued_of : simpl never.
Global Arguments got_of : simpl never.
Global Arguments answers : simpl never.
Global Arguments posted : simpl never.
Global Arguments chunks_of : simpl never.
Global Arguments same : simpl never.

(** *** Histories *)
Lemma ht_run_snoc cf s os o : ht_run cf s (os ++ [o]) = (ht_step cf (ht_run cf s os) o).1.
Proof. unfold ht_run. by rewrite foldl_snoc. Qed.
Lemma ht_trace_snoc cf s os o : ht_trace cf s (os ++ [o]) = ht_trace cf s os ++ [(ht_run cf s os, o, (ht_step cf (ht_run cf s os) o).2)].
Proof. revert s. induction os as [|x os IH]; intros s; [done|]. cbn [app ht_trace]. by rewrite IH. Qed.
Lemma chunks_of_app k a b : chunks_of k (a ++ b) = chunks_of k a ++ chunks_of k b. Proof. apply omap_app. Qed.
Lemma got_of_app k a b : got_of k (a ++ b) = got_of k a ++ got_of k b. Proof. apply omap_app. Qed.
Lemma answers_app a b : answers (a ++ b) = answers a ++ answers b. Proof. apply omap_app. Qed.
Lemma posted_app a b : posted (a ++ b) = posted a ++ posted b. Proof. apply omap_app. Qed.
Lemma queued_of_app k a b : queued_of k (a ++ b) = queued_of k a ++ queued_of k b. Proof. apply omap_app. Qed.
Lemma queued_one k j m : queued_of k [(j, m)] = if same j k then [m] else [].
Proof. unfold queued_of. cbn. by destruct (same j k). Qed.
Lemma queued_cons k j m q : queued_of k ((j, m) :: q) = (if same j k then [m] else []) ++ queued_of k q.
Proof. unfold queued_of. cbn. by destruct (same j k). Qed.
Lemma same_refl k : same k k = true. Proof. unfold same. by rewrite bool_decide_eq_true. Qed.
Lemma same_ne j k : j ≠ k → same j k = false. Proof. intros. unfold same. by rewrite bool_decide_eq_false. Qed.
Lemma feed_all_snoc p cs c : feed_all p (cs ++ [c]) =
  match feed_all p cs with Some (p1, es1) => match feed p1 c with Some (p2, es2) => Some (p2, es1 ++ es2) | None => None end | None => None end.
Proof.
  revert p. induction cs as [|x cs IH]; intros p; cbn [app feed_all].
  - destruct (feed p c) as [[p2 es2]|]; [|done]. by rewrite app_nil_r.
  - destruct (feed p x) as [[p1 es1]|]; [|done]. rewrite IH. destruct (feed_all p1 cs) as [[p2 es2]|]; [|done].
    destruct (feed p2 c) as [[p3 es3]|]; [|done]. by rewrite app_assoc.
Qed.
Lemma events_messages_app a b : events_messages (a ++ b) = events_messages a ++ events_messages b. Proof. apply omap_app. Qed.

(** *** Conservation *)
Definition sinv (k : nat) (tr : list (htransport * htop * htres)) (s : htransport) : Prop :=
  match ht_tasks s !! k with
  | Some t => sk_state t ≠ SkPanicked → ∃ es, feed_all parser0 (lossy <$> chunks_of k tr) = Some (sk_parser t, es) ∧
      got_of (Some k) tr ++ queued_of (Some k) (ht_queue s) ++ sk_held t = events_messages es
  | None => chunks_of k tr = [] ∧ got_of (Some k) tr = [] ∧ queued_of (Some k) (ht_queue s) = []
  end.
(** A step that leaves the stream's task alone, and adds nothing of it to the channel *)
Lemma sinv_same k tr s x s' : sinv k tr s → ht_tasks s' !! k = ht_tasks s !! k →
  chunks_of k [x] = [] → got_of (Some k) [x] ++ queued_of (Some k) (ht_queue s') = queued_of (Some k) (ht_queue s) → sinv k (tr ++ [x]) s'.
Proof.
  intros H Et Ec Eg. unfold sinv in *. rewrite Et, chunks_of_app, Ec, app_nil_r, got_of_app. destruct (ht_tasks s !! k) as [t|].
  - intros Hp. destruct (H Hp) as (es & H1 & H2). exists es. split; [done|]. rewrite <- H2, <- Eg. by rewrite !app_assoc.
  - destruct H as (H1 & H2 & H3). rewrite H3 in Eg. apply app_eq_nil in Eg as [E1 E2]. by rewrite H2, E1, E2.
Qed.
Lemma sinv_step cf k tr s o : sinv k tr s → sinv k (tr ++ [(s, o, (ht_step cf s o).2)]) (ht_step cf s o).1.
Proof.
  intros H. destruct o as [r|m r| | | | |j|j f|j]; cbn [ht_step].
  - destruct (ht_call s); [by apply (sinv_same _ _ s)|]. destruct (hf_sse cf); [|by apply (sinv_same _ _ s)].
    destruct r as [z|]; [|by apply (sinv_same _ _ s)]. destruct (z =? 200)%Z; [|by apply (sinv_same _ _ s)].
    cbn [fst snd]. destruct (decide (k < length (ht_tasks s))) as [Hl|Hl].
    { apply (sinv_same _ _ s); try done. cbn. by apply lookup_app_l. }
    unfold sinv in *. cbn [ht_tasks spawn make ht_queue]. rewrite chunks_of_app, got_of_app.
    change (chunks_of k [(s, HConnect (Some z), HOk)]) with (@nil (list N)). change (got_of (Some k) [(s, HConnect (Some z), HOk)]) with (@nil message).
    rewrite !app_nil_r. rewrite lookup_ge_None_2 in H by lia. destruct H as (H1 & H2 & H3).
    destruct (decide (k = length (ht_tasks s))) as [->|Hn].
    + rewrite lookup_app_r, Nat.sub_diag by lia. cbn [lookup list_lookup]. intros _. exists []. rewrite H1, H2, H3. done.
    + rewrite lookup_ge_None_2 by (rewrite app_length; cbn; lia). done.
  - destruct (ht_call s); [by apply (sinv_same _ _ s)|]. destruct r as [[z b]|]; [|by apply (sinv_same _ _ s)].
    destruct (z =? 200)%Z; [|by apply (sinv_same _ _ s)]. destruct (b ≫= parse_message) as [x|]; [|by apply (sinv_same _ _ s)].
    destruct (room _); cbn [fst snd]; apply (sinv_same _ _ s); try done. cbn. rewrite queued_of_app, queued_one, same_ne by done. cbn. by rewrite app_nil_r.
  - destruct (ht_call s) as [x|] eqn:Ec; [|by apply (sinv_same _ _ s)]. destruct (room s); cbn [fst snd]; apply (sinv_same _ _ s); try done.
    cbn. rewrite queued_of_app, queued_one, same_ne by done. cbn. by rewrite app_nil_r.
  - by apply (sinv_same _ _ s).
  - destruct (ht_call s); [by apply (sinv_same _ _ s)|]. destruct (ht_queue s) as [|[j m] q] eqn:Eq; [by apply (sinv_same _ _ s)|].
    apply (sinv_same _ _ s); try done. cbn [fst snd ht_queue]. rewrite Eq, queued_cons. f_equal. unfold got_of. cbn. rewrite Eq. by destruct (same j (Some k)).
  - destruct (ht_call s); by apply (sinv_same _ _ s).
  - destruct (ht_tasks s !! j) as [[[] p h]|] eqn:Ej; try by apply (sinv_same _ _ s). destruct (decide (j = k)) as [->|Hn].
    + unfold sinv in *. cbn [fst snd set_connected set_task ht_tasks ht_queue]. rewrite Ej in H. rewrite list_lookup_insert by by eapply lookup_lt_Some.
      rewrite chunks_of_app, got_of_app. change (chunks_of k [(s, HStart k, HOk)]) with (@nil (list N)). change (got_of (Some k) [(s, HStart k, HOk)]) with (@nil message).
      rewrite !app_nil_r. intros _. destruct (H ltac:(done)) as (es & H1 & H2). by exists es.
    + apply (sinv_same _ _ s); try done. cbn. by apply list_lookup_insert_ne.
  - destruct (ht_tasks s !! j) as [[[] p h]|] eqn:Ej; try by (destruct f; apply (sinv_same _ _ s)).
    destruct h as [|m h]; [|by (destruct f; apply (sinv_same _ _ s))]. destruct (decide (j = k)) as [->|Hn].
    + pose proof (lookup_lt_Some _ _ _ Ej) as Hlt. pose proof H as H0. unfold sinv in H. rewrite Ej in H. destruct (H ltac:(done)) as (es & H1 & H2). cbn in H1, H2. rewrite app_nil_r in H2.
      destruct f as [bs| | |].
      * destruct (feed p (lossy bs)) as [[p' es']|] eqn:Ef; unfold sinv; cbn [fst snd set_task ht_tasks ht_queue]; rewrite list_lookup_insert by done; [|done].
        intros _. exists (es ++ es'). rewrite chunks_of_app, got_of_app. change (got_of (Some k) [(s, HFrame k (BfData bs), HOk)]) with (@nil message).
        assert (chunks_of k [(s, HFrame k (BfData bs), HOk)] = [bs]) as -> by (unfold chunks_of; cbn; by rewrite Nat.eqb_refl).
        rewrite app_nil_r, fmap_app. change (lossy <$> [bs]) with [lossy bs]. rewrite feed_all_snoc, H1, Ef. split; [done|].
        cbn [sk_held]. rewrite events_messages_app, <- H2. by rewrite app_assoc.
      * by apply (sinv_same _ _ s).
      * unfold sinv. cbn [fst snd set_connected set_task ht_tasks ht_queue]. rewrite list_lookup_insert by done. intros _. exists es.
        rewrite chunks_of_app, got_of_app. change (got_of (Some k) [(s, HFrame k BfError, HOk)]) with (@nil message). change (chunks_of k [(s, HFrame k BfError, HOk)]) with (@nil (list N)).
        cbn [sk_held]. rewrite !app_nil_r. by split.
      * unfold sinv. cbn [fst snd set_connected set_task ht_tasks ht_queue]. rewrite list_lookup_insert by done. intros _. exists es.
        rewrite chunks_of_app, got_of_app. change (got_of (Some k) [(s, HFrame k BfEnd, HOk)]) with (@nil message). change (chunks_of k [(s, HFrame k BfEnd, HOk)]) with (@nil (list N)).
        cbn [sk_held]. rewrite !app_nil_r. by split.
    + assert (∀ bs r, chunks_of k [(s, HFrame j (BfData bs), r)] = []) as Hc by (intros bs r; unfold chunks_of; cbn; rewrite (proj2 (Nat.eqb_neq j k)) by done; by destruct r).
      destruct f as [bs| | |]; [destruct (feed p (lossy bs)) as [[p' es']|]| | |]; cbn [fst snd]; apply (sinv_same _ _ s); try done; try (cbn; by apply list_lookup_insert_ne); apply Hc.
  - destruct (ht_tasks s !! j) as [[st p [|m h]]|] eqn:Ej; try by apply (sinv_same _ _ s). destruct (room s); [|by apply (sinv_same _ _ s)]. cbn [fst snd].
    destruct (decide (j = k)) as [->|Hn].
    + pose proof (lookup_lt_Some _ _ _ Ej) as Hlt. unfold sinv in *. rewrite Ej in H. cbn [ht_tasks ht_queue enqueue set_task]. rewrite list_lookup_insert by done.
      intros Hp. destruct (H Hp) as (es & H1 & H2). exists es. rewrite chunks_of_app, got_of_app. change (got_of (Some k) [(s, HPut k, HOk)]) with (@nil message). change (chunks_of k [(s, HPut k, HOk)]) with (@nil (list N)).
      rewrite !app_nil_r. split; [done|]. rewrite <- H2. rewrite queued_of_app, queued_one, same_refl. cbn [sk_held]. by rewrite <- app_assoc.
    + apply (sinv_same _ _ s); try done; [cbn; by apply list_lookup_insert_ne|]. cbn. rewrite queued_of_app, queued_one, same_ne by congruence. cbn. by rewrite app_nil_r.
Qed.
Lemma sinv_run cf os k : sinv k (ht_trace cf ht_new os) (ht_run cf ht_new os).
Proof. induction os as [|o os IH] using rev_ind; [done|]. rewrite ht_run_snoc, ht_trace_snoc. by apply sinv_step. Qed.

Lemma stream_received cf os k t : let s := ht_run cf ht_new os in let tr := ht_trace cf ht_new os in
  ht_tasks s !! k = Some t → sk_state t ≠ SkPanicked →
  messages_in (lossy <$> chunks_of k tr) = Some (got_of (Some k) tr ++ queued_of (Some k) (ht_queue s) ++ sk_held t).
Proof.
  intros s tr Ht Hp. pose proof (sinv_run cf os k) as H. unfold sinv in H. fold s tr in H. rewrite Ht in H. destruct (H Hp) as (es & H1 & H2).
  unfold messages_in. rewrite H1, H2. done.
Qed.
Local Ltac triv := symmetry; etransitivity; [apply app_nil_r|reflexivity].
Lemma answers_received cf os : let s := ht_run cf ht_new os in let tr := ht_trace cf ht_new os in
  got_of None tr ++ queued_of None (ht_queue s) = answers tr.
Proof.
  cbn zeta. induction os as [|o os IH] using rev_ind; [done|]. rewrite ht_run_snoc, ht_trace_snoc, got_of_app, answers_app.
  set (s := ht_run cf ht_new os) in *. set (tr := ht_trace cf ht_new os) in *. clearbody s tr. rewrite <- IH, <- !app_assoc. f_equal. clear IH.
  destruct o as [r|m r| | | | |j|j f|j]; cbn [ht_step].
  - destruct (ht_call s), (hf_sse cf), r as [z|]; try destruct (z =? 200)%Z; triv.
  - destruct (ht_call s); [destruct r as [[? [?|]]|]; triv|]. destruct r as [[z [b|]]|]; [| |triv]; (destruct (z =? 200)%Z; [|triv]).
    + cbn [mbind option_bind]. destruct (parse_message b) as [x|] eqn:Ex; [|triv]. destruct (room _); cbn [fst snd].
      * assert (answers [(s, HSend m (Some (z, Some b)), HOk)] = [x]) as -> by (unfold answers; cbn; by rewrite Ex).
        cbn [enqueue make ht_queue]. by rewrite queued_of_app, queued_one.
      * triv.
    + triv.
  - destruct (ht_call s) as [x|] eqn:Ec; [|triv]. destruct (room s); [|triv]. cbn [fst snd].
    assert (answers [(s, HRetry, HOk)] = [x]) as -> by (unfold answers; cbn; by rewrite Ec). cbn [fst enqueue set_call ht_queue]. by rewrite queued_of_app, queued_one.
  - triv.
  - destruct (ht_call s); [triv|]. destruct (ht_queue s) as [|[j m] q] eqn:Eq; [cbn [fst snd]; by rewrite Eq|]. cbn [fst snd ht_queue].
    assert (got_of None [(s, HReceive, HGot m)] = if same j None then [m] else []) as -> by (unfold got_of; cbn; rewrite Eq; by destruct (same j None)).
    rewrite queued_cons. change (answers [(s, HReceive, HGot m)]) with (@nil message). by rewrite app_nil_r.
  - destruct (ht_call s); triv.
  - destruct (ht_tasks s !! j) as [[[] ? ?]|]; triv.
  - destruct (ht_tasks s !! j) as [[[] p [|? ?]]|]; destruct f as [bs| | |]; try (triv). destruct (feed p (lossy bs)) as [[? ?]|]; triv.
  - destruct (ht_tasks s !! j) as [[st p [|? ?]]|]; try (triv). destruct (room s); [|triv].
    cbn [fst snd enqueue set_task ht_queue]. rewrite queued_of_app, queued_one, same_ne by done. change (answers [(s, HPut j, HOk)]) with (@nil message). by rewrite !app_nil_r.
Qed.
Lemma requests_made cf os : let tr := ht_trace cf ht_new os in posts (ht_made (ht_run cf ht_new os)) = post_request <$> posted tr.
Proof.
  cbn zeta. induction os as [|o os IH] using rev_ind; [done|]. rewrite ht_run_snoc, ht_trace_snoc, posted_app, fmap_app, <- IH.
  set (s := ht_run cf ht_new os) in *. clearbody s. clear IH. unfold posts.
  destruct o as [r|m r| | | | |j|j f|j]; cbn [ht_step].
  - destruct (ht_call s), (hf_sse cf), r as [z|]; try destruct (z =? 200)%Z; cbn; rewrite ?filter_app; cbn; by rewrite ?app_nil_r.
  - destruct (ht_call s); [triv|]. destruct r as [[z b]|]; [|cbn; by rewrite filter_app]. destruct (z =? 200)%Z; [|cbn; by rewrite filter_app].
    destruct (b ≫= parse_message) as [x|]; [|cbn; by rewrite filter_app]. destruct (room _); cbn; by rewrite filter_app.
  - destruct (ht_call s) as [x|] eqn:Ec; [|triv]. destruct (room s); triv.
  - triv.
  - destruct (ht_call s); [triv|]. destruct (ht_queue s) as [|[j m] q]; triv.
  - destruct (ht_call s); triv.
  - destruct (ht_tasks s !! j) as [[[] ? ?]|]; triv.
  - destruct (ht_tasks s !! j) as [[[] p [|? ?]]|]; destruct f as [bs| | |]; try (triv). destruct (feed p (lossy bs)) as [[? ?]|]; triv.
  - destruct (ht_tasks s !! j) as [[st p [|? ?]]|]; try (triv). destruct (room s); triv.
Qed.
