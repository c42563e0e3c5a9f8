(** C61: trace context survives header propagation.  C196: headers of strangers. *)
From stdpp Require Import list strings gmap.
From Coq Require Import ZifyBool.
From Verif Require Import ListLib TextLib Utf8Lib JsonLib RpcModel ContextModel ContextSpec ContextProofs ContextProofs2.
Local Open Scope N_scope.

Lemma hop_sent c : standard c → ∀ fresh span, ∃ h c', to_headers c = Some h ∧ from_headers fresh span h = Some (Some c') ∧ kept c c' ∧ span_id c' = span ∧
  ∀ g1 g2 g3 g4 g5, uuid_of (span_id c) g1 g2 g3 g4 g5 → parent_span_id c' = Some (g1 ++ [45] ++ g2 ++ [45] ++ g3 ++ [45] ++ lit "0000" ++ [45] ++ lit "000000000000").
Proof.
  intros ((t1 & t2 & t3 & t4 & t5 & Ht) & (s1 & s2 & s3 & s4 & s5 & Hs) & z & Hz & Hr) fresh span.
  pose proof (span_slice _ _ _ _ _ _ Hs) as Hsl. assert (∃ h, to_headers c = Some h) as [h Hh] by (unfold to_headers; rewrite Hsl; eauto).
  destruct (from_to fresh span c h Hh) as (s16 & Hsl' & Hf). rewrite Hsl in Hsl'. injection Hsl' as <-. rewrite (uuid_undashed _ _ _ _ _ _ Ht), (restore_uuid _ _ _ _ _ _ Ht) in Hf.
  assert (restore_span (s1 ++ s2 ++ s3) = Some (s1 ++ [45] ++ s2 ++ [45] ++ s3 ++ [45] ++ lit "0000" ++ [45] ++ lit "000000000000")) as Hp by (apply restore_span_uuid; apply Hs). rewrite Hp in Hf.
  eexists _, _. split; [exact Hh|]. split; [exact Hf|]. split; [|split; [done|]].
  - unfold kept. cbn [trace_id request_id user_id session_id baggage]. split; [done|]. split; [|done]. unfold rid_after. rewrite Hz. cbn [show_rid]. by rewrite parse_i64_show.
  - intros g1 g2 g3 g4 g5 Hg. cbn [parent_span_id]. pose proof (span_slice _ _ _ _ _ _ Hg) as Hsl2. rewrite Hsl in Hsl2. injection Hsl2 as E. rewrite <- Hp, E. apply restore_span_uuid; apply Hg.
Qed.
(** A context made by the library for a request with a numeric id arrives with the same trace, request,
    user, session and baggage; as parent it has the first half of the sender's span. *)
Theorem C61_restored_partial : ∀ c, standard c → ∀ fresh span, ∃ h c', to_headers c = Some h ∧ from_headers fresh span h = Some (Some c') ∧ kept c c' ∧ span_id c' = span ∧
  ∀ g1 g2 g3 g4 g5, uuid_of (span_id c) g1 g2 g3 g4 g5 → parent_span_id c' = Some (g1 ++ [45] ++ g2 ++ [45] ++ g3 ++ [45] ++ lit "0000" ++ [45] ++ lit "000000000000").
Proof. exact hop_sent. Qed.
Print Assumptions C61_restored_partial.
(** This stays so over any number of nested operations and requests. *)
Theorem C61_travel_partial : ∀ os c, standard c → Forall (λ o, uuid (new_span o)) os → ∃ c', travel os c = Some c' ∧ kept c c' ∧ standard c' ∧ (∀ o, last os = Some o → span_id c' = new_span o).
Proof.
  induction os as [|o os IH]; intros c Hc Hos; [by exists c|]. apply Forall_cons in Hos as [Ho Hos]. cbn [travel].
  assert (∃ c1, take_hop o c = Some c1 ∧ kept c c1 ∧ span_id c1 = new_span o) as (c1 & H1 & Hk & Hsp).
  { destruct o as [s|fresh s]; [by exists (child s c)|]. destruct (hop_sent c Hc fresh s) as (h & c1 & Hh & Hf & Hk & Hsp & _). exists c1. cbn [take_hop]. by rewrite Hh, Hf. }
  rewrite H1. assert (standard c1) as Hc1. { destruct Hc as (H2 & H3 & z & H4 & H5), Hk as (K1 & K2 & _). split; [by rewrite K1|]. split; [by rewrite Hsp|]. exists z. by rewrite K2. }
  destruct (IH c1 Hc1 Hos) as (c' & Ht & Hk' & Hst & Hl). exists c'. split; [done|]. split; [|split; [done|]].
  - destruct Hk as (K1 & K2 & K3 & K4 & K5), Hk' as (L1 & L2 & L3 & L4 & L5). unfold kept. split_and!; congruence.
  - intros o' Ho'. destruct os as [|o2 os]; [|apply Hl; exact Ho']. cbn in Ht, Ho'. by simplify_eq.
Qed.
Print Assumptions C61_travel_partial.
(** Of every context whose headers can be written and read, user, session and baggage are restored, and the
    digits of the trace. *)
Lemma digits_undashed t : digits_of t = undashed t.
Proof. done. Qed.
Lemma restore_digits hex r : DASH ∉ hex → restore_trace hex = Some r → undashed r = hex.
Proof.
  intros Hd. unfold restore_trace. destruct (_ =? 32)%nat eqn:E; [|intros [= <-]; by apply undashed_id]. apply Nat.eqb_eq in E.
  destruct (slice hex 0 8) as [a|] eqn:Ea; [|done]. destruct (slice hex 8 12) as [b|] eqn:Eb; [|done]. destruct (slice hex 12 16) as [c|] eqn:Ec; [|done]. destruct (slice hex 16 20) as [d|] eqn:Ed; [|done]. destruct (slice hex 20 32) as [e|] eqn:Ee; [|done]. intros Hr. assert (r = join_with [DASH] [a; b; c; d; e]) as -> by congruence.
  assert (undashed (join_with [DASH] [a; b; c; d; e]) = a ++ b ++ c ++ d ++ e) as ->.
  { cbn [join_with]. rewrite !undashed_app. change (undashed [DASH]) with (@nil N). cbn [app]. rewrite !undashed_id by (by eapply slice_no_dash). done. }
  apply slice_inv in Ea as (-> & _), Eb as (-> & _), Ec as (-> & _), Ed as (-> & _), Ee as (-> & _). rewrite drop_0.
  assert (∀ n m, take n (drop m hex) ++ drop (m + n) hex = drop m hex) as Hj by (intros n m; rewrite <- (drop_drop hex n m); apply take_drop).
  rewrite (firstn_all2 (drop 20 hex)) by (rewrite drop_length; lia). pose proof (Hj 4%nat 16%nat) as H1. pose proof (Hj 4%nat 12%nat) as H2. pose proof (Hj 4%nat 8%nat) as H3. cbn [Nat.add] in H1, H2, H3. change (20 - 16)%nat with 4%nat. change (16 - 12)%nat with 4%nat. change (12 - 8)%nat with 4%nat. change (8 - 0)%nat with 8%nat. rewrite H1, H2, H3. apply take_drop.
Qed.
Theorem C61_fields_partial : ∀ c h fresh span r, to_headers c = Some h → from_headers fresh span h = Some r →
  ∃ c', r = Some c' ∧ user_id c' = user_id c ∧ session_id c' = session_id c ∧ baggage c' = baggage c ∧ digits_of (trace_id c') = digits_of (trace_id c).
Proof.
  intros c h fresh span r Hh Hf. destruct (from_to fresh span c h Hh) as (s16 & _ & Hf'). rewrite Hf in Hf'. destruct (restore_trace _) as [t|] eqn:Et; [|done]. destruct (restore_span s16) as [p|]; [|done]. injection Hf' as ->. eexists. split; [done|]. cbn [user_id session_id baggage trace_id].
  split; [done|]. split; [done|]. split; [done|]. rewrite !digits_undashed. apply (restore_digits _ _ (undashed_no _) Et).
Qed.
Print Assumptions C61_fields_partial.
(** Nested operations keep everything, with the outer span as parent. *)
Theorem C61_child : ∀ c span, kept c (child span c) ∧ parent_span_id (child span c) = Some (span_id c) ∧ span_id (child span c) = span ∧ metadata (child span c) = metadata c ∧ client (child span c) = client c.
Proof. done. Qed.
Print Assumptions C61_child.
(** Refuted: the parent is never the sender's span, as every random UUID has a fourth group that does not start with 0, *)
Theorem C61_parent_refuted : ∀ c h c' fresh span g1 g2 g3 g4 g5, standard c → uuid_of (span_id c) g1 g2 g3 g4 g5 → head g4 ≠ Some 48 → to_headers c = Some h → from_headers fresh span h = Some (Some c') → parent_span_id c' ≠ Some (span_id c).
Proof.
  intros c h c' fresh span g1 g2 g3 g4 g5 Hc Hg H4 Hh Hf E. destruct (hop_sent c Hc fresh span) as (h2 & c2 & Hh2 & Hf2 & _ & _ & Hp). rewrite Hh in Hh2. injection Hh2 as <-. rewrite Hf in Hf2. injection Hf2 as <-. rewrite (Hp _ _ _ _ _ Hg) in E. destruct Hg as (Ht & _ & _ & _ & [L4 _] & _). rewrite Ht in E.
  assert (g1 ++ [45] ++ g2 ++ [45] ++ g3 ++ [45] ++ lit "0000" ++ [45] ++ lit "000000000000" = g1 ++ [45] ++ g2 ++ [45] ++ g3 ++ [45] ++ g4 ++ [45] ++ g5) as E2 by congruence. clear E. rename E2 into E. do 6 apply app_inv_head in E. destruct g4 as [|x g4]; [done|]. apply H4. apply (f_equal head) in E. transitivity (head ((x :: g4) ++ [45] ++ g5)); [done|]. rewrite <- E. by vm_compute.
Qed.
Print Assumptions C61_parent_refuted.
(** a trace id of 32 digits, as other systems send it, arrives changed, *)
Theorem C61_trace_refuted : ∀ c h c' fresh span, length (trace_id c) = 32%nat → DASH ∉ trace_id c → to_headers c = Some h → from_headers fresh span h = Some (Some c') → trace_id c' ≠ trace_id c.
Proof.
  intros c h c' fresh span Hl Hd Hh Hf E. destruct (from_to fresh span c h Hh) as (s16 & _ & Hf'). rewrite Hf in Hf'. rewrite (undashed_id _ Hd) in Hf'. destruct (restore_trace _) as [t|] eqn:Et; [|done]. destruct (restore_span s16) as [p|]; [|done]. injection Hf' as ->. cbn [trace_id] in E. subst t.
  unfold restore_trace in Et. rewrite Hl in Et. cbn [Nat.eqb] in Et. repeat (destruct (slice _ _ _) as [?|]; [|done]). injection Et as Et. apply Hd. rewrite <- Et. apply elem_of_app. right. apply elem_of_list_here.
Qed.
Print Assumptions C61_trace_refuted.
(** a request id that is a string never arrives, *)
Theorem C61_string_id_refuted : ∀ c s h c' fresh span, request_id c = IdStr s → to_headers c = Some h → from_headers fresh span h = Some (Some c') → request_id c' ≠ request_id c.
Proof.
  intros c s h c' fresh span Hs Hh Hf E. destruct (from_to fresh span c h Hh) as (s16 & _ & Hf'). rewrite Hf in Hf'. destruct (restore_trace _) as [t|]; [|done]. destruct (restore_span s16) as [p|]; [|done]. injection Hf' as ->. rewrite Hs in E. done.
Qed.
Print Assumptions C61_string_id_refuted.
(** and with a span of fewer than 16 digits writing the headers panics. *)
Theorem C61_short_span_refuted : ∀ c, (length (digits_of (span_id c)) < 16)%nat → to_headers c = None.
Proof. intros c H. rewrite digits_undashed in H. unfold to_headers, slice. rewrite (proj2 (Nat.leb_gt _ _) H). by rewrite andb_false_r. Qed.
Print Assumptions C61_short_span_refuted.
Definition ex_ctx : context := with_baggage (lit "env") (lit "prod") (with_user_id (lit "user123") (new_context (lit "0af76519-16cd-43dd-8448-eb211c80319c") (lit "b7ad6b71-6920-4331-9abc-000000000001") (IdNum 123))).
Definition ex_uuid : list N := lit "00f067aa-0ba9-42b7-8123-456789abcdef".
Definition ex_back : option context := travel [Sent 7 ex_uuid] ex_ctx.
Lemma ex_is_uuid t : forallb (λ c, ((48 <=? c) && (c <=? 57)) || ((97 <=? c) && (c <=? 102))) (take 8 t ++ take 4 (drop 9 t) ++ take 4 (drop 14 t) ++ take 4 (drop 19 t) ++ drop 24 t) = true → length t = 36%nat → t = take 8 t ++ [45] ++ take 4 (drop 9 t) ++ [45] ++ take 4 (drop 14 t) ++ [45] ++ take 4 (drop 19 t) ++ [45] ++ drop 24 t → uuid t.
Proof.
  intros Hf Hl Ht. exists (take 8 t), (take 4 (drop 9 t)), (take 4 (drop 14 t)), (take 4 (drop 19 t)), (drop 24 t). split; [done|]. rewrite !forallb_app in Hf. apply andb_true_iff in Hf as [H1 Hf]. apply andb_true_iff in Hf as [H2 Hf]. apply andb_true_iff in Hf as [H3 Hf]. apply andb_true_iff in Hf as [H4 H5].
  assert (∀ g, forallb (λ c, ((48 <=? c) && (c <=? 57)) || ((97 <=? c) && (c <=? 102))) g = true → Forall hex_digit g) as Hg.
  { intros g H. apply Forall_forall. intros x Hx. rewrite forallb_forall in H. apply elem_of_list_In in Hx. apply H in Hx. unfold hex_digit. lia. }
  unfold hex_group. split_and!; try (by apply Hg); rewrite ?take_length, ?drop_length; lia.
Qed.
Example C61_example : standard ex_ctx ∧ uuid ex_uuid ∧ trace_id <$> ex_back = Some (trace_id ex_ctx) ∧ request_id <$> ex_back = Some (IdNum 123) ∧ (baggage <$> ex_back) ≫= (λ b, b !! lit "env") = Some (lit "prod") ∧
  mjoin (parent_span_id <$> ex_back) = Some (lit "b7ad6b71-6920-4331-0000-000000000000") ∧ to_headers (new_context ex_uuid (lit "abc") (IdNum 1)) = None.
Proof.
  split; [split; [|split]|]; [by apply ex_is_uuid; vm_compute|by apply ex_is_uuid; vm_compute|by exists 123%Z|]. split; [by apply ex_is_uuid; vm_compute|]. repeat split; by vm_compute.
Qed.

(** ** C196: no headers crash the extraction of a context *)
(** It panics exactly for a trace header with at least four parts whose second has 32 bytes or third
    16 bytes, with a character across one of the places where it is cut. *)
Theorem C196_panics_partial : ∀ fresh span h parts, parts ≠ [] → Forall (λ p, Forall scalar p ∧ 45 ∉ p) parts → h !! lit "traceparent" = Some (traceparent parts) →
  from_headers fresh span h = None ↔
  ∃ v trace parent flags more, parts = v :: trace :: parent :: flags :: more ∧ (crooked 32 [8; 12; 16; 20]%nat trace ∨ crooked 16 [8; 12]%nat parent).
Proof. exact headers_panic. Qed.
Print Assumptions C196_panics_partial.
(** Every header value has such parts. *)
Theorem C196_parts : ∀ t, Forall scalar t → ∃ parts, parts ≠ [] ∧ Forall (λ p, Forall scalar p ∧ 45 ∉ p) parts ∧ utf8 t = traceparent parts.
Proof.
  intros t Ht. exists (split_on 45 t). split; [apply split_on_nonempty|]. split.
  - apply Forall_forall. intros p Hp. split; [|by eapply split_on_pieces]. apply Forall_forall. intros c Hc. apply (proj1 (Forall_forall _ _) Ht).
    rewrite <-(join_split_on 45 t). clear Ht. induction (split_on 45 t) as [|q qs IH]; [by inversion Hp|]. apply elem_of_cons in Hp as [->|Hp].
    + destruct qs; [done|]. apply elem_of_app. by left.
    + destruct qs as [|q2 qs]; [by inversion Hp|]. change (join_with [45] (q :: q2 :: qs)) with (q ++ [45] ++ join_with [45] (q2 :: qs)). rewrite !elem_of_app. right. right. by apply IH.
  - unfold traceparent. by rewrite join_split_on.
Qed.
Print Assumptions C196_parts.
(** So a trace header in ASCII, or none, never does. *)
Theorem C196_ascii_partial : ∀ fresh span (h : gmap (list N) (list N)), (∀ tp, h !! lit "traceparent" = Some tp → Forall (λ c, c < 128) tp) → from_headers fresh span h ≠ None.
Proof.
  intros fresh span h Ha. destruct (h !! lit "traceparent") as [tp|] eqn:E; [|unfold from_headers; by rewrite E].
  specialize (Ha _ eq_refl). assert (Hu : utf8 tp = tp) by (by apply utf8_ascii).
  destruct (C196_parts tp) as (ps & Hne & Hf & Ep); [eapply Forall_impl; [exact Ha|]; cbn; unfold scalar; lia|]. rewrite Hu in Ep. rewrite Ep in E.
  rewrite (C196_panics_partial fresh span h ps Hne Hf E). intros (v & tr & pa & fl & more & -> & Hc).
  assert (Hall : ∀ p, p ∈ v :: tr :: pa :: fl :: more → Forall (λ c, c < 128) p).
  { intros p Hp. apply Forall_forall. intros c Hc'. rewrite Ep in Ha. unfold traceparent in Ha. rewrite utf8_join in Ha.
    assert (Hin : utf8 p ∈ utf8 <$> (v :: tr :: pa :: fl :: more)) by (by apply elem_of_list_fmap_1).
    assert (Hb : ∀ b, b ∈ utf8 p → b < 128).
    { intros b Hb. apply (proj1 (Forall_forall _ _) Ha). clear -Hin Hb. induction (utf8 <$> (v :: tr :: pa :: fl :: more)) as [|q qs IH]; [by inversion Hin|]. apply elem_of_cons in Hin as [<-|Hin].
      - destruct qs; [done|]. apply elem_of_app. by left.
      - destruct qs as [|q2 qs]; [by inversion Hin|]. change (join_with [45] (q :: q2 :: qs)) with (q ++ [45] ++ join_with [45] (q2 :: qs)). rewrite !elem_of_app. right. right. by apply IH. }
    apply elem_of_list_split in Hc' as (l1 & l2 & ->). rewrite utf8_app, utf8_cons in Hb.
    destruct (N.ltb c 128) eqn:E1; [lia|]. exfalso. rewrite Forall_forall in Hf. destruct (Hf _ Hp) as [Hs _]. apply Forall_app in Hs as [_ Hs]. apply Forall_cons in Hs as [Hs _].
    destruct (utf8_char c) as [|b bs] eqn:Eb; [by apply (utf8_char_nonempty c)|]. assert (b ∈ utf8_char c) as Hbc by (rewrite Eb; by left).
    apply utf8_char_bytes in Hbc; [|unfold scalar in Hs; lia]. specialize (Hb b ltac:(rewrite !elem_of_app; right; left; by left)). lia. }
  destruct Hc as [Hc|Hc]; revert Hc; apply ascii_straight; try (apply Hall; rewrite !elem_of_cons; tauto); intros k; rewrite !elem_of_cons, elem_of_nil; lia.
Qed.
Print Assumptions C196_ascii_partial.
(** Refuted: a single header of a stranger crashes it, whatever surrounds the broken part. *)
Theorem C196_crash_refuted : ∀ fresh span h v a c b parent flags, h !! lit "traceparent" = Some (traceparent [v; a ++ [c] ++ b; parent; flags]) →
  Forall (λ p, Forall scalar p ∧ 45 ∉ p) [v; a ++ [c] ++ b; parent; flags] →
  length (utf8 (a ++ [c] ++ b)) = 32%nat → (length (utf8 a) < 8 < length (utf8 a) + length (utf8_char c))%nat → from_headers fresh span h = None.
Proof.
  intros fresh span h v a c b parent flags Hh Hf Hl Hc. rewrite (C196_panics_partial fresh span h [v; a ++ [c] ++ b; parent; flags]) by done. exists v, (a ++ [c] ++ b), parent, flags, []. split; [done|]. left. split; [done|].
  exists 8%nat. split; [by left|]. intros (t1 & t2 & E & Ht). assert (Hlen : (length t1 <= length a)%nat ∨ (length a < length t1)%nat) by lia. destruct Hlen as [Hlen|Hlen].
  - assert (t1 = take (length t1) a) as E1. { rewrite <-(take_app t1 t2), <-E at 1. by rewrite take_app_le. }
    assert (length (utf8 t1) <= length (utf8 a))%nat; [|lia]. rewrite <-(take_drop (length t1) a), <-E1, utf8_app, app_length. lia.
  - assert (∃ r, t1 = a ++ [c] ++ r) as [r ->].
    { exists (take (length t1 - length a - 1) b). rewrite <-(take_app t1 t2), <-E at 1. rewrite take_app_ge by lia. f_equal. rewrite take_app_ge by (cbn; lia). done. }
    rewrite !utf8_app, !app_length in Ht. assert (utf8 [c] = utf8_char c) as Ec by (unfold utf8; cbn; by rewrite app_nil_r). rewrite Ec in Ht. lia.
Qed.
Print Assumptions C196_crash_refuted.
Example C196_example :
  let bad := [lit "00"; lit "0af7651" ++ [233] ++ lit "6cd43dd8448eb211c80319c"; lit "b7ad6b7169203331"; lit "01"] in
  from_headers 1 ex_uuid {[ lit "traceparent" := traceparent bad ]} = None ∧
  (parent_span_id <$> (from_headers 1 ex_uuid {[ lit "traceparent" := traceparent [lit "00"; [233]; lit "b7ad6b7169203331"; lit "01"] ]} ≫= id)) = Some (Some (lit "b7ad6b71-6920-3331-0000-000000000000")).
Proof. by vm_compute. Qed.
