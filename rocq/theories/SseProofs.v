From stdpp Require Import sets list strings.
From Verif Require Import ListLib TextLib SseModel SseSpec.

(** The loop without the byte/character confusion. *)
Fixpoint loop (fuel : nat) (buf : list N) (cur : builder) (lastid : option (list N))
  : parser * list sse_event :=
  match fuel with
  | O => (MkP buf cur lastid, [])
  | S fuel =>
      match split_once LF buf with
      | None => (MkP buf cur lastid, [])
      | Some (before, rest) =>
          let '(cur', lastid', e) := process_line cur lastid (strip_cr before) in
          let '(p, es) := loop fuel rest cur' lastid' in
          (p, match e with Some e => e :: es | None => es end)
      end
  end.

Lemma utf8_size_ascii t : (∀ c, c ∈ t → (c < 128)%N) → utf8_size t = N.of_nat (length t).
Proof.
  induction t as [|c t IH]; intros H; [done|]. simpl. rewrite IH by set_solver.
  unfold utf8_len. assert (c < 128)%N as Hc by (apply H; set_solver).
  apply N.ltb_lt in Hc. rewrite Hc. lia.
Qed.

Lemma utf8_len_pos c : (0 < utf8_len c)%N.
Proof. unfold utf8_len. repeat (destruct (_ <? _)%N; try lia). Qed.

Lemma strip_cr_none l : CR ∉ l → strip_cr l = l.
Proof.
  intros H. unfold strip_cr. destruct (last l) as [c|] eqn:E; [|done].
  rewrite decide_False; [done|]. intros ->. apply H. apply last_Some in E as [l' ->]. set_solver.
Qed.

Lemma take_line_plain before rest : plain (before ++ LF :: rest) →
  take_line before (before ++ LF :: rest) = Some (strip_cr before).
Proof.
  intros [Ha|Hc]; unfold take_line.
  - assert (Hb : ∀ c, c ∈ before → (c < 128)%N) by (intros; apply Ha; set_solver).
    rewrite (utf8_size_ascii before Hb).
    destruct (decide (0 < N.of_nat (length before))%N) as [Hpos|Hz].
    + replace (N.to_nat (N.of_nat (length before) - 1)) with (length before - 1) by lia.
      rewrite lookup_app_l by lia.
      assert (Hl : last before = before !! (length before - 1)).
      { rewrite last_lookup. f_equal. lia. }
      unfold strip_cr. rewrite <- Hl. destruct (last before) as [c|] eqn:E.
      * destruct (decide (Some c = Some CR)) as [[= ->]|Hne].
        -- rewrite decide_True by done. by rewrite decide_True.
        -- rewrite decide_False; [done|]. congruence.
      * rewrite decide_False by done. done.
    + destruct before; [done|]. simpl in Hz. lia.
  - rewrite strip_cr_none by set_solver.
    destruct (decide _); [|done]. rewrite decide_False; [done|]. intros H.
    apply Hc. by eapply elem_of_list_lookup_2.
Qed.

Lemma plain_suffix a b : plain (a ++ b) → plain b.
Proof. intros [H|H]; [left|right]; set_solver. Qed.

Lemma split_once_LF buf before rest : split_once LF buf = Some (before, rest) → buf = before ++ LF :: rest.
Proof. intros H. by apply split_once_Some in H as [-> _]. Qed.

Lemma feed_loop_plain f buf cur lastid : plain buf →
  feed_loop f buf cur lastid = Some (loop f buf cur lastid).
Proof.
  revert buf cur lastid. induction f as [|f IH]; intros buf cur lastid Hp; [done|]. simpl.
  destruct (split_once LF buf) as [[before rest]|] eqn:E; [|done].
  pose proof (split_once_LF _ _ _ E) as ->. rewrite take_line_plain by done.
  destruct (process_line cur lastid (strip_cr before)) as [[cur' last'] e].
  rewrite IH.
  - by destruct (loop f rest cur' last') as [p es].
  - apply (plain_suffix (before ++ [LF])). by rewrite <- app_assoc.
Qed.

(** Enough fuel is enough. *)
Lemma loop_fuel f1 f2 buf cur lastid : length buf < f1 → length buf < f2 →
  loop f1 buf cur lastid = loop f2 buf cur lastid.
Proof.
  revert f2 buf cur lastid. induction f1 as [|f1 IH]; intros f2 buf cur lastid H1 H2; [lia|].
  destruct f2 as [|f2]; [lia|]. simpl.
  destruct (split_once LF buf) as [[before rest]|] eqn:E; [|done].
  pose proof (split_once_LF _ _ _ E) as Hb. rewrite Hb, app_length in H1, H2. simpl in *.
  destruct (process_line cur lastid (strip_cr before)) as [[cur' last'] e].
  rewrite (IH f2); [done|lia|lia].
Qed.

Definition run (p : parser) : parser * list sse_event :=
  loop (S (length (p_buf p))) (p_buf p) (p_cur p) (p_last p).

Lemma loop_run f buf cur lastid : length buf < f → loop f buf cur lastid = run (MkP buf cur lastid).
Proof. intros H. unfold run. cbn [p_buf p_cur p_last]. apply loop_fuel; lia. Qed.

Lemma run_line before rest cur lastid : LF ∉ before →
  run (MkP (before ++ LF :: rest) cur lastid) =
  let '(cur', lastid', e) := process_line cur lastid (strip_cr before) in
  let '(p, es) := run (MkP rest cur' lastid') in
  (p, match e with Some e => e :: es | None => es end).
Proof.
  intros H. unfold run at 1. simpl. rewrite split_once_app by done.
  destruct (process_line cur lastid (strip_cr before)) as [[cur' last'] e].
  rewrite loop_run; [done|]. rewrite app_length. simpl. lia.
Qed.

Lemma run_no_line buf cur lastid : LF ∉ buf → run (MkP buf cur lastid) = (MkP buf cur lastid, []).
Proof. intros H. unfold run. simpl. apply split_once_None in H. by rewrite H. Qed.

Lemma list_lines_ind (P : list N → Prop) :
  (∀ l, LF ∉ l → P l) → (∀ l r, LF ∉ l → P r → P (l ++ LF :: r)) → ∀ l, P l.
Proof.
  intros H0 H1 l. remember (length l) as n eqn:Hn. revert l Hn.
  induction (lt_wf n) as [n _ IH]. intros l Hn.
  destruct (split_once LF l) as [[a b]|] eqn:E.
  - apply split_once_Some in E as [-> Ha]. apply H1; [done|].
    eapply IH; [|done]. rewrite app_length in Hn. simpl in Hn. lia.
  - apply H0. by apply split_once_None.
Qed.

Lemma run_app a b cur lastid :
  run (MkP (a ++ b) cur lastid) =
  let '(p1, es1) := run (MkP a cur lastid) in
  let '(p2, es2) := run (MkP (p_buf p1 ++ b) (p_cur p1) (p_last p1)) in
  (p2, es1 ++ es2).
Proof.
  revert cur lastid. induction a as [l Hl|l r Hl IH] using list_lines_ind; intros cur lastid.
  - rewrite (run_no_line l) by done. simpl.
    by destruct (run (MkP (l ++ b) cur lastid)) as [p es].
  - rewrite <- app_assoc. simpl. rewrite (run_line l (r ++ b)), (run_line l r) by done.
    destruct (process_line cur lastid (strip_cr l)) as [[cur' last'] e].
    rewrite IH. destruct (run (MkP r cur' last')) as [p1 es1].
    destruct (run (MkP (p_buf p1 ++ b) (p_cur p1) (p_last p1))) as [p2 es2].
    by destruct e.
Qed.

Lemma run_buf_suffix buf cur lastid : ∃ pre, buf = pre ++ p_buf (run (MkP buf cur lastid)).1.
Proof.
  revert cur lastid. induction buf as [l Hl|l r Hl IH] using list_lines_ind; intros cur lastid.
  - rewrite (run_no_line l) by done. by exists [].
  - rewrite run_line by done.
    destruct (process_line cur lastid (strip_cr l)) as [[cur' last'] e].
    destruct (IH cur' last') as [pre Hpre]. destruct (run (MkP r cur' last')) as [p es]. simpl in *.
    exists (l ++ LF :: pre). rewrite <- app_assoc. simpl. by rewrite <- Hpre.
Qed.

Lemma feed_plain p data : plain (p_buf p ++ data) →
  feed p data = Some (run (MkP (p_buf p ++ data) (p_cur p) (p_last p))).
Proof. intros H. unfold feed. by rewrite feed_loop_plain. Qed.

Lemma chunking p chunks : plain (p_buf p ++ concat chunks) → LF ∉ p_buf p →
  feed_all p chunks = feed p (concat chunks).
Proof.
  revert p. induction chunks as [|c cs IH]; intros p Hp Hb; simpl in *.
  - rewrite app_nil_r in Hp. rewrite feed_plain by (by rewrite app_nil_r). rewrite app_nil_r.
    destruct p as [buf cur lastid]. simpl in *. by rewrite run_no_line.
  - assert (Hpc : plain (p_buf p ++ c)).
    { destruct Hp as [H|H]; [left|right]; set_solver. }
    rewrite (feed_plain p c) by done. rewrite (feed_plain p (c ++ concat cs)) by done.
    rewrite app_assoc, (run_app (p_buf p ++ c) (concat cs)).
    pose proof (run_buf_suffix (p_buf p ++ c) (p_cur p) (p_last p)) as [pre Hpre].
    destruct (run (MkP (p_buf p ++ c) (p_cur p) (p_last p))) as [p1 es1] eqn:E1. simpl in Hpre.
    assert (Hp1 : plain (p_buf p1 ++ concat cs)).
    { apply (plain_suffix pre). by rewrite app_assoc, <- Hpre, <- app_assoc. }
    rewrite IH.
    + rewrite feed_plain by done.
      by destruct (run (MkP (p_buf p1 ++ concat cs) (p_cur p1) (p_last p1))) as [p2 es2].
    + done.
    + clear -E1. revert E1. generalize (p_buf p ++ c) as buf, (p_cur p) as cur, (p_last p) as lastid.
      intros buf. revert p1 es1. induction buf as [l Hl|l r Hl IHl] using list_lines_ind; intros p1 es1 cur lastid.
      * rewrite run_no_line by done. by intros [= <- <-].
      * rewrite run_line by done. destruct (process_line cur lastid (strip_cr l)) as [[cur' last'] e].
        destruct (run (MkP r cur' last')) as [p3 es3] eqn:E3. intros [= <- _]. by eapply IHl.
Qed.

Lemma no_panic p data : plain (p_buf p ++ data) → ∃ r, feed p data = Some r.
Proof. intros H. rewrite feed_plain by done. eauto. Qed.

(** Buffers of reachable parsers contain no line feed. *)
Lemma feed_loop_buf f buf cur lastid p es : length buf < f →
  feed_loop f buf cur lastid = Some (p, es) → LF ∉ p_buf p.
Proof.
  revert buf cur lastid p es. induction f as [|f IH]; intros buf cur lastid p es Hl; [lia|]. simpl.
  destruct (split_once LF buf) as [[before rest]|] eqn:E.
  - pose proof (split_once_LF _ _ _ E) as Hb. rewrite Hb, app_length in Hl. simpl in Hl.
    destruct (take_line before buf); [|done].
    destruct (process_line cur lastid l) as [[cur' last'] e].
    destruct (feed_loop f rest cur' last') as [[p' es']|] eqn:E2; [|done].
    intros [= <- _]. eapply IH; [|exact E2]. lia.
  - intros [= <- _]. simpl. by apply split_once_None.
Qed.
Lemma feed_buf p data p' es : feed p data = Some (p', es) → LF ∉ p_buf p'.
Proof. apply feed_loop_buf. lia. Qed.

(** *** Round trip *)
Lemma field_value_field name value : COLON ∉ name → field_value (name ++ lit ": " ++ value) = (name, value).
Proof.
  intros H. unfold field_value. change (lit ": " ++ value) with (COLON :: SP :: value).
  rewrite split_once_app by done. by rewrite decide_True.
Qed.

Lemma run_field name value rest cur lastid :
  LF ∉ name → CR ∉ name → no_break value →
  run (MkP (field_line name value ++ rest) cur lastid) =
  let '(cur', lastid', e) := process_line cur lastid (name ++ lit ": " ++ value) in
  let '(p, es) := run (MkP rest cur' lastid') in
  (p, match e with Some e => e :: es | None => es end).
Proof.
  intros Hn1 Hn2 [Hv1 Hv2]. unfold field_line.
  replace ((name ++ lit ": " ++ value ++ [LF]) ++ rest) with ((name ++ lit ": " ++ value) ++ LF :: rest)
    by (by rewrite <- !app_assoc).
  assert (Hlf : LF ∉ name ++ lit ": " ++ value).
  { change (lit ": ") with [COLON; SP]. rewrite !elem_of_app, !elem_of_cons, elem_of_nil.
    intros [?|[[?|[?|?]]|?]]; done. }
  assert (Hcr : CR ∉ name ++ lit ": " ++ value).
  { change (lit ": ") with [COLON; SP]. rewrite !elem_of_app, !elem_of_cons, elem_of_nil.
    intros [?|[[?|[?|?]]|?]]; done. }
  rewrite run_line by done. by rewrite strip_cr_none.
Qed.

Lemma not_elem_lit (c : N) l : forallb (λ x, negb (x =? c)%N) l = true → c ∉ l.
Proof.
  intros H Hin. rewrite forallb_forall in H. apply elem_of_list_In in Hin. specialize (H _ Hin).
  rewrite N.eqb_refl in H. done.
Qed.

Lemma process_id cur lastid v : 0%N ∉ v →
  process_line cur lastid (lit "id" ++ lit ": " ++ v)
  = (MkB (Some v) (b_event cur) (b_data cur) (b_retry cur), Some v, None).
Proof.
  intros H. unfold process_line. rewrite field_value_field by (by apply not_elem_lit).
  cbn -[decide]. rewrite decide_False by done.
  repeat (rewrite decide_False by done). rewrite decide_True by done. by rewrite decide_False.
Qed.
Lemma process_event cur lastid v :
  process_line cur lastid (lit "event" ++ lit ": " ++ v)
  = (MkB (b_id cur) (Some v) (b_data cur) (b_retry cur), lastid, None).
Proof.
  unfold process_line. rewrite field_value_field by (by apply not_elem_lit).
  cbn -[decide]. rewrite decide_False by done. by rewrite decide_True.
Qed.
Lemma process_data cur lastid v :
  process_line cur lastid (lit "data" ++ lit ": " ++ v)
  = (MkB (b_id cur) (b_event cur) (match b_data cur with [] => v | d => d ++ LF :: v end) (b_retry cur), lastid, None).
Proof.
  unfold process_line. rewrite field_value_field by (by apply not_elem_lit).
  cbn -[decide]. rewrite decide_False by done. rewrite decide_False by done. by rewrite decide_True.
Qed.
Lemma process_retry cur lastid r : (r <= u64_max)%N →
  process_line cur lastid (lit "retry" ++ lit ": " ++ show_N r)
  = (MkB (b_id cur) (b_event cur) (b_data cur) (Some r), lastid, None).
Proof.
  intros H. unfold process_line. rewrite field_value_field by (by apply not_elem_lit).
  cbn -[decide parse_unsigned show_N]. rewrite decide_False by done.
  repeat (rewrite decide_False by done). rewrite decide_True by done. by rewrite parse_show_N.
Qed.

Lemma show_N_no_break r : no_break (show_N r).
Proof. split; intros H; apply show_N_digits in H; unfold LF, CR in H; lia. Qed.

Lemma elem_of_concat {A} (x : A) ls : x ∈ concat ls ↔ ∃ l, x ∈ l ∧ l ∈ ls.
Proof.
  induction ls as [|l ls IH]; simpl; [set_solver|]. rewrite elem_of_app, IH. set_solver.
Qed.

(** Data lines put the data back together. *)
Lemma run_data_lines ls rest id ev d retry lastid : d ≠ [] → Forall no_break ls →
  run (MkP (concat (field_line (lit "data") <$> ls) ++ rest) (MkB id ev d retry) lastid)
  = run (MkP rest (MkB id ev (d ++ concat ((λ l, LF :: l) <$> ls)) retry) lastid).
Proof.
  revert d. induction ls as [|l ls IH]; intros d Hd Hf; [simpl; by rewrite app_nil_r|].
  inversion Hf; subst. rewrite !fmap_cons. cbn [concat]. rewrite <- app_assoc.
  rewrite run_field; [|by apply not_elem_lit|by apply not_elem_lit|done].
  rewrite process_data. simpl. destruct d as [|c d]; [done|].
  change ((c :: d) ++ LF :: l) with (c :: d ++ LF :: l).
  rewrite IH by done. simpl. rewrite <- app_assoc. simpl.
  by destruct (run _) as [p es].
Qed.

Lemma join_concat (l : list N) ls : join_with [LF] (l :: ls) = l ++ concat ((λ l, LF :: l) <$> ls).
Proof.
  revert l. induction ls as [|l' ls IH]; intros l; [simpl; by rewrite app_nil_r|].
  change (join_with [LF] (l :: l' :: ls)) with (l ++ LF :: join_with [LF] (l' :: ls)).
  by rewrite IH.
Qed.

Lemma elem_of_join_with c (x : list N) ls : c ∈ x → x ∈ ls → c ∈ join_with [LF] ls.
Proof.
  intros Hc Hx. destruct ls as [|l ls]; [set_solver|].
  rewrite join_concat. apply elem_of_cons in Hx as [->|Hx]; [set_solver|].
  apply elem_of_app. right. apply elem_of_concat. exists (LF :: x). split; [set_solver|].
  apply elem_of_list_fmap. eauto.
Qed.

Lemma lines_ok t : t ≠ [] → CR ∉ t → last t ≠ Some LF → lines t = split_on LF t.
Proof.
  intros Hne Hcr Hl. unfold lines.
  assert (Hd : drop_last_empty (split_on LF t) = split_on LF t).
  { unfold drop_last_empty. destruct (last (split_on LF t)) as [[|]|] eqn:E; try done. exfalso.
    apply last_Some in E as [ls E]. pose proof (join_split_on LF t) as Hj. rewrite E in Hj.
    apply Hl. rewrite <- Hj. clear -Hne Hj E. destruct ls as [|l0 ls].
    - simpl in Hj. subst t. done.
    - clear. rewrite <- app_comm_cons, join_concat. rewrite fmap_app, concat_app. simpl.
      rewrite app_assoc, last_snoc. done. }
  rewrite Hd. transitivity (id <$> split_on LF t); [|by rewrite list_fmap_id].
  apply list_fmap_ext. intros i x Hx. apply strip_cr_none. intros Hin. apply Hcr.
  rewrite <- (join_split_on LF t). apply elem_of_list_lookup_2 in Hx. by eapply elem_of_join_with.
Qed.

Lemma run_display e rest lastid : writable e →
  run (MkP (display e ++ rest) builder0 lastid) =
  let '(p, es) := run (MkP rest builder0 (next_id lastid e)) in
  (p, with_default_id lastid e :: es).
Proof.
  intros (Hid & Hev & Hre & Hcr & Hne & Hhd & Hla). unfold display. rewrite <- !app_assoc.
  assert (H1 : ∀ rest, run (MkP (match e_id e with Some v => field_line (lit "id") v | None => [] end ++ rest) builder0 lastid)
    = run (MkP rest (MkB (e_id e) None [] None) (next_id lastid e))).
  { intros r. unfold next_id. destruct (e_id e) as [v|]; [|done].
    destruct (Hid v eq_refl) as [Hv H0].
    rewrite run_field; [|by apply not_elem_lit|by apply not_elem_lit|done].
    rewrite process_id by done. by destruct (run _). }
  rewrite H1.
  assert (H2 : ∀ rest lid, run (MkP (match e_event e with Some v => field_line (lit "event") v | None => [] end ++ rest) (MkB (e_id e) None [] None) lid)
    = run (MkP rest (MkB (e_id e) (e_event e) [] None) lid)).
  { intros r lid. destruct (e_event e) as [v|]; [|done].
    rewrite run_field; [|by apply not_elem_lit|by apply not_elem_lit|by apply Hev].
    rewrite process_event. by destruct (run _). }
  rewrite H2.
  assert (H3 : ∀ rest lid, run (MkP (match e_retry e with Some v => field_line (lit "retry") (show_N v) | None => [] end ++ rest) (MkB (e_id e) (e_event e) [] None) lid)
    = run (MkP rest (MkB (e_id e) (e_event e) [] (e_retry e)) lid)).
  { intros r lid. destruct (e_retry e) as [v|]; [|done].
    rewrite run_field; [|by apply not_elem_lit|by apply not_elem_lit|by apply show_N_no_break].
    rewrite process_retry by (by apply Hre). by destruct (run _). }
  rewrite H3. rewrite lines_ok by done.
  assert (Hnb : Forall no_break (split_on LF (e_data e))).
  { apply Forall_forall. intros x Hx. split; [by eapply split_on_pieces|].
    intros Hin. apply Hcr. rewrite <- (join_split_on LF (e_data e)).
    by eapply elem_of_join_with. }
  pose proof (join_split_on LF (e_data e)) as Hj.
  destruct (split_on LF (e_data e)) as [|l ls] eqn:E; [by destruct (split_on_nonempty LF (e_data e))|].
  inversion Hnb; subst. rewrite join_concat in Hj. rewrite !fmap_cons. cbn [concat]. rewrite <- app_assoc.
  rewrite run_field; [|by apply not_elem_lit|by apply not_elem_lit|done].
  rewrite process_data. cbn [b_data b_id b_event b_retry].
  assert (Hl : l ≠ []).
  { intros ->. simpl in Hj. destruct ls as [|l2 ls]; simpl in Hj; [by destruct Hne|].
    apply Hhd. by rewrite <- Hj. }
  rewrite run_data_lines by done. rewrite Hj.
  rewrite (run_line [] rest) by set_solver. rewrite strip_cr_none by set_solver.
  unfold process_line at 1, dispatch. cbn [b_data b_id b_event b_retry].
  destruct (e_data e) as [|c d] eqn:Ed; [done|]. rewrite <- Ed.
  destruct (run (MkP rest builder0 (next_id lastid e))) as [p es].
  unfold with_default_id, next_id. rewrite Ed. by destruct (e_id e).
Qed.

Lemma run_displays es lastid : Forall writable es →
  run (MkP (concat (display <$> es)) builder0 lastid) =
  (MkP [] builder0 (fold_left next_id es lastid), received lastid es).
Proof.
  revert lastid. induction es as [|e es IH]; intros lastid Hf; [done|]. inversion Hf; subst. simpl.
  rewrite run_display by done. by rewrite IH.
Qed.

Lemma plain_display es : Forall writable es → CR ∉ concat (display <$> es).
Proof.
  intros Hf Hin. apply elem_of_concat in Hin as (t & Hin & Ht).
  apply elem_of_list_fmap in Ht as (e & -> & He). rewrite Forall_forall in Hf.
  destruct (Hf _ He) as (Hid & Hev & Hre & Hcr & Hne & Hhd & Hla).
  assert (Hfl : ∀ n v, CR ∉ n → CR ∉ v → CR ∉ field_line n v).
  { intros n v Hn Hv. unfold field_line. change (lit ": ") with [COLON; SP].
    rewrite !elem_of_app, !elem_of_cons, elem_of_nil. intros [?|[[?|[?|?]]|[?|[?|?]]]]; done. }
  unfold display in Hin. rewrite !elem_of_app in Hin.
  destruct Hin as [Hin|[Hin|[Hin|[Hin|Hin]]]].
  - destruct (e_id e) as [v|]; [|set_solver]. revert Hin. apply Hfl; [by apply not_elem_lit|].
    destruct (Hid v eq_refl) as [[? ?] ?]. done.
  - destruct (e_event e) as [v|]; [|set_solver]. revert Hin. apply Hfl; [by apply not_elem_lit|].
    destruct (Hev v eq_refl). done.
  - destruct (e_retry e) as [v|]; [|set_solver]. revert Hin. apply Hfl; [by apply not_elem_lit|].
    apply show_N_no_break.
  - rewrite lines_ok in Hin by done. apply elem_of_concat in Hin as (t & Hin & Ht).
    apply elem_of_list_fmap in Ht as (l & -> & Hl). revert Hin. apply Hfl; [by apply not_elem_lit|].
    intros Hin. apply Hcr. rewrite <- (join_split_on LF (e_data e)).
    by eapply elem_of_join_with.
  - apply elem_of_list_singleton in Hin. done.
Qed.

(** Any chunking of the text of any sequence of writable events, from a parser at rest. *)
Lemma round_trip es chunks lastid : Forall writable es → concat chunks = concat (display <$> es) →
  feed_all (MkP [] builder0 lastid) chunks
  = Some (MkP [] builder0 (fold_left next_id es lastid), received lastid es).
Proof.
  intros Hf Hc. rewrite chunking.
  - rewrite feed_plain; simpl; rewrite Hc.
    + f_equal. by apply run_displays.
    + right. by apply plain_display.
  - simpl. rewrite Hc. right. by apply plain_display.
  - simpl. set_solver.
Qed.

(** Lines are interpreted as the standard says. *)
Lemma process_line_effect cur lastid line f v :
  line ≠ [] → head line ≠ Some COLON → field_value line = (f, v) →
  process_line cur lastid line = (field_effect f v cur lastid, None).
Proof.
  intros Hne Hc Hf. destruct line as [|c line]; [done|]. unfold process_line.
  rewrite decide_False by (intros ->; done). rewrite Hf. unfold field_effect.
  repeat (case_decide; try done).
  - by destruct (b_data cur).
  - by destruct (b_data cur).
  - by destruct (parse_unsigned u64_max v).
Qed.

Lemma line_fields cur lastid name value :
  name ≠ [] → COLON ∉ name →
  process_line cur lastid (name ++ [COLON; SP] ++ value) = (field_effect name value cur lastid, None) ∧
  (head value ≠ Some SP →
     process_line cur lastid (name ++ [COLON] ++ value) = (field_effect name value cur lastid, None)) ∧
  process_line cur lastid name = (field_effect name [] cur lastid, None).
Proof.
  intros Hn Hc.
  assert (Hh : head name ≠ Some COLON).
  { destruct name as [|c n]; [done|]. simpl. intros [= ->]. apply Hc. set_solver. }
  split; [|split].
  - apply process_line_effect; [by destruct name| |].
    + destruct name; [done|]. done.
    + unfold field_value. cbn [app]. rewrite split_once_app by done. by rewrite decide_True.
  - intros Hv. apply process_line_effect; [by destruct name| |].
    + destruct name; [done|]. done.
    + unfold field_value. cbn [app]. rewrite split_once_app by done.
      destruct value as [|c v]; [done|]. rewrite decide_False; [done|]. intros ->. done.
  - apply process_line_effect; [done|done|].
    unfold field_value. apply split_once_None in Hc. by rewrite Hc.
Qed.
