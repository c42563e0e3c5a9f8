(** Exact panic condition, line-wise chunking, and data that starts or ends with line feeds. *)
From stdpp Require Import sets list strings.
From Verif Require Import ListLib TextLib SseModel SseSpec SseSpec2 SseProofs.

Lemma utf8_len_one c : utf8_len c = 1%N ↔ (c < 128)%N.
Proof.
  unfold utf8_len. destruct (c <? 128)%N eqn:E1; [apply N.ltb_lt in E1; done|].
  apply N.ltb_ge in E1. split; [|lia].
  destruct (c <? 2048)%N; [done|]. by destruct (c <? 65536)%N.
Qed.

Lemma utf8_size_ge t : (N.of_nat (length t) <= utf8_size t)%N.
Proof.
  induction t as [|c t IH]; [done|]. pose proof (utf8_len_pos c).
  change (utf8_size (c :: t)) with (utf8_len c + utf8_size t)%N. cbn [length]. lia.
Qed.

Lemma take_line_none line rest :
  take_line line (line ++ LF :: rest) = None ↔
  struck line rest ∧ ∃ c, last line = Some c ∧ (128 <= c)%N.
Proof.
  unfold take_line, struck. destruct line as [|x l].
  - rewrite decide_False by done. split; [done|]. by intros (_ & c & ? & _).
  - set (line := x :: l). assert (Hpos : (0 < utf8_size line)%N).
    { pose proof (utf8_size_ge line). subst line. simpl in *. lia. }
    rewrite decide_True by done. destruct (decide (_ = Some CR)) as [Hc|Hc].
    + destruct (last line) as [c|] eqn:El.
      * destruct (decide (utf8_len c = 1)%N) as [H1|H1].
        -- split; [done|]. intros (_ & c' & [= <-] & Hge). apply utf8_len_one in H1. lia.
        -- split; [|done]. intros _. split; [done|]. exists c. split; [done|].
           rewrite utf8_len_one in H1. lia.
      * subst line. by apply last_None in El.
    + split; [done|]. by intros [? _].
Qed.

Lemma line_of_first line rest : LF ∉ line → line_of (line ++ LF :: rest) line rest.
Proof. intros H. exists []. split; [done|]. split; [by left|done]. Qed.

Lemma line_of_later line rest l r :
  LF ∉ line → line_of (line ++ LF :: rest) l r → (l = line ∧ r = rest) ∨ line_of rest l r.
Proof.
  intros Hl (pre & He & Hp & Hl2). destruct (decide (pre = [])) as [->|Hne].
  - left. cbn [app] in He.
    assert (H1 : split_once LF (line ++ LF :: rest) = Some (line, rest)) by by apply split_once_app.
    rewrite He, split_once_app in H1 by done. by injection H1 as -> ->.
  - right. destruct Hp as [?|Hp]; [done|].
    assert (Hin : LF ∈ pre) by (apply last_Some in Hp as [p ->]; set_solver).
    destruct (split_once LF pre) as [[a b]|] eqn:E; [|by apply split_once_None in E].
    apply split_once_Some in E as [-> Ha].
    assert (H1 : split_once LF (line ++ LF :: rest) = Some (line, rest)) by by apply split_once_app.
    rewrite He, <- app_assoc in H1. cbn [app] in H1. rewrite split_once_app in H1 by done.
    injection H1 as -> <-. exists b. split; [done|]. split; [|done].
    destruct b as [|y b]; [by left|]. right. by rewrite last_app_cons, last_cons_cons in Hp.
Qed.

Lemma line_of_tail line rest l r : line_of rest l r → line_of (line ++ LF :: rest) l r.
Proof.
  intros (pre & -> & Hp & Hl). exists (line ++ LF :: pre). rewrite <- app_assoc. split; [done|].
  split; [|done]. right. destruct Hp as [->|Hp]; [by rewrite last_snoc|].
  rewrite last_app_cons. destruct pre; [done|]. by rewrite last_cons_cons.
Qed.

Lemma line_of_none t l r : LF ∉ t → ¬ line_of t l r.
Proof. intros H (pre & -> & _). set_solver. Qed.

Lemma panics_loop f buf cur lastid : length buf < f →
  feed_loop f buf cur lastid = None ↔
  ∃ line rest, line_of buf line rest ∧ struck line rest ∧ ∃ c, last line = Some c ∧ (128 <= c)%N.
Proof.
  revert buf cur lastid. induction f as [|f IH]; intros buf cur lastid Hf; [lia|].
  cbn [feed_loop]. destruct (split_once LF buf) as [[before rest]|] eqn:E.
  - apply split_once_Some in E as [-> Hb]. rewrite app_length in Hf. cbn [length] in Hf.
    destruct (take_line before (before ++ LF :: rest)) as [l|] eqn:Et.
    + destruct (process_line cur lastid l) as [[cur' last'] e].
      specialize (IH rest cur' last' ltac:(lia)).
      transitivity (feed_loop f rest cur' last' = None).
      { destruct (feed_loop f rest cur' last') as [[p es]|]; split; done. }
      rewrite IH. split.
      * intros (l' & r' & H1 & H2). exists l', r'. split; [by apply line_of_tail|done].
      * intros (l' & r' & H1 & H2). exists l', r'. split; [|done].
        apply line_of_later in H1 as [[-> ->]|H1]; [|done|done].
        apply take_line_none in H2. by rewrite Et in H2.
    + split; [|done]. intros _. apply take_line_none in Et. exists before, rest.
      split; [by apply line_of_first|done].
  - apply split_once_None in E. split; [done|]. intros (l & r & H & _). by apply line_of_none in H.
Qed.

Lemma panics p data :
  feed p data = None ↔
  ∃ line rest, line_of (p_buf p ++ data) line rest ∧ struck line rest ∧
    ∃ c, last line = Some c ∧ (128 <= c)%N.
Proof. unfold feed. apply panics_loop. lia. Qed.

(** *** Line-wise chunking *)
Lemma take_line_tame line rest :
  ascii line ∨ (last line ≠ Some CR ∧ ¬ struck line rest) →
  take_line line (line ++ LF :: rest) = Some (strip_cr line).
Proof.
  intros [Ha|[Hl Hs]].
  - unfold take_line. rewrite (utf8_size_ascii line Ha). destruct line as [|x l]; [done|].
    set (line := x :: l) in *. rewrite decide_True by (subst line; cbn [length]; lia).
    replace (N.to_nat (N.of_nat (length line) - 1)) with (length line - 1) by lia.
    rewrite lookup_app_l by (subst line; cbn [length]; lia). unfold strip_cr.
    rewrite last_lookup. replace (pred (length line)) with (length line - 1) by lia.
    destruct (line !! (length line - 1)) as [c|] eqn:El.
    + destruct (decide (c = CR)) as [->|Hc].
      * rewrite decide_True by done. by rewrite decide_True.
      * rewrite decide_False; [done|]. by intros [= ->].
    + apply lookup_ge_None in El. subst line. cbn [length] in El. lia.
  - unfold take_line, struck in *. rewrite (decide_False (P := _ = Some CR)) by done.
    assert (strip_cr line = line) as ->; [|by destruct (decide _)].
    unfold strip_cr. destruct (last line) as [c|]; [|done]. rewrite decide_False; [done|].
    by intros ->.
Qed.

Lemma tame_first line rest : LF ∉ line → tame (line ++ LF :: rest) →
  ascii line ∨ (last line ≠ Some CR ∧ ¬ struck line rest).
Proof. intros Hl Ht. apply Ht. by apply line_of_first. Qed.
Lemma tame_rest line rest : tame (line ++ LF :: rest) → tame rest.
Proof. intros Ht l r Hl. apply Ht. by apply line_of_tail. Qed.

Lemma tame_prefix a b : tame (a ++ b) → tame a.
Proof.
  intros Ht l r (pre & -> & Hp & Hl).
  destruct (Ht l (r ++ b)) as [Ha|[H1 H2]].
  - exists pre. rewrite <- !app_assoc. done.
  - by left.
  - right. split; [done|]. intros Hs. apply H2. unfold struck in *.
    rewrite app_comm_cons, app_assoc. by apply lookup_app_l_Some.
Qed.

Lemma feed_loop_tame f buf cur lastid : length buf < f → tame buf →
  feed_loop f buf cur lastid = Some (run (MkP buf cur lastid)).
Proof.
  revert buf cur lastid. induction f as [|f IH]; intros buf cur lastid Hf Ht; [lia|].
  cbn [feed_loop]. destruct (split_once LF buf) as [[before rest]|] eqn:E.
  - apply split_once_Some in E as [-> Hb]. rewrite app_length in Hf. cbn [length] in Hf.
    rewrite take_line_tame by by apply tame_first. rewrite run_line by done.
    destruct (process_line cur lastid (strip_cr before)) as [[cur' last'] e].
    rewrite IH; [|lia|by apply tame_rest in Ht].
    by destruct (run (MkP rest cur' last')) as [p es].
  - apply split_once_None in E. by rewrite run_no_line.
Qed.
Lemma feed_tame p data : tame (p_buf p ++ data) →
  feed p data = Some (run (MkP (p_buf p ++ data) (p_cur p) (p_last p))).
Proof. intros H. unfold feed. apply feed_loop_tame; [lia|done]. Qed.

(** The buffer left behind starts at the beginning of a line. *)
Lemma run_buf_tame buf b cur lastid : tame (buf ++ b) → tame (p_buf (run (MkP buf cur lastid)).1 ++ b).
Proof.
  revert cur lastid. induction buf as [l Hl|l r Hl IH] using list_lines_ind; intros cur lastid Ht.
  - by rewrite run_no_line.
  - rewrite run_line by done. destruct (process_line cur lastid (strip_cr l)) as [[cur' last'] e].
    rewrite <- app_assoc in Ht. apply tame_rest in Ht. specialize (IH cur' last' Ht).
    by destruct (run (MkP r cur' last')) as [p es].
Qed.
Lemma run_buf_no_line buf cur lastid : LF ∉ p_buf (run (MkP buf cur lastid)).1.
Proof.
  revert cur lastid. induction buf as [l Hl|l r Hl IH] using list_lines_ind; intros cur lastid.
  - by rewrite run_no_line.
  - rewrite run_line by done. destruct (process_line cur lastid (strip_cr l)) as [[cur' last'] e].
    specialize (IH cur' last'). by destruct (run (MkP r cur' last')) as [p es].
Qed.

Lemma chunking_tame p chunks : tame (p_buf p ++ concat chunks) → LF ∉ p_buf p →
  feed_all p chunks = feed p (concat chunks).
Proof.
  revert p. induction chunks as [|c cs IH]; intros p Hp Hb.
  - cbn [concat feed_all]. rewrite feed_tame by done. rewrite app_nil_r.
    destruct p as [buf cur lastid]. cbn [p_buf p_cur p_last] in *. by rewrite run_no_line.
  - cbn [concat feed_all] in *. rewrite app_assoc in Hp.
    rewrite feed_tame by by apply tame_prefix in Hp.
    rewrite (feed_tame p (c ++ concat cs)) by by rewrite app_assoc.
    rewrite app_assoc, (run_app (p_buf p ++ c)).
    pose proof (run_buf_tame _ (concat cs) (p_cur p) (p_last p) Hp) as H1.
    pose proof (run_buf_no_line (p_buf p ++ c) (p_cur p) (p_last p)) as H2.
    destruct (run (MkP (p_buf p ++ c) (p_cur p) (p_last p))) as [p1 es1]. cbn [fst] in *.
    rewrite IH by done. rewrite feed_tame by done.
    by destruct (run _) as [p2 es2].
Qed.

Lemma plain_tame t : plain t → tame t.
Proof.
  intros [Ha|Hc] l r (pre & -> & _ & _).
  - left. intros c Hin. apply Ha. set_solver.
  - right. split.
    + intros Hl. apply Hc. apply last_Some in Hl as [? ->]. set_solver.
    + intros Hs. apply elem_of_list_lookup_2 in Hs. apply Hc. set_solver.
Qed.

(** *** Data with line feeds at its ends *)
Definition add_line (d l : list N) : list N := match d with [] => l | _ => d ++ LF :: l end.

Lemma run_data_fold ls rest id ev d retry lastid : Forall no_break ls →
  run (MkP (concat (field_line (lit "data") <$> ls) ++ rest) (MkB id ev d retry) lastid)
  = run (MkP rest (MkB id ev (fold_left add_line ls d) retry) lastid).
Proof.
  revert d. induction ls as [|l ls IH]; intros d Hf; [done|].
  apply Forall_cons in Hf as [Hl Hf]. rewrite fmap_cons. cbn [concat fold_left]. rewrite <- app_assoc.
  rewrite run_field; [|by apply not_elem_lit|by apply not_elem_lit|done].
  rewrite process_data. cbn [b_data b_id b_event b_retry].
  replace (match d with [] => l | n :: d' => (n :: d') ++ LF :: l end) with (add_line d l)
    by by destruct d.
  rewrite IH by done.
  by destruct (run (MkP rest (MkB id ev (fold_left add_line ls (add_line d l)) retry) lastid)) as [p es].
Qed.

Lemma fold_nonempty ls d : d ≠ [] → fold_left add_line ls d = d ++ concat ((λ l, LF :: l) <$> ls).
Proof.
  revert d. induction ls as [|l ls IH]; intros d Hd; [cbn; by rewrite app_nil_r|].
  cbn [fold_left]. destruct d as [|c d]; [done|]. unfold add_line at 2.
  rewrite IH by (by destruct d). rewrite fmap_cons. cbn [concat]. by rewrite <- app_assoc.
Qed.

Lemma skip_lf_none l : LF ∉ l → skip_lf l = l.
Proof. destruct l as [|c l]; [done|]. intros H. cbn. rewrite decide_False; [done|]. set_solver. Qed.
Lemma skip_lf_app l r : l ≠ [] → LF ∉ l → skip_lf (l ++ r) = l ++ r.
Proof. destruct l as [|c l]; [done|]. intros _ H. cbn. rewrite decide_False; [done|]. set_solver. Qed.

Lemma fold_split t : fold_left add_line (split_on LF t) [] = skip_lf t.
Proof.
  induction t as [l Hl|l r Hl IH] using list_lines_ind.
  - rewrite split_on_no_sep by done. cbn. by rewrite skip_lf_none.
  - rewrite split_on_app by done. cbn [fold_left]. destruct (decide (l = [])) as [->|Hne].
    + cbn [app skip_lf]. rewrite decide_True by done. done.
    + change (add_line [] l) with l. rewrite fold_nonempty by done.
      rewrite skip_lf_app by done. f_equal.
      pose proof (join_split_on LF r) as Hj. pose proof (split_on_nonempty LF r) as Hn.
      destruct (split_on LF r) as [|x xs]; [done|]. rewrite join_concat in Hj.
      rewrite fmap_cons. cbn [concat]. by rewrite <- Hj.
Qed.

Lemma split_on_snoc t : split_on LF (t ++ [LF]) = split_on LF t ++ [[]].
Proof.
  induction t as [l Hl|l r Hl IH] using list_lines_ind.
  - rewrite split_on_app by done. rewrite (split_on_no_sep LF l) by done. done.
  - rewrite <- app_assoc. cbn [app]. rewrite (split_on_app LF l (r ++ [LF])), (split_on_app LF l r) by done. by rewrite IH.
Qed.

Lemma last_split t : last (split_on LF t) = Some [] → t = [] ∨ last t = Some LF.
Proof.
  induction t as [l Hl|l r Hl IH] using list_lines_ind.
  - rewrite split_on_no_sep by done. cbn. intros [= ->]. by left.
  - rewrite split_on_app by done. pose proof (split_on_nonempty LF r) as Hn.
    destruct (split_on LF r) as [|x xs] eqn:E; [done|]. rewrite last_cons_cons. intros H.
    right. destruct (IH H) as [->|Hr]; [by rewrite last_snoc|].
    rewrite last_app_cons. destruct r; [done|]. by rewrite last_cons_cons.
Qed.

Lemma fold_lines t : CR ∉ t → fold_left add_line (lines t) [] = kept t.
Proof.
  intros Hcr. unfold lines.
  assert (Hs : strip_cr <$> drop_last_empty (split_on LF t) = drop_last_empty (split_on LF t)).
  { transitivity (id <$> drop_last_empty (split_on LF t)); [|by rewrite list_fmap_id].
    apply list_fmap_ext. intros i x Hx. apply strip_cr_none. intros Hin. apply Hcr.
    rewrite <- (join_split_on LF t). apply elem_of_list_lookup_2 in Hx.
    eapply elem_of_join_with; [done|]. unfold drop_last_empty in Hx.
    destruct (last _) as [[|]|]; try done. apply elem_of_take in Hx as (j & Hj & _).
    by apply elem_of_list_lookup_2 in Hj. }
  rewrite Hs. unfold kept, cut_lf, drop_last_empty.
  destruct (last t) as [c|] eqn:El.
  - apply last_Some in El as [t' ->]. destruct (decide (c = LF)) as [->|Hc].
    + rewrite split_on_snoc, last_snoc, !app_length. cbn [length].
      rewrite !Nat.add_sub, !take_app. apply fold_split.
    + destruct (last (split_on LF (t' ++ [c]))) as [[|]|] eqn:E; try apply fold_split.
      apply last_split in E as [E|E]; [by destruct t'|]. rewrite last_snoc in E. by injection E as ->.
  - apply last_None in El as ->. done.
Qed.

Lemma lines_no_break t : CR ∉ t → Forall no_break (lines t).
Proof.
  intros Hcr. apply Forall_forall. intros x Hx. unfold lines in Hx.
  apply elem_of_list_fmap in Hx as (y & -> & Hy).
  assert (Hy' : y ∈ split_on LF t).
  { unfold drop_last_empty in Hy. destruct (last _) as [[|]|]; try done.
    apply elem_of_take in Hy as (j & Hj & _). by apply elem_of_list_lookup_2 in Hj. }
  assert (Hyc : CR ∉ y).
  { intros Hin. apply Hcr. rewrite <- (join_split_on LF t). by eapply elem_of_join_with. }
  rewrite strip_cr_none by done. split; [|done]. by eapply split_on_pieces.
Qed.

Lemma run_seen_one e rest lastid : headed e →
  run (MkP (display e ++ rest) builder0 lastid) =
  let '(p, es) := run (MkP rest builder0 (next_id lastid e)) in
  (p, seen lastid [e] ++ es).
Proof.
  intros (Hid & Hev & Hre & Hcr). unfold display. rewrite <- !app_assoc.
  assert (H1 : ∀ rest, run (MkP (match e_id e with Some v => field_line (lit "id") v | None => [] end ++ rest) builder0 lastid)
    = run (MkP rest (MkB (e_id e) None [] None) (next_id lastid e))).
  { intros r. unfold next_id. destruct (e_id e) as [v|]; [|done].
    destruct (Hid v eq_refl) as [Hv H0].
    rewrite run_field; [|by apply not_elem_lit|by apply not_elem_lit|done].
    rewrite process_id by done. by destruct (run _). }
  rewrite H1.
  assert (H2 : ∀ rest lid, run (MkP (match e_event e with Some v => field_line (lit "event") v | None => [] end ++ rest) (MkB (e_id e) None [] None) lid)
    = run (MkP rest (MkB (e_id e) (e_event e) [] None) lid)).
  { intros r lid. destruct (e_event e) as [v|]; [|done].
    rewrite run_field; [|by apply not_elem_lit|by apply not_elem_lit|by apply Hev].
    rewrite process_event. by destruct (run _). }
  rewrite H2.
  assert (H3 : ∀ rest lid, run (MkP (match e_retry e with Some v => field_line (lit "retry") (show_N v) | None => [] end ++ rest) (MkB (e_id e) (e_event e) [] None) lid)
    = run (MkP rest (MkB (e_id e) (e_event e) [] (e_retry e)) lid)).
  { intros r lid. destruct (e_retry e) as [v|]; [|done].
    rewrite run_field; [|by apply not_elem_lit|by apply not_elem_lit|by apply show_N_no_break].
    rewrite process_retry by (by apply Hre). by destruct (run _). }
  rewrite H3, run_data_fold by by apply lines_no_break. rewrite fold_lines by done.
  rewrite (run_line [] rest) by set_solver. rewrite strip_cr_none by set_solver.
  unfold process_line at 1, dispatch. cbn [b_data b_id b_event b_retry seen].
  destruct (kept (e_data e)) as [|c d].
  - by destruct (run _) as [p es].
  - destruct (run (MkP rest builder0 (next_id lastid e))) as [p es]. cbn [app].
    unfold next_id. by destruct (e_id e).
Qed.

Lemma run_seen es lastid : Forall headed es →
  run (MkP (concat (display <$> es)) builder0 lastid) =
  (MkP [] builder0 (fold_left next_id es lastid), seen lastid es).
Proof.
  revert lastid. induction es as [|e es IH]; intros lastid Hf; [done|].
  apply Forall_cons in Hf as [He Hf]. rewrite fmap_cons. cbn [concat fold_left].
  rewrite run_seen_one by done. rewrite IH by done. cbn [seen]. by rewrite app_nil_r.
Qed.

Lemma headed_no_cr es : Forall headed es → CR ∉ concat (display <$> es).
Proof.
  intros Hf Hin. apply elem_of_concat in Hin as (t & Hin & Ht).
  apply elem_of_list_fmap in Ht as (e & -> & He). rewrite Forall_forall in Hf.
  destruct (Hf _ He) as (Hid & Hev & Hre & Hcr).
  assert (Hfl : ∀ n v, CR ∉ n → CR ∉ v → CR ∉ field_line n v).
  { intros n v Hn Hv. unfold field_line. change (lit ": ") with [COLON; SP].
    rewrite !elem_of_app, !elem_of_cons, elem_of_nil. intros [?|[[?|[?|?]]|[?|[?|?]]]]; done. }
  unfold display in Hin. rewrite !elem_of_app in Hin.
  destruct Hin as [Hin|[Hin|[Hin|[Hin|Hin]]]].
  - destruct (e_id e) as [v|]; [|set_solver]. revert Hin. apply Hfl; [by apply not_elem_lit|].
    destruct (Hid v eq_refl) as [[? ?] ?]. done.
  - destruct (e_event e) as [v|]; [|set_solver]. revert Hin. apply Hfl; [by apply not_elem_lit|].
    destruct (Hev v eq_refl). done.
  - destruct (e_retry e) as [v|]; [|set_solver]. revert Hin. apply Hfl; [by apply not_elem_lit|].
    apply show_N_no_break.
  - apply elem_of_concat in Hin as (t & Hin & Ht).
    apply elem_of_list_fmap in Ht as (l & -> & Hl). revert Hin. apply Hfl; [by apply not_elem_lit|].
    apply (proj1 (Forall_forall _ _) (lines_no_break _ Hcr) l Hl).
  - apply elem_of_list_singleton in Hin. done.
Qed.

Lemma all_seen es chunks lastid : Forall headed es → concat chunks = concat (display <$> es) →
  feed_all (MkP [] builder0 lastid) chunks
  = Some (MkP [] builder0 (fold_left next_id es lastid), seen lastid es).
Proof.
  intros Hf Hc. rewrite chunking_tame.
  - rewrite feed_tame; cbn [p_buf p_cur p_last app]; rewrite Hc.
    + by rewrite run_seen.
    + apply plain_tame. right. by apply headed_no_cr.
  - cbn [p_buf app]. rewrite Hc. apply plain_tame. right. by apply headed_no_cr.
  - cbn [p_buf]. set_solver.
Qed.

Lemma skip_lf_length d : length (skip_lf d) <= length d.
Proof. induction d as [|c d IH]; [done|]. cbn [skip_lf]. case_decide; cbn [length]; lia. Qed.
Lemma kept_same d : kept d = d ↔ d = [] ∨ (head d ≠ Some LF ∧ last d ≠ Some LF).
Proof.
  unfold kept, cut_lf. destruct (last d) as [c|] eqn:El.
  - destruct (decide (c = LF)) as [->|Hc].
    + split.
      * intros H. exfalso. pose proof (skip_lf_length (take (length d - 1) d)) as Hk. rewrite H in Hk.
        rewrite take_length in Hk. destruct d; [done|]. cbn [length] in Hk. lia.
      * intros [->|[_ ?]]; done.
    + destruct d as [|x d]; [done|]. cbn [skip_lf head]. destruct (decide (x = LF)) as [->|Hx].
      * split.
        -- intros H. exfalso. pose proof (skip_lf_length d) as Hk. rewrite H in Hk.
           cbn [length] in Hk. lia.
        -- by intros [?|[? _]].
      * split; [|done]. intros _. right. split; congruence.
  - apply last_None in El as ->. split; [by left|done].
Qed.

(** A line that is not ASCII keeps its carriage return when nothing follows. *)
Lemma crlf_kept line cur lastid : LF ∉ line → ¬ ascii line →
  feed (MkP [] cur lastid) (line ++ [CR; LF]) =
  let '(cur', lastid', e) := process_line cur lastid (line ++ [CR]) in
  Some (MkP [] cur' lastid', option_list e).
Proof.
  intros Hl Ha. unfold feed. cbn [p_buf p_cur p_last app].
  replace (line ++ [CR; LF]) with ((line ++ [CR]) ++ LF :: []) by by rewrite <- app_assoc.
  set (buf := (line ++ [CR]) ++ LF :: []).
  assert (Hso : split_once LF buf = Some (line ++ [CR], [])) by (apply split_once_app; set_solver).
  cbn [feed_loop]. rewrite Hso.
  assert (Ht : take_line (line ++ [CR]) buf = Some (line ++ [CR])).
  { unfold take_line. destruct (decide (0 < _)%N); [|done]. rewrite decide_False; [done|].
    assert (Hsz : (N.of_nat (length line) + 2 <= utf8_size (line ++ [CR]))%N).
    { clear -Ha. assert (Happ : ∀ a b, utf8_size (a ++ b) = (utf8_size a + utf8_size b)%N).
      { intros a b. induction a as [|c a IH]; [done|]. cbn [app].
        change (utf8_size (c :: a ++ b)) with (utf8_len c + utf8_size (a ++ b))%N.
        change (utf8_size (c :: a)) with (utf8_len c + utf8_size a)%N. rewrite IH. lia. }
      rewrite Happ. change (utf8_size [CR]) with 1%N.
      enough (N.of_nat (length line) + 1 <= utf8_size line)%N by lia.
      induction line as [|c line IH]; [by destruct Ha; intros ? ?%elem_of_nil|].
      change (utf8_size (c :: line)) with (utf8_len c + utf8_size line)%N. cbn [length].
      destruct (decide (c < 128)%N) as [Hc|Hc].
      - assert (¬ ascii line) as Hn.
        { intros Hx. apply Ha. intros c' [->|?]%elem_of_cons; [done|by apply Hx]. }
        specialize (IH Hn). pose proof (utf8_len_pos c). lia.
      - pose proof (utf8_size_ge line). pose proof (utf8_len_pos c).
        assert (utf8_len c ≠ 1%N) by (rewrite utf8_len_one; done). lia. }
    intros Hlk. apply lookup_lt_Some in Hlk as Hlt. subst buf. rewrite !app_length in Hlt. cbn [length] in Hlt.
    replace (N.to_nat (utf8_size (line ++ [CR]) - 1)) with (length (line ++ [CR])) in Hlk
      by (rewrite app_length; cbn [length]; lia).
    rewrite list_lookup_middle in Hlk by done. done. }
  rewrite Ht. destruct (process_line cur lastid (line ++ [CR])) as [[cur' last'] e].
  assert (Hf : ∀ f, feed_loop f [] cur' last' = Some (MkP [] cur' last', [])) by (intros [|f]; done).
  rewrite Hf. by destruct e.
Qed.
