From Coq Require Import ZifyBool.
From stdpp Require Import sets list strings.
From Verif Require Import ListLib TextLib Utf8Lib JsonLib SerdeLib TypesModel RpcModel RpcSpec RpcProofs StdioModel StdioSpec.
Local Open Scope N_scope.

Lemma read_line_app l r : 10 ∉ l → read_line (l ++ 10 :: r) = (l ++ [10], r).
Proof.
  induction l as [|c l IH]; [done|]. rewrite not_elem_of_cons. intros [? ?]. cbn.
  destruct (c =? 10) eqn:E; [apply N.eqb_eq in E; congruence|]. by rewrite IH.
Qed.
Lemma trim_end l b : l ≠ [] → (∀ x, head l = Some x → is_white x = false) → (∀ x, last l = Some x → is_white x = false) →
  (∀ x, x ∈ b → is_white x = true) → trim (l ++ b) = l.
Proof.
  intros Hne Hh Hl Hb. apply (trim_by_pad is_white [] l b); try done. intros x Hx. by inversion Hx.
Qed.
Lemma header_cons : header_name = 67 :: drop 1 header_name.
Proof. reflexivity. Qed.
Lemma header_plain n : plain (header_name ++ show_N n).
Proof.
  unfold plain. rewrite Forall_app. split; [|apply show_N_plain].
  apply Forall_forall. intros x Hx. assert (existsb (N.eqb x) header_name = true) as He.
  { apply existsb_exists. exists x. split; [by apply elem_of_list_In|lia]. }
  revert He. clear Hx. unfold header_name. vm_compute (lit _). cbn [existsb]. lia.
Qed.
Lemma show_N_last n x : last (show_N n) = Some x → 48 <= x <= 57.
Proof. intros H. apply last_Some_elem_of in H. by apply show_N_digits in H. Qed.
Lemma show_N_head' n x : head (show_N n) = Some x → 48 <= x <= 57.
Proof. intros H. apply head_Some_elem_of in H. by apply show_N_digits in H. Qed.
Lemma digit_not_white x : 48 <= x <= 57 → is_white x = false.
Proof. intros H. unfold is_white. lia. Qed.
Lemma content_length_show n : n <= u64_max → parse_content_length (header_name ++ show_N n) = Some n.
Proof.
  intros Hn. unfold parse_content_length. rewrite strip_app.
  assert (trim (show_N n) = show_N n) as ->.
  { rewrite <-(app_nil_r (show_N n)) at 1. apply trim_end.
    - apply show_N_nonempty.
    - intros x Hx%show_N_head'. by apply digit_not_white.
    - intros x Hx%show_N_last. by apply digit_not_white.
    - intros x Hx. by inversion Hx. }
  by apply parse_show_N.
Qed.
Lemma frame_split p r : frame p ++ r = (header_name ++ show_N (N.of_nat (length p)) ++ [13]) ++ 10 :: [13] ++ 10 :: p ++ r.
Proof. unfold frame, crlf2. by rewrite <-!app_assoc. Qed.
Lemma no_lf n : 10 ∉ header_name ++ show_N n ++ [13].
Proof.
  rewrite !elem_of_app. intros [H|[H|H]].
  - assert (existsb (N.eqb 10) header_name = true) as He; [|by vm_compute in He].
    apply existsb_exists. exists 10. split; [by apply elem_of_list_In|done].
  - apply show_N_digits in H. lia.
  - apply elem_of_list_singleton in H. lia.
Qed.
Lemma plain_decode t : plain t → utf8_decode t = Some t.
Proof.
  intros H. rewrite <-(utf8_ascii t) at 1 by exact H. apply utf8_decode_encode. apply plain_scalar. exact H.
Qed.
Lemma read_frame_headers p r f : N.of_nat (length p) <= isize_max →
  read_headers (S (S f)) None (frame p ++ r) = (HLength (N.of_nat (length p)), p ++ r).
Proof.
  intros Hp. rewrite frame_split. set (n := N.of_nat (length p)) in *.
  cbn [read_headers].
  destruct ((header_name ++ show_N n ++ [13]) ++ _) eqn:E; [by rewrite header_cons in E|]. rewrite <-E. clear E.
  rewrite read_line_app by apply no_lf.
  rewrite plain_decode; cycle 1.
  { rewrite app_assoc. unfold plain. apply Forall_app. split; [apply Forall_app; split; [apply header_plain|]|]; repeat constructor; lia. }
  assert (trim ((header_name ++ show_N n ++ [13]) ++ [10]) = header_name ++ show_N n) as ->.
  { rewrite <-!app_assoc. rewrite (app_assoc header_name). apply trim_end.
    - by rewrite header_cons.
    - by intros x [= <-].
    - rewrite last_app. destruct (last (show_N n)) eqn:E.
      + intros x [= <-]. apply show_N_last in E. by apply digit_not_white.
      + apply last_None in E. by destruct (show_N_nonempty n).
    - intros x Hx. cbn in Hx. rewrite !elem_of_cons, elem_of_nil in Hx. destruct Hx as [->|[->|[]]]; done. }
  destruct (header_name ++ show_N n) eqn:E; [by rewrite header_cons in E|]. rewrite <-E. clear E.
  rewrite content_length_show by (unfold u64_max, isize_max in *; lia).
  cbn [app read_line]. done.
Qed.
Lemma receive_frame p r out : N.of_nat (length p) <= isize_max →
  receive {| sd_in := frame p ++ r; sd_out := out; sd_closed := false |}
  = (reading p, {| sd_in := r; sd_out := out; sd_closed := false |}).
Proof.
  intros Hp. unfold receive. cbn [sd_closed sd_in sd_out].
  assert (∃ f, length (frame p ++ r) = S f) as [f ->].
  { unfold frame. rewrite !app_length. cbn. eexists. reflexivity. }
  rewrite read_frame_headers by done.
  assert ((isize_max <? N.of_nat (length p)) = false) as -> by lia.
  assert ((N.of_nat (length (p ++ r)) <? N.of_nat (length p)) = false) as -> by (rewrite app_length; lia).
  rewrite Nat2N.id, take_app, drop_app. done.
Qed.
Lemma receive_frames ps r out : Forall (λ p, N.of_nat (length p) <= isize_max) ps →
  srun {| sd_in := concat (frame <$> ps) ++ r; sd_out := out; sd_closed := false |} (replicate (length ps) Receive)
  = ((λ p, Got (reading p)) <$> ps, {| sd_in := r; sd_out := out; sd_closed := false |}).
Proof.
  induction 1 as [|p ps Hp _ IH]; [done|]. rewrite fmap_cons. cbn [concat length replicate srun sstep].
  rewrite <-app_assoc, receive_frame by done. rewrite IH. done.
Qed.
Lemma receive_eof out : receive {| sd_in := []; sd_out := out; sd_closed := false |} = (RClosed, {| sd_in := []; sd_out := out; sd_closed := true |}).
Proof. done. Qed.

(** *** Writing *)
Lemma srun_out os s : ∀ rs s', srun s os = (rs, s') →
  sd_out s' = sd_out s ++ concat ((λ m, frame (serialize_message m)) <$> sent_ok os rs).
Proof.
  revert s. induction os as [|o os IH]; intros s rs s'; cbn [srun].
  - intros [= <- <-]. cbn. by rewrite app_nil_r.
  - destruct (sstep s o) as [r s1] eqn:E. destruct (srun s1 os) as [rs1 s2] eqn:E2. intros [= <- <-].
    rewrite (IH _ _ _ E2). destruct o as [m| |]; cbn [sstep] in E.
    + unfold send in E. destruct (sd_closed s) eqn:Ec; simplify_eq; cbn [sent_ok sd_out]; [done|].
      rewrite fmap_cons. cbn [concat]. by rewrite app_assoc.
    + destruct (receive s) as [x s3] eqn:Er. simplify_eq. cbn [sent_ok]. f_equal.
      unfold receive in Er. destruct (sd_closed s); [by simplify_eq|].
      destruct (read_headers _ _ _) as [[] ?]; repeat case_match; by simplify_eq.
    + simplify_eq. done.
Qed.
Lemma end_to_end os inp rs s : srun (open_on inp) os = (rs, s) → Forall sendable (sent_ok os rs) →
  srun (open_on (sd_out s)) (replicate (S (length (sent_ok os rs))) Receive)
  = (((λ m, Got (RMsg (msg_seen_as m))) <$> sent_ok os rs) ++ [Got RClosed], {| sd_in := []; sd_out := []; sd_closed := true |}).
Proof.
  intros Hr Hs. apply srun_out in Hr. cbn [open_on sd_out] in Hr. rewrite Hr. clear Hr. set (ms := sent_ok os rs) in *. clearbody ms.
  cbn [app]. rewrite replicate_S_end.
  assert (Happ : ∀ s o1 o2, srun s (o1 ++ o2) = let '(r1, s1) := srun s o1 in let '(r2, s2) := srun s1 o2 in (r1 ++ r2, s2)).
  { clear. intros s o1. revert s. induction o1 as [|o o1 IH]; intros s o2; cbn [srun app].
    - by destruct (srun s o2).
    - destruct (sstep s o) as [r s1]. rewrite IH. destruct (srun s1 o1) as [r1 s2]. by destruct (srun s2 o2). }
  rewrite Happ. pose proof (receive_frames (serialize_message <$> ms) [] []) as H.
  rewrite fmap_length, <-list_fmap_compose, app_nil_r in H. unfold compose in H. unfold open_on.
  rewrite H.
  - cbn. f_equal. f_equal. clear H. induction Hs as [|m ms (Hg & Hn & Hst & _) _ IH]; [done|]. rewrite !fmap_cons.
    rewrite IH. f_equal. unfold reading. by rewrite message_bytes.
  - apply Forall_fmap. eapply Forall_impl; [exact Hs|]. intros m (_ & _ & _ & ?). done.
Qed.

(** *** Closing *)
Lemma closed_step s o : sd_closed s = true → refuses (sstep s o).1 ∧ sd_closed (sstep s o).2 = true ∧ sd_out (sstep s o).2 = sd_out s.
Proof.
  intros Hc. destruct o; cbn [sstep]; unfold send, receive; rewrite ?Hc; done.
Qed.
Lemma closed_run s os : sd_closed s = true → ∀ rs s', srun s os = (rs, s') → Forall refuses rs ∧ sd_out s' = sd_out s.
Proof.
  revert s. induction os as [|o os IH]; intros s Hc rs s'; cbn [srun].
  - intros [= <- <-]. done.
  - pose proof (closed_step s o Hc) as (H1 & H2 & H3). destruct (sstep s o) as [r s1]. cbn [fst snd] in *.
    destruct (srun s1 os) as [rs1 s2] eqn:E2. intros [= <- <-]. destruct (IH _ H2 _ _ E2) as [? ?].
    split; [by constructor|congruence].
Qed.

(** *** Panics *)
Lemma read_line_eq inp l r : read_line inp = (l, r) → inp = l ++ r ∧ (r ≠ [] → last l = Some 10).
Proof.
  revert l r. induction inp as [|c inp IH]; intros l r; cbn [read_line].
  - intros [= <- <-]. done.
  - destruct (c =? 10) eqn:E.
    + intros [= <- <-]. split; [done|]. intros _. cbn. f_equal. lia.
    + destruct (read_line inp) as [l1 r1]. intros [= <- <-]. destruct (IH _ _ eq_refl) as [-> H2].
      split; [done|]. intros H. apply H2 in H. destruct l1; [done|]. by rewrite last_cons_cons.
Qed.
Lemma read_headers_length f len inp n r : read_headers f len inp = (HLength n, r) →
  len = Some n ∨ ∃ pre line post, inp = pre ++ line ++ post ∧ (pre = [] ∨ last pre = Some 10) ∧
    (∃ t, utf8_decode line = Some t ∧ parse_content_length (trim t) = Some n).
Proof.
  revert len inp. induction f as [|f IH]; intros len inp; cbn [read_headers]; [done|].
  destruct inp as [|c inp]; [done|]. destruct (read_line _) as [l r'] eqn:El.
  apply read_line_eq in El as [-> Hl].
  destruct (utf8_decode l) as [t|] eqn:Et; [|done]. destruct (trim t) as [|x line] eqn:E.
  - destruct len; [|done]. intros; simplify_eq. by left.
  - intros H%IH. destruct H as [H|(pre & ln & post & -> & Hp & Ht)].
    + destruct (parse_content_length (x :: line)) eqn:E2; [|by left].
      right. exists [], l, r'. split; [done|]. split; [by left|]. exists t. rewrite E. naive_solver.
    + right. exists (l ++ pre), ln, post. split; [by rewrite <-app_assoc|]. split; [|done]. right.
      destruct Hp as [->|Hp].
      * rewrite app_nil_r. apply Hl. destruct Ht as (t' & Hd & Hc). intros Hn. cbn [app] in Hn. apply app_eq_nil in Hn as [-> _].
        vm_compute in Hd. by simplify_eq.
      * rewrite last_app. by rewrite Hp.
Qed.
Lemma receive_panic n r out : isize_max < n → n <= u64_max →
  receive {| sd_in := header_name ++ show_N n ++ crlf2 ++ r; sd_out := out; sd_closed := false |} =
  (RPanic, {| sd_in := r; sd_out := out; sd_closed := false |}).
Proof.
  intros H1 H2. unfold receive. cbn [sd_closed sd_in sd_out].
  assert (∃ f, length (header_name ++ show_N n ++ crlf2 ++ r) = S f) as [f ->].
  { rewrite !app_length. cbn. eexists. reflexivity. }
  assert (read_headers (S (S f)) None (header_name ++ show_N n ++ crlf2 ++ r) = (HLength n, r)) as ->.
  { assert (header_name ++ show_N n ++ crlf2 ++ r = (header_name ++ show_N n ++ [13]) ++ 10 :: [13] ++ 10 :: r) as ->.
    { unfold crlf2. by rewrite <-!app_assoc. }
    cbn [read_headers].
    destruct ((header_name ++ show_N n ++ [13]) ++ _) eqn:E; [by rewrite header_cons in E|]. rewrite <-E. clear E.
    rewrite read_line_app by apply no_lf.
    rewrite plain_decode; cycle 1.
    { rewrite app_assoc. unfold plain. apply Forall_app. split; [apply Forall_app; split; [apply header_plain|]|]; repeat constructor; lia. }
    assert (trim ((header_name ++ show_N n ++ [13]) ++ [10]) = header_name ++ show_N n) as ->.
    { rewrite <-!app_assoc. rewrite (app_assoc header_name). apply trim_end.
      - by rewrite header_cons.
      - by intros x [= <-].
      - rewrite last_app. destruct (last (show_N n)) eqn:E.
        + intros x [= <-]. apply show_N_last in E. by apply digit_not_white.
        + apply last_None in E. by destruct (show_N_nonempty n).
      - intros x Hx. cbn in Hx. rewrite !elem_of_cons, elem_of_nil in Hx. destruct Hx as [->|[->|[]]]; done. }
    destruct (header_name ++ show_N n) eqn:E; [by rewrite header_cons in E|]. rewrite <-E. clear E.
    rewrite content_length_show by done. cbn [app read_line]. done. }
  by assert ((isize_max <? n) = true) as -> by lia.
Qed.
Lemma panic_cause s s' : receive s = (RPanic, s') →
  ∃ pre line post n, sd_in s = pre ++ line ++ post ∧ (pre = [] ∨ last pre = Some 10) ∧
    (∃ t, utf8_decode line = Some t ∧ parse_content_length (trim t) = Some n) ∧ isize_max < n.
Proof.
  unfold receive. destruct (sd_closed s); [done|]. destruct (read_headers _ _ _) as [h r] eqn:E.
  destruct h as [n| | |]; [|done..]. destruct (isize_max <? n) eqn:En; [|repeat case_match; done].
  intros _. apply read_headers_length in E as [|(pre & line & post & ? & ? & ?)]; [done|].
  exists pre, line, post, n. repeat (split; [done|]). lia.
Qed.
Lemma closed_for_good s os1 o os2 rs1 s1 r s2 rs2 s3 :
  srun s os1 = (rs1, s1) → sstep s1 o = (r, s2) → r = ClosedOk ∨ r = Got RClosed →
  srun s2 os2 = (rs2, s3) → Forall refuses rs2 ∧ sd_out s3 = sd_out s2.
Proof.
  intros _ Ho Hr. apply closed_run. destruct o; cbn [sstep] in Ho.
  - unfold send in Ho. destruct (sd_closed s1); simplify_eq; naive_solver.
  - destruct (receive s1) as [x s4] eqn:E. simplify_eq. destruct Hr as [?|[= ->]]; [done|].
    unfold receive in E. destruct (sd_closed s1) eqn:Ec; [by simplify_eq|].
    destruct (read_headers _ _ _) as [[] ?]; repeat case_match; by simplify_eq.
  - by simplify_eq.
Qed.
Lemma closed_step_iff s o : sd_closed (sstep s o).2 = true ↔ sd_closed s = true ∨ (sstep s o).1 = ClosedOk ∨ (sstep s o).1 = Got RClosed.
Proof.
  destruct o as [m| |]; cbn [sstep].
  - unfold send. destruct (sd_closed s) eqn:E; cbn; naive_solver.
  - unfold receive. destruct (sd_closed s) eqn:E; [cbn; naive_solver|]. destruct (read_headers _ _ _) as [[] r]; cbn [fst snd sd_closed]; try naive_solver.
    repeat case_match; cbn [fst snd sd_closed]; try naive_solver.
  - cbn. naive_solver.
Qed.
Lemma closed_iff os : ∀ s rs s', srun s os = (rs, s') → (sd_closed s' = true ↔ sd_closed s = true ∨ ClosedOk ∈ rs ∨ Got RClosed ∈ rs).
Proof.
  induction os as [|o os IH]; intros s rs s' H; cbn [srun] in H; [simplify_eq; set_solver|].
  pose proof (closed_step_iff s o) as Hs. destruct (sstep s o) as [r s1]. destruct (srun s1 os) as [rs' s2] eqn:E. simplify_eq. rewrite (IH _ _ _ E). cbn [fst snd] in Hs. rewrite Hs.
  rewrite !elem_of_cons. naive_solver.
Qed.
