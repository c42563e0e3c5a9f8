(** Lemmas for header blocks of the stdio transport. *)
From Coq Require Import ZifyBool.
From stdpp Require Import sets list strings.
From Verif Require Import ListLib TextLib Utf8Lib JsonLib WhiteSpec RpcModel RpcSpec JsonFastProofs StdioModel StdioSpec StdioProofs.
Local Open Scope N_scope.

Lemma white_spec c : is_white c = true ↔ c ∈ white_space.
Proof. unfold is_white, white_space. rewrite !elem_of_cons, elem_of_nil. lia. Qed.
Lemma utf8_lf t : Forall scalar t → 10 ∉ t → 10 ∉ utf8 t.
Proof.
  intros Hs Hn. induction Hs as [|c t Hc Hs IH]; [by intros H; inversion H|]. apply not_elem_of_cons in Hn as [Hne Hn].
  unfold utf8. cbn [concat fmap list_fmap]. change (10 ∉ utf8_char c ++ utf8 t). rewrite elem_of_app. intros [H|H]; [|by apply IH].
  destruct (N.ltb c 128) eqn:E.
  - rewrite utf8_char_ascii in H by lia. apply elem_of_list_singleton in H. done.
  - apply utf8_char_bytes in H; [|unfold scalar in Hc; lia]. lia.
Qed.
Lemma line_decode t : one_line t → utf8_decode (on_line t) = Some (t ++ [10]).
Proof.
  intros [Hs _]. unfold on_line. rewrite <-(utf8_ascii [10]) by (repeat constructor; lia). rewrite <-utf8_app.
  apply utf8_decode_encode. apply Forall_app. split; [done|]. repeat constructor; unfold scalar; lia.
Qed.
Lemma drop_white_all l : (∀ x, x ∈ l → is_white x = true) → drop_while is_white l = [].
Proof. intros H. rewrite <-(app_nil_r l), drop_while_app_all by done. done. Qed.
Lemma trim_blank t : blank t → trim t = [].
Proof. intros H. unfold trim, trim_by. rewrite (drop_white_all t); [reflexivity|]. intros x Hx. by apply white_spec, H. Qed.
Lemma blank_lf t : blank t → blank (t ++ [10]).
Proof. intros H c. rewrite elem_of_app, elem_of_list_singleton. intros [Hc| ->]; [by apply H|]. apply white_spec. reflexivity. Qed.
(** Trimming cuts white space off both ends. *)
Lemma trim_cut t : ∃ a b, t = a ++ trim t ++ b ∧ blank a ∧ blank b.
Proof.
  unfold trim, trim_by. destruct (drop_while_suffix is_white t) as (k & E & Hf). rewrite E.
  destruct (drop_while_suffix is_white (reverse (drop k t))) as (j & E2 & Hf2). rewrite E2.
  exists (take k t), (reverse (take j (reverse (drop k t)))). split_and!.
  - rewrite <-reverse_app, take_drop, reverse_involutive, take_drop. done.
  - intros c Hc. apply white_spec. exact (proj1 (Forall_forall _ _) Hf c Hc).
  - intros c Hc. rewrite elem_of_reverse in Hc. apply white_spec. exact (proj1 (Forall_forall _ _) Hf2 c Hc).
Qed.
Lemma trim_nonblank t : ¬ blank t → trim (t ++ [10]) ≠ [].
Proof.
  intros Hn H. destruct (trim_cut (t ++ [10])) as (a & b & E & Ha & Hb). rewrite H in E. cbn [app] in E. apply Hn.
  intros c Hc. assert (c ∈ a ++ b) as Hin by (rewrite <-E, elem_of_app; by left). apply elem_of_app in Hin as [?|?]; auto.
Qed.
Lemma states_length t n : states n t → n <= u64_max → parse_content_length (trim (t ++ [10])) = Some n.
Proof.
  intros (a & b & c & -> & Ha & Hb & Hc) Hn. fold header_name.
  assert (trim ((a ++ header_name ++ b ++ show_N n ++ c) ++ [10]) = header_name ++ b ++ show_N n) as ->.
  { replace ((a ++ header_name ++ b ++ show_N n ++ c) ++ [10]) with (a ++ (header_name ++ b ++ show_N n) ++ (c ++ [10])) by (by rewrite <-!app_assoc).
    apply trim_by_pad.
    - intros x Hx. by apply white_spec, Ha.
    - intros x Hx. by apply white_spec, (blank_lf c).
    - rewrite header_cons. by intros x [= <-].
    - rewrite app_assoc, last_app. destruct (last (show_N n)) eqn:E.
      + intros x [= <-]. apply show_N_last in E. by apply digit_not_white.
      + apply last_None in E. by destruct (show_N_nonempty n).
    - by rewrite header_cons. }
  unfold parse_content_length. rewrite strip_app.
  assert (trim (b ++ show_N n) = show_N n) as ->; [|by apply parse_show_N].
  rewrite <-(app_nil_r (show_N n)) at 1. apply trim_by_pad.
  - intros x Hx. by apply white_spec, Hb.
  - intros x Hx. by inversion Hx.
  - intros x Hx%show_N_head'. by apply digit_not_white.
  - intros x Hx%show_N_last. by apply digit_not_white.
  - apply show_N_nonempty.
Qed.
Lemma other_length t : 10 ∉ t → other_header t → parse_content_length (trim (t ++ [10])) = None.
Proof.
  intros Hlf Ho. unfold parse_content_length. destruct (strip header_name (trim (t ++ [10]))) as [r|] eqn:E; [|done]. exfalso.
  apply strip_inv in E. destruct (trim_cut (t ++ [10])) as (a & b & Et & Ha & Hb). rewrite E in Et. apply Ho.
  destruct (decide (r ++ b = [])) as [Hn|Hn].
  - rewrite <-!app_assoc, Hn, app_nil_r in Et. assert (Hl : last (t ++ [10]) = last (a ++ header_name)) by (rewrite Et; done).
    rewrite last_snoc, last_app in Hl. by vm_compute in Hl.
  - destruct (exists_last Hn) as (r' & z & Hr). exists a, r'. split; [|done]. fold header_name.
    rewrite <-!app_assoc, Hr, !app_assoc in Et. apply app_inj_tail in Et as [-> _]. by rewrite <-app_assoc.
Qed.
Definition final_length (ts : list (list N)) (len : option N) : option N :=
  foldl (λ len t, match parse_content_length (trim (t ++ [10])) with Some n => Some n | None => len end) len ts.
Lemma read_headers_lines ts b r : Forall header_line ts → one_line b → blank b → ∀ f len, (length ts < f)%nat →
  read_headers f len (concat (on_line <$> ts) ++ on_line b ++ r)
  = (match final_length ts len with Some n => HLength n | None => HMissing end, r).
Proof.
  intros Hts Hb Hbl. induction Hts as [|t ts [Ht Hn] Hts IH]; intros f len Hf; (destruct f as [|f]; [simpl in Hf; lia|]); cbn [read_headers].
  - cbn [concat fmap list_fmap app]. assert (Hne : on_line b ++ r ≠ []) by (unfold on_line; rewrite <-app_assoc; intros H; apply app_eq_nil in H as [_ H]; done).
    destruct (on_line b ++ r) as [|x l] eqn:E; [done|]. rewrite <-E. unfold on_line. rewrite <-app_assoc. cbn [app].
    rewrite read_line_app by (apply utf8_lf; apply Hb). change (utf8 b ++ [10]) with (on_line b). rewrite line_decode by done.
    rewrite trim_blank by (by apply blank_lf). done.
  - rewrite fmap_cons. cbn [concat]. rewrite <-app_assoc. set (k := concat (on_line <$> ts) ++ on_line b ++ r) in *.
    assert (Hne : on_line t ++ k ≠ []) by (unfold on_line; rewrite <-app_assoc; intros H; apply app_eq_nil in H as [_ H]; done).
    destruct (on_line t ++ k) as [|x l] eqn:E; [done|]. rewrite <-E. unfold on_line. rewrite <-app_assoc. cbn [app].
    rewrite read_line_app by (apply utf8_lf; apply Ht). change (utf8 t ++ [10]) with (on_line t). rewrite line_decode by done.
    pose proof (trim_nonblank t Hn) as Hne2. unfold final_length. cbn [foldl].
    destruct (trim (t ++ [10])) as [|y l2] eqn:E2; [done|]. apply IH. simpl in Hf. lia.
Qed.
Lemma lines_fuel ts (b r : list N) : (length ts < S (length (concat (on_line <$> ts) ++ on_line b ++ r)))%nat.
Proof.
  assert (length ts <= length (concat (on_line <$> ts)))%nat; [|rewrite app_length; lia].
  induction ts as [|t ts IH]; [done|]. rewrite fmap_cons. cbn [concat length]. rewrite app_length. unfold on_line at 1. rewrite app_length. simpl. lia.
Qed.
Lemma final_stated ts1 t ts2 n : Forall header_line ts2 → Forall other_header ts2 → states n t → n <= u64_max → final_length (ts1 ++ t :: ts2) None = Some n.
Proof.
  intros Hh Ho Hs Hn. unfold final_length. rewrite foldl_app. cbn [foldl]. rewrite (states_length t n) by done.
  revert Ho. induction Hh as [|u ts2 [[_ Hu] _] Hh IH]; intros Ho; [done|]. apply Forall_cons in Ho as [Hou Ho]. cbn [foldl].
  rewrite other_length by done. by apply IH.
Qed.
Lemma final_none ts : Forall header_line ts → Forall other_header ts → final_length ts None = None.
Proof.
  unfold final_length. induction 1 as [|u ts [[_ Hu] _] Hh IH]; intros Ho; [done|]. apply Forall_cons in Ho as [Hou Ho]. cbn [foldl].
  rewrite other_length by done. by apply IH.
Qed.
Lemma block_read ts1 t ts2 b p r out : Forall header_line (ts1 ++ t :: ts2) → one_line b → blank b → states (N.of_nat (length p)) t → Forall other_header ts2 →
  N.of_nat (length p) <= isize_max →
  receive {| sd_in := concat (on_line <$> ts1 ++ t :: ts2) ++ on_line b ++ p ++ r; sd_out := out; sd_closed := false |}
  = (reading p, {| sd_in := r; sd_out := out; sd_closed := false |}).
Proof.
  intros Hts Hb Hbl Hs Ho Hp. unfold receive. cbn [sd_closed sd_in sd_out].
  rewrite read_headers_lines by (done || apply lines_fuel). rewrite (final_stated ts1 t ts2 (N.of_nat (length p))); try done.
  - assert ((isize_max <? N.of_nat (length p)) = false) as -> by lia.
    assert ((N.of_nat (length (p ++ r)) <? N.of_nat (length p)) = false) as -> by (rewrite app_length; lia).
    rewrite Nat2N.id, take_app, drop_app. done.
  - apply Forall_app in Hts as [_ Hts]. by apply Forall_cons in Hts as [_ Hts].
  - unfold u64_max, isize_max in *. lia.
Qed.
Lemma block_missing ts b r out : Forall header_line ts → Forall other_header ts → one_line b → blank b →
  receive {| sd_in := concat (on_line <$> ts) ++ on_line b ++ r; sd_out := out; sd_closed := false |}
  = (RInvalid, {| sd_in := r; sd_out := out; sd_closed := false |}).
Proof.
  intros Hts Ho Hb Hbl. unfold receive. cbn [sd_closed sd_in sd_out].
  rewrite read_headers_lines by (done || apply lines_fuel). rewrite final_none by done. done.
Qed.
Lemma garbage_line l r out : 10 ∉ l → utf8_decode (l ++ [10]) = None →
  receive {| sd_in := l ++ 10 :: r; sd_out := out; sd_closed := false |} = (RIo, {| sd_in := r; sd_out := out; sd_closed := false |}).
Proof.
  intros Hl Hd. unfold receive. cbn [sd_closed sd_in sd_out read_headers].
  destruct (l ++ 10 :: r) as [|x k] eqn:E; [by destruct l|]. rewrite <-E. rewrite read_line_app by done. by rewrite Hd.
Qed.
Lemma short_body ts1 t ts2 b p n out : Forall header_line (ts1 ++ t :: ts2) → one_line b → blank b → states n t → Forall other_header ts2 →
  n <= isize_max → N.of_nat (length p) < n →
  receive {| sd_in := concat (on_line <$> ts1 ++ t :: ts2) ++ on_line b ++ p; sd_out := out; sd_closed := false |}
  = (RIo, {| sd_in := []; sd_out := out; sd_closed := false |}).
Proof.
  intros Hts Hb Hbl Hs Ho Hn Hp. unfold receive. cbn [sd_closed sd_in sd_out].
  rewrite read_headers_lines by (done || apply lines_fuel). rewrite (final_stated ts1 t ts2 n); try done.
  - assert ((isize_max <? n) = false) as -> by lia.
    assert ((N.of_nat (length p) <? n) = true) as -> by lia. done.
  - apply Forall_app in Hts as [_ Hts]. by apply Forall_cons in Hts as [_ Hts].
  - unfold u64_max, isize_max in *. lia.
Qed.
Lemma garbage_decode l : Forall (λ b, b < 256) l → (¬ ∃ t, Forall scalar t ∧ l = utf8 t) → utf8_decode (l ++ [10]) = None.
Proof.
  intros Hl Hn. destruct (utf8_decode (l ++ [10])) as [u|] eqn:E; [|done]. exfalso. apply Hn.
  apply utf8_decode_iff in E as [Hs E]; [|apply Forall_app; split; [done|repeat constructor; lia]].
  destruct (decide (u = [])) as [->|Hu]; [by destruct l|]. destruct (exists_last Hu) as (u' & c & ->).
  apply Forall_app in Hs as [Hs Hc]. rewrite Forall_singleton in Hc. rewrite utf8_app in E.
  assert (utf8 [c] = utf8_char c) as Ec by (unfold utf8; cbn [concat fmap list_fmap]; by rewrite app_nil_r). rewrite Ec in E.
  destruct (N.ltb c 128) eqn:E1.
  - rewrite utf8_char_ascii in E by lia. apply app_inj_tail in E as [-> _]. by exists u'.
  - assert (Hl10 : last (l ++ [10]) = last (utf8 u' ++ utf8_char c)) by (by rewrite E). rewrite last_snoc, last_app in Hl10.
    destruct (last (utf8_char c)) as [z|] eqn:Ez.
    + injection Hl10 as <-. apply last_Some_elem_of in Ez. apply utf8_char_bytes in Ez; [|unfold scalar in Hc; lia]. lia.
    + apply last_None in Ez. by destruct (utf8_char_nonempty c).
Qed.
