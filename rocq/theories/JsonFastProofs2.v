From stdpp Require Import list list_numbers strings.
From Coq Require Import ZifyBool.
From Verif Require Import ListLib TextLib Utf8Lib JsonLib SimdModel SimdSpec SimdProofs JsonFastModel JsonFastSpec JsonFastProofs.
Local Open Scope N_scope.

(** *** Two numbers become one *)
Definition all_digits (l : list N) : Prop := Forall (λ d, is_dig d = true) l.
Lemma digits_acc l acc : fold_left (λ a d, a * 10 + (d - 48)) l acc = acc * 10 ^ N.of_nat (length l) + digits_val l.
Proof.
  unfold digits_val. revert acc. induction l as [|d l IH]; intros acc; cbn [fold_left length]; [cbn; lia|]. rewrite IH, (IH (0 * 10 + (d - 48))). rewrite Nat2N.inj_succ, N.pow_succ_r'. lia.
Qed.
Lemma digits_app a b : digits_val (a ++ b) = digits_val a * 10 ^ N.of_nat (length b) + digits_val b.
Proof. unfold digits_val at 1. rewrite fold_left_app. apply digits_acc. Qed.
Lemma digits_bound l : all_digits l → digits_val l < 10 ^ N.of_nat (length l).
Proof.
  induction 1 as [|d l Hd Hl IH]; [done|]. change (d :: l) with ([d] ++ l). rewrite digits_app, app_length, Nat2N.inj_add, N.pow_add_r. change (N.of_nat (length [d])) with 1. unfold is_dig in Hd.
  assert (digits_val [d] <= 9) as H9 by (unfold digits_val; cbn [fold_left]; lia). revert IH. generalize (10 ^ N.of_nat (length l)), (digits_val l), (digits_val [d]), H9. intros. nia.
Qed.
Lemma show_N_digits n : all_digits (show_N n).
Proof. pose proof (scan_int_show n [] I) as H. rewrite app_nil_r in H. apply Forall_forall. intros d Hd.
  destruct (show_N n) as [|c l] eqn:E; [by apply elem_of_nil in Hd|]. cbn [scan_int] in H. destruct (c =? 48) eqn:E0.
  - destruct l as [|d' l]; [apply elem_of_list_singleton in Hd as ->; unfold is_dig; lia|]. destruct (is_dig d'); [done|]. by injection H.
  - destruct (take_digits (c :: l)) as [[|x ds] r] eqn:Et; [done|]. injection H as Hx -> ->. subst. apply take_digits_inv in Et as (_ & Hf & _). rewrite Forall_forall in Hf. by apply Hf.
Qed.
Lemma digits_plain l : all_digits l → plain l.
Proof. intros H. eapply Forall_impl; [exact H|]. unfold is_dig. cbn. lia. Qed.
Lemma parse_digits l : all_digits l → match l with c :: _ => c ≠ 48 | [] => False end → (length l <= 19)%nat → parse l = Some (JInt (Z.of_N (digits_val l))).
Proof.
  intros Hd Hh Hl. unfold parse. destruct l as [|c l]; [done|]. inversion Hd as [|? ? Hc _]; subst. unfold is_dig in Hc.
  rewrite num_first_pv by (unfold num_first; lia). assert (parse_num (c :: l) = Some (JInt (Z.of_N (digits_val (c :: l))), [])) as ->; [|done].
  unfold parse_num. assert ((c =? 45) = false) as -> by lia. cbn [scan_int]. assert ((c =? 48) = false) as -> by lia.
  pose proof (take_digits_app (c :: l) [] Hd I) as Ht. rewrite app_nil_r in Ht. rewrite Ht. cbn [scan_frac scan_exp app].
  assert (digits_val (c :: l) <=? u64_max = true) as ->; [|done]. apply N.leb_le. pose proof (digits_bound _ Hd) as Hb. etransitivity; [apply N.lt_le_incl, Hb|].
  transitivity (10 ^ 19); [apply N.pow_le_mono_r; lia|]. by vm_compute.
Qed.
Lemma skip_sep sep r : Forall (λ c, json_ws c = true) sep → skip_ws (sep ++ r) = skip_ws r.
Proof. unfold skip_ws. induction 1 as [|c sep Hc Hs IH]; [done|]. cbn [app drop_while]. by rewrite Hc. Qed.
Lemma ws_stop sep r : Forall (λ c, json_ws c = true) sep → sep ≠ [] → stop (sep ++ r).
Proof. intros [|c s Hc Hs] Hne; [done|]. cbn [app]. unfold json_ws in Hc. apply stop_cons; unfold is_dig; lia. Qed.
Lemma squeeze_ws sep r : Forall (λ c, json_ws c = true) sep → squeeze Outside (sep ++ r) = squeeze Outside r.
Proof. intros H. by rewrite <- squeeze_skip, skip_sep, squeeze_skip. Qed.
Lemma short_aligned t : (length (utf8 t) < 32)%nat → aligned t.
Proof. intros H i Hi. destruct i as [|i]; [|lia]. by exists [], t. Qed.
Lemma short_blocks p input : (length input < 32)%nat → no_block_ends_in p input.
Proof. intros H i Hi. lia. Qed.
Lemma show_N_nonempty n : ∃ c l, show_N n = c :: l ∧ is_dig c = true.
Proof.
  destruct (show_N n) as [|c l] eqn:E; [|pose proof (show_N_digits n) as H; rewrite E in H; inversion H; eauto]. pose proof (scan_int_show n [] I) as H. by rewrite E in H.
Qed.
Lemma positions_length p k l : length (positions_from k p l) = length (filter (λ b, p b = true) l).
Proof. revert k. induction l as [|b l IH]; intros k; [done|]. cbn [positions_from]. rewrite filter_cons. destruct (p b); [rewrite decide_True by done|rewrite decide_False by done]; cbn [length]; by rewrite IH. Qed.
Lemma digits_no_ws l : all_digits l → filter (λ b, is_space b = true) l = [].
Proof. induction 1 as [|d l Hd Hl IH]; [done|]. rewrite filter_cons. rewrite decide_False; [done|]. unfold is_dig in Hd. unfold is_space. lia. Qed.
Lemma all_ws l : Forall (λ c, json_ws c = true) l → filter (λ b, is_space b = true) l = l.
Proof. induction 1 as [|d l Hd Hl IH]; [done|]. rewrite filter_cons. rewrite decide_True; [by rewrite IH|]. by rewrite space_ws. Qed.
Lemma joined fuel n m sep : (32 <= fuel)%nat → 0 < n → sep ≠ [] → Forall (λ c, json_ws c = true) sep → (length (show_N n) + length (show_N m) <= 18)%nat → (length (show_N n ++ sep ++ show_N m) < 32)%nat →
  of_bytes (show_N n ++ sep ++ show_N m) = None ∧
  parse_json_fast true fuel (show_N n ++ sep ++ show_N m) = Some (Some (JInt (Z.of_N (n * 10 ^ N.of_nat (length (show_N m)) + m)))).
Proof.
  intros Hf Hn Hne Hs Hl Hlen. set (t := show_N n ++ sep ++ show_N m).
  assert (Hp : plain t).
  { unfold t, plain. rewrite !Forall_app. split; [apply digits_plain, show_N_digits|]. split; [|apply digits_plain, show_N_digits]. eapply Forall_impl; [exact Hs|]. cbn. unfold json_ws. lia. }
  assert (Hu : utf8 t = t) by (by apply utf8_ascii). assert (Hsc : Forall scalar t) by by apply plain_scalar.
  destruct (show_N_head n Hn) as (d & r & Hd & Hd9). destruct (show_N_nonempty m) as (d' & r' & Hd' & Hdig).
  assert (Hsz : squeeze Outside t = show_N n ++ show_N m).
  { unfold t. rewrite squeeze_token by (apply digs_token, show_N_digits). rewrite squeeze_ws by done. f_equal. rewrite <- (app_nil_r (show_N m)) at 1. rewrite squeeze_token by (apply digs_token, show_N_digits). by rewrite app_nil_r. }
  split.
  - rewrite <- Hu, of_utf8 by done. unfold parse_value, parse. assert (pv (S (length t)) 128 t = Some (JInt (Z.of_N n), sep ++ show_N m)) as ->.
    { unfold t. rewrite Hd at 1 2. cbn [app]. rewrite num_first_pv by (unfold num_first; lia). change (d :: r ++ sep ++ show_N m) with ((d :: r) ++ sep ++ show_N m). rewrite <- Hd.
      pose proof (parse_num_show (Z.of_N n) (sep ++ show_N m)) as Hps. assert (show_Z (Z.of_N n) = show_N n) as Hz by (by destruct n). rewrite Hz in Hps. apply Hps; [|by apply ws_stop].
      split; [unfold i64_min_abs; lia|]. pose proof (digits_bound _ (show_N_digits n)) as Hb. rewrite digits_val_show in Hb. assert (10 ^ N.of_nat (length (show_N n)) <= 10 ^ 18) as Hb2 by (apply N.pow_le_mono_r; lia). unfold u64_max. assert (10 ^ 18 <= 18446744073709551615) by (by vm_compute). lia. }
    rewrite skip_sep by done. rewrite Hd'. unfold is_dig in Hdig. rewrite skip_ws_id by (unfold json_ws; lia). done.
  - unfold parse_json_fast. rewrite <- Hu at 1. rewrite utf8_boundaries by (try done; apply short_aligned; by rewrite Hu). rewrite find_spaces by (try done; by apply short_blocks).
    do 2 f_equal. rewrite strip_is_squeeze, Hsz. unfold positions. rewrite positions_length.
    assert (length (filter (λ b, is_space b = true) t) = length sep) as ->.
    { unfold t. rewrite !filter_app. rewrite (digits_no_ws (show_N n)), (digits_no_ws (show_N m)), (all_ws sep) by (done || apply show_N_digits). cbn [app]. by rewrite app_nil_r. }
    assert ((length sep <? length t / 10)%nat = false) as ->.
    { apply Nat.ltb_ge. destruct sep as [|x sep]; [done|]. unfold t in *. rewrite !app_length in *. cbn [length] in *. enough (length (show_N n) + (S (length sep) + length (show_N m)) < 10 * (S (S (length sep))))%nat by (apply Nat.lt_succ_r, Nat.div_lt_upper_bound; lia). lia. }
    rewrite <- (utf8_ascii (show_N n ++ show_N m)) by (apply Forall_app; split; apply digits_plain, show_N_digits).
    rewrite of_utf8 by (apply plain_scalar, Forall_app; split; apply digits_plain, show_N_digits). unfold parse_value. rewrite parse_digits.
    + rewrite digits_app, !digits_val_show. done.
    + apply Forall_app. split; apply show_N_digits.
    + rewrite Hd. cbn [app]. lia.
    + rewrite app_length. lia.
Qed.

(** *** Printing: the loop without the positions *)
Fixpoint pp (n : nat) (p : place) (l : list N) : list N :=
  match l with
  | [] => []
  | c :: r =>
    match p with
    | Escaped => c :: pp n Inside r
    | Inside => c :: pp n (if c =? 34 then Outside else if c =? 92 then Escaped else Inside) r
    | Outside =>
      if c =? 34 then c :: pp n Inside r
      else if (c =? 123) || (c =? 91) then c :: new_line (n + 2) ++ pp (n + 2) Outside r
      else if (c =? 125) || (c =? 93) then new_line (n - 2) ++ c :: pp (n - 2) Outside r
      else if c =? 44 then 44 :: new_line n ++ pp n Outside r
      else if c =? 58 then 58 :: 32 :: pp n Outside r
      else if json_ws c then pp n Outside r
      else c :: pp n Outside r
    end
  end.
Lemma pretty_pp es l : ∀ i n, (∀ j, found es (i + j) = at_pos is_escape l j) →
  pretty_loop es i n false false l = pp n Outside l ∧ pretty_loop es i n true false l = pp n Inside l ∧ pretty_loop es i n true true l = pp n Escaped l.
Proof.
  induction l as [|b l IH]; intros i n H; [done|]. assert (∀ n, pretty_loop es (S i) n false false l = pp n Outside l ∧ pretty_loop es (S i) n true false l = pp n Inside l ∧ pretty_loop es (S i) n true true l = pp n Escaped l) as I.
  { intros m. apply IH. intros j. specialize (H (S j)). replace (S i + j)%nat with (i + S j)%nat by lia. exact H. }
  assert (∀ n, pretty_loop es (S i) n false false l = pp n Outside l) as I1 by apply I. assert (∀ n, pretty_loop es (S i) n true false l = pp n Inside l) as I2 by apply I. assert (∀ n, pretty_loop es (S i) n true true l = pp n Escaped l) as I3 by apply I. clear I IH.
  specialize (H 0%nat). rewrite Nat.add_0_r in H. unfold at_pos in H. cbn [lookup list_lookup] in H. assert (H34 : found es i && (b =? 34) = (b =? 34)) by (rewrite H; unfold is_escape; lia). assert (H92 : found es i && (b =? 92) = (b =? 92)) by (rewrite H; unfold is_escape; lia).
  cbn [pretty_loop pp]. rewrite H34, H92, !andb_false_r, !andb_true_r. change line with new_line. split; [|split].
  - cbn [negb]. destruct (b =? 34) eqn:E34; [by rewrite I2|]. rewrite !I1, space_ws. done.
  - cbn [negb]. destruct (b =? 34) eqn:E34.
    + assert ((b =? 123) || (b =? 91) = false) as -> by lia. assert ((b =? 125) || (b =? 93) = false) as -> by lia. assert ((b =? 44) = false) as -> by lia. assert ((b =? 58) = false) as -> by lia. assert ((b =? 92) = false) as -> by lia.
      assert (is_space b = false) as -> by (unfold is_space; lia). by rewrite I1.
    + destruct (b =? 92); by rewrite ?I2, ?I3.
  - by rewrite I2.
Qed.

Lemma pp_esc_char n c r : pp n Inside (esc_char c ++ r) = esc_char c ++ pp n Inside r.
Proof.
  unfold esc_char. destruct (c =? 34) eqn:E1; [done|]. destruct (c =? 92) eqn:E2; [done|]. destruct (c =? 8); [done|]. destruct (c =? 9); [done|]. destruct (c =? 10); [done|]. destruct (c =? 12); [done|]. destruct (c =? 13); [done|].
  destruct (c <? 32) eqn:E; [|cbn [app pp]; by rewrite E1, E2]. cbn [app pp].
  assert (∀ h, h < 16 → (hex_lower h =? 34) = false ∧ (hex_lower h =? 92) = false) as Hh by (intros h Hh; unfold hex_lower; destruct (h <? 10) eqn:?; lia).
  assert (c / 16 < 16) by (apply N.div_lt_upper_bound; lia). assert (c mod 16 < 16) by (apply N.mod_lt; lia).
  destruct (Hh (c / 16)) as [-> ->]; [done|]. destruct (Hh (c mod 16)) as [-> ->]; done.
Qed.
Lemma pp_str n s r : pp n Outside (show_str s ++ r) = show_str s ++ pp n Outside r.
Proof.
  unfold show_str. cbn [app pp]. change (34 =? 34) with true. cbn iota. f_equal. rewrite <- !app_assoc. induction s as [|c s IH]; [done|]. rewrite fmap_cons. cbn [concat]. rewrite <- !app_assoc, pp_esc_char. f_equal. exact IH.
Qed.
Lemma pp_token n p r : Forall token p → pp n Outside (p ++ r) = p ++ pp n Outside r.
Proof.
  induction 1 as [|c p (H1 & H2 & H3 & _) Hp IH]; [done|]. cbn [app pp]. rewrite H2. unfold punct in H3. assert ((c =? 123) || (c =? 91) = false) as -> by lia. assert ((c =? 125) || (c =? 93) = false) as -> by lia. assert ((c =? 44) = false) as -> by lia. assert ((c =? 58) = false) as -> by lia. by rewrite H1, IH.
Qed.
Lemma show_Z_token z : Forall token (show_Z z).
Proof. destruct z; cbn [show_Z]; [apply digs_token, show_N_digits..|]. constructor; [repeat split; done|apply digs_token, show_N_digits]. Qed.
Lemma float_token t : float_text t → Forall token t.
Proof. intros H. apply parse_num_prefix in H as (p & -> & Hp & _). by rewrite app_nil_r. Qed.
Lemma pp_show w : wf w → ∀ n r, pp n Outside (show w ++ r) = indented n w ++ pp n Outside r.
Proof.
  induction w as [|b|z|t|s|l IH|l IH] using json_ind'; intros Hw n r.
  - apply pp_token. repeat constructor.
  - apply pp_token. destruct b; repeat constructor.
  - apply pp_token, show_Z_token.
  - apply pp_token. by apply float_token.
  - apply pp_str.
  - rewrite wf_arr in Hw. cbn [show indented]. cbn [app pp]. change (91 =? 34) with false. change ((91 =? 123) || (91 =? 91)) with true. cbn iota. f_equal. rewrite <- !app_assoc. f_equal. cbn [app].
    assert (∀ r', pp (n + 2) Outside (join_with [44] (show <$> l) ++ r') = join_with (44 :: new_line (n + 2)) (indented (n + 2) <$> l) ++ pp (n + 2) Outside r') as Hj.
    { intros r'. induction l as [|x l IHl]; [done|]. inversion IH as [|? ? Hx Hl]; subst. inversion Hw as [|? ? Hwx Hwl]; subst. destruct l as [|y l]; [cbn [fmap list_fmap join_with]; by apply Hx|].
      change (join_with [44] (show <$> x :: y :: l)) with (show x ++ [44] ++ join_with [44] (show <$> y :: l)).
      change (join_with (44 :: new_line (n + 2)) (indented (n + 2) <$> x :: y :: l)) with (indented (n + 2) x ++ (44 :: new_line (n + 2)) ++ join_with (44 :: new_line (n + 2)) (indented (n + 2) <$> y :: l)).
      rewrite <- !app_assoc. rewrite Hx by done. f_equal. cbn [app]. cbn [pp]. change (44 =? 34) with false. change ((44 =? 123) || (44 =? 91)) with false. change ((44 =? 125) || (44 =? 93)) with false. change (44 =? 44) with true. cbn iota. f_equal. f_equal. apply (IHl Hl Hwl). }
    rewrite Hj. f_equal. cbn [pp]. change (93 =? 34) with false. change ((93 =? 123) || (93 =? 91)) with false. change ((93 =? 125) || (93 =? 93)) with true. cbn iota. by rewrite Nat.add_sub.
  - rewrite wf_obj in Hw. cbn [show indented]. cbn [app pp]. change (123 =? 34) with false. change ((123 =? 123) || (123 =? 91)) with true. cbn iota. f_equal. rewrite <- !app_assoc. f_equal. cbn [app].
    assert (∀ r', pp (n + 2) Outside (join_with [44] ((λ kv, show_str kv.1 ++ 58 :: show kv.2) <$> l) ++ r') = join_with (44 :: new_line (n + 2)) ((λ kv, show_str kv.1 ++ 58 :: 32 :: indented (n + 2) kv.2) <$> l) ++ pp (n + 2) Outside r') as Hj.
    { intros r'. induction l as [|[k x] l IHl]; [done|]. inversion IH as [|? ? Hx Hl]; subst. inversion Hw as [|? ? Hwx Hwl]; subst. cbn [snd] in Hx, Hwx.
      assert (∀ r0, pp (n + 2) Outside (show_str k ++ 58 :: show x ++ r0) = show_str k ++ 58 :: 32 :: indented (n + 2) x ++ pp (n + 2) Outside r0) as Hkv.
      { intros r0. rewrite pp_str. f_equal. cbn [pp]. change (58 =? 34) with false. change ((58 =? 123) || (58 =? 91)) with false. change ((58 =? 125) || (58 =? 93)) with false. change (58 =? 44) with false. change (58 =? 58) with true. cbn iota. do 2 f_equal. by apply Hx. }
      destruct l as [|y l].
      - rewrite !fmap_cons, !fmap_nil. cbn [join_with fst snd]. rewrite <- !app_assoc. cbn [app]. apply Hkv.
      - change (join_with [44] ((λ kv, show_str kv.1 ++ 58 :: show kv.2) <$> (k, x) :: y :: l)) with ((show_str k ++ 58 :: show x) ++ [44] ++ join_with [44] ((λ kv, show_str kv.1 ++ 58 :: show kv.2) <$> y :: l)).
        change (join_with (44 :: new_line (n + 2)) ((λ kv, show_str kv.1 ++ 58 :: 32 :: indented (n + 2) kv.2) <$> (k, x) :: y :: l)) with ((show_str k ++ 58 :: 32 :: indented (n + 2) x) ++ (44 :: new_line (n + 2)) ++ join_with (44 :: new_line (n + 2)) ((λ kv, show_str kv.1 ++ 58 :: 32 :: indented (n + 2) kv.2) <$> y :: l)).
        rewrite <- !app_assoc. cbn [app]. rewrite Hkv. do 4 f_equal. cbn [pp]. change (44 =? 34) with false. change ((44 =? 123) || (44 =? 91)) with false. change ((44 =? 125) || (44 =? 93)) with false. change (44 =? 44) with true. cbn iota. f_equal. f_equal. apply (IHl Hl Hwl). }
    rewrite Hj. f_equal. cbn [pp]. change (125 =? 34) with false. change ((125 =? 123) || (125 =? 91)) with false. change ((125 =? 125) || (125 =? 93)) with true. cbn iota. by rewrite Nat.add_sub.
Qed.
