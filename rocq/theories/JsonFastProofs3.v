From stdpp Require Import list list_numbers strings.
From Coq Require Import ZifyBool.
From Verif Require Import ListLib TextLib Utf8Lib JsonLib SimdModel SimdSpec SimdProofs JsonFastModel JsonFastSpec JsonFastProofs JsonFastProofs2.
Local Open Scope N_scope.

(** *** The whitespace of a document over several lines *)
Lemma line_ws n : Forall (λ c, json_ws c = true) (new_line n).
Proof. constructor; [done|]. by apply Forall_replicate. Qed.
Lemma squeeze_line n r : squeeze Outside (new_line n ++ r) = squeeze Outside r.
Proof. apply squeeze_ws, line_ws. Qed.
Lemma squeeze_esc_char c r : squeeze Inside (esc_char c ++ r) = esc_char c ++ squeeze Inside r.
Proof.
  unfold esc_char. destruct (c =? 34) eqn:E1; [done|]. destruct (c =? 92) eqn:E2; [done|]. destruct (c =? 8); [done|]. destruct (c =? 9); [done|]. destruct (c =? 10); [done|]. destruct (c =? 12); [done|]. destruct (c =? 13); [done|].
  destruct (c <? 32) eqn:E; [|cbn [app squeeze]; by rewrite E1, E2]. cbn [app squeeze].
  assert (∀ h, h < 16 → (hex_lower h =? 34) = false ∧ (hex_lower h =? 92) = false) as Hh by (intros h Hh; unfold hex_lower; destruct (h <? 10) eqn:?; lia).
  assert (c / 16 < 16) by (apply N.div_lt_upper_bound; lia). assert (c mod 16 < 16) by (apply N.mod_lt; lia).
  destruct (Hh (c / 16)) as [-> ->]; [done|]. destruct (Hh (c mod 16)) as [-> ->]; done.
Qed.
Lemma squeeze_str s r : squeeze Outside (show_str s ++ r) = show_str s ++ squeeze Outside r.
Proof.
  unfold show_str. cbn [app squeeze]. change (json_ws 34) with false. change (34 =? 34) with true. cbn iota. f_equal. rewrite <- !app_assoc. induction s as [|c s IH]; [done|]. rewrite fmap_cons. cbn [concat]. rewrite <- !app_assoc, squeeze_esc_char. f_equal. exact IH.
Qed.
Lemma squeeze_punct c r : json_ws c = false → (c =? 34) = false → squeeze Outside (c :: r) = c :: squeeze Outside r.
Proof. intros H1 H2. cbn [squeeze]. by rewrite H1, H2. Qed.
Lemma squeeze_indented w : wf w → ∀ n r, squeeze Outside (indented n w ++ r) = show w ++ squeeze Outside r.
Proof.
  induction w as [|b|z|t|s|l IH|l IH] using json_ind'; intros Hw n r.
  - apply squeeze_token. repeat constructor.
  - apply squeeze_token. destruct b; repeat constructor.
  - apply squeeze_token, show_Z_token.
  - apply squeeze_token. by apply float_token.
  - apply squeeze_str.
  - rewrite wf_arr in Hw. cbn [show indented]. cbn [app]. rewrite squeeze_punct by done. f_equal. rewrite <- !app_assoc, squeeze_line. cbn [app].
    assert (∀ r', squeeze Outside (join_with (44 :: new_line (n + 2)) (indented (n + 2) <$> l) ++ r') = join_with [44] (show <$> l) ++ squeeze Outside r') as Hj.
    { intros r'. induction l as [|x l IHl]; [done|]. inversion IH as [|? ? Hx Hl]; subst. inversion Hw as [|? ? Hwx Hwl]; subst. destruct l as [|y l]; [cbn [fmap list_fmap join_with]; by apply Hx|].
      change (join_with [44] (show <$> x :: y :: l)) with (show x ++ [44] ++ join_with [44] (show <$> y :: l)).
      change (join_with (44 :: new_line (n + 2)) (indented (n + 2) <$> x :: y :: l)) with (indented (n + 2) x ++ (44 :: new_line (n + 2)) ++ join_with (44 :: new_line (n + 2)) (indented (n + 2) <$> y :: l)).
      rewrite <- !app_assoc. rewrite Hx by done. f_equal. change ((44 :: new_line (n + 2)) ++ ?X) with (44 :: new_line (n + 2) ++ X). rewrite squeeze_punct by done. cbn [app]. f_equal. rewrite squeeze_line. apply (IHl Hl Hwl). }
    rewrite Hj. f_equal. rewrite squeeze_line. by apply squeeze_punct.
  - rewrite wf_obj in Hw. cbn [show indented]. cbn [app]. rewrite squeeze_punct by done. f_equal. rewrite <- !app_assoc, squeeze_line. cbn [app].
    assert (∀ r', squeeze Outside (join_with (44 :: new_line (n + 2)) ((λ kv, show_str kv.1 ++ 58 :: 32 :: indented (n + 2) kv.2) <$> l) ++ r') = join_with [44] ((λ kv, show_str kv.1 ++ 58 :: show kv.2) <$> l) ++ squeeze Outside r') as Hj.
    { intros r'. induction l as [|[k x] l IHl]; [done|]. inversion IH as [|? ? Hx Hl]; subst. inversion Hw as [|? ? Hwx Hwl]; subst. cbn [snd] in Hx, Hwx.
      assert (∀ r0, squeeze Outside (show_str k ++ 58 :: 32 :: indented (n + 2) x ++ r0) = show_str k ++ 58 :: show x ++ squeeze Outside r0) as Hkv.
      { intros r0. rewrite squeeze_str. f_equal. rewrite squeeze_punct by done. f_equal. change (squeeze Outside (32 :: ?X)) with (squeeze Outside X). by apply Hx. }
      destruct l as [|y l].
      - rewrite !fmap_cons, !fmap_nil. cbn [join_with fst snd]. rewrite <- !app_assoc. cbn [app]. apply Hkv.
      - change (join_with [44] ((λ kv, show_str kv.1 ++ 58 :: show kv.2) <$> (k, x) :: y :: l)) with ((show_str k ++ 58 :: show x) ++ [44] ++ join_with [44] ((λ kv, show_str kv.1 ++ 58 :: show kv.2) <$> y :: l)).
        change (join_with (44 :: new_line (n + 2)) ((λ kv, show_str kv.1 ++ 58 :: 32 :: indented (n + 2) kv.2) <$> (k, x) :: y :: l)) with ((show_str k ++ 58 :: 32 :: indented (n + 2) x) ++ (44 :: new_line (n + 2)) ++ join_with (44 :: new_line (n + 2)) ((λ kv, show_str kv.1 ++ 58 :: 32 :: indented (n + 2) kv.2) <$> y :: l)).
        rewrite <- !app_assoc. cbn [app]. rewrite Hkv. do 3 f_equal. rewrite squeeze_punct by done. f_equal. rewrite (squeeze_line (n + 2) _). apply (IHl Hl Hwl). }
    rewrite Hj. f_equal. rewrite squeeze_line. by apply squeeze_punct.
Qed.

(** *** Reading it *)
Lemma skip_line n r : skip_ws (new_line n ++ r) = skip_ws r.
Proof. apply skip_sep, line_ws. Qed.
Lemma pv_line f d n r : pv f d (new_line n ++ r) = pv f d r.
Proof. destruct f as [|f]; [done|]. cbn [pv]. by rewrite skip_line. Qed.
Lemma pitems_line f d n r : pitems f d (new_line n ++ r) = pitems f d r.
Proof. destruct f as [|f]; [done|]. cbn [pitems]. by rewrite pv_line. Qed.
Lemma pfields_line f d n r : pfields f d (new_line n ++ r) = pfields f d r.
Proof. destruct f as [|f]; [done|]. cbn [pfields]. by rewrite skip_line. Qed.
Lemma stop_line n r : stop (new_line n ++ r).
Proof. by apply stop_cons. Qed.
Lemma pv_space f d r : pv f d (32 :: r) = pv f d r.
Proof. by destruct f. Qed.
Definition reads_at (n : nat) (v : json) : Prop := ∀ f d rest, (nodes v <= f)%nat → (depth v < d)%nat → stop rest → pv f d (indented n v ++ rest) = Some (v, rest).
Lemma pitems_indented n k l : Forall (reads_at n) l → l ≠ [] → ∀ f d rest,
  (foldr (λ x m, S (nodes x) + m)%nat 0%nat l <= f)%nat → (foldr (λ x m, Nat.max (depth x) m) 0%nat l < d)%nat →
  pitems f d (join_with (44 :: new_line n) (indented n <$> l) ++ new_line k ++ 93 :: rest) = Some (l, rest).
Proof.
  induction 1 as [|x l Hx Hr IH]; intros Hne f d rest Hf Hd; [done|]. cbn [foldr] in Hf, Hd. destruct f as [|f]; [lia|]. cbn [pitems]. destruct l as [|y l].
  - cbn [join_with fmap list_fmap]. rewrite Hx; [|cbn [foldr] in Hf; lia|lia|apply stop_line]. rewrite skip_line, skip_ws_id by done. done.
  - change (join_with (44 :: new_line n) (indented n <$> x :: y :: l)) with (indented n x ++ (44 :: new_line n) ++ join_with (44 :: new_line n) (indented n <$> y :: l)).
    rewrite <- !app_assoc. change ((44 :: new_line n) ++ ?X) with (44 :: new_line n ++ X). rewrite Hx; [|lia|lia|by apply stop_cons].
    rewrite skip_ws_id by done. change (44 =? 44) with true. cbn iota. rewrite pitems_line. rewrite IH; [done|done|lia|lia].
Qed.
Lemma pfields_indented n k l : Forall (λ kv, reads_at n kv.2) l → l ≠ [] → ∀ f d rest,
  (foldr (λ x m, S (nodes x.2) + m)%nat 0%nat l <= f)%nat → (foldr (λ x m, Nat.max (depth x.2) m) 0%nat l < d)%nat →
  pfields f d (join_with (44 :: new_line n) ((λ kv, show_str kv.1 ++ 58 :: 32 :: indented n kv.2) <$> l) ++ new_line k ++ 125 :: rest) = Some (l, rest).
Proof.
  induction 1 as [|[key x] l Hx Hr IH]; intros Hne f d rest Hf Hd; [done|]. cbn [foldr snd] in Hf, Hd, Hx. destruct f as [|f]; [lia|]. cbn [pfields].
  assert (Hstep : ∀ t, skip_ws ((show_str key ++ 58 :: 32 :: indented n x) ++ t) = 34 :: concat (esc_char <$> key) ++ 34 :: 58 :: 32 :: indented n x ++ t).
  { intros t. unfold show_str. cbn [app]. rewrite skip_ws_id by done. f_equal. rewrite <- !app_assoc. done. }
  destruct l as [|y l].
  - rewrite fmap_cons, fmap_nil. cbn [join_with fst snd]. rewrite Hstep. change (34 =? 34) with true. cbn iota. rewrite parse_str_esc. rewrite skip_ws_id by done. change (58 =? 58) with true. cbn iota. rewrite pv_space.
    rewrite Hx; [|cbn [foldr] in Hf; lia|lia|apply stop_line]. rewrite skip_line, skip_ws_id by done. done.
  - change (join_with (44 :: new_line n) ((λ kv, show_str kv.1 ++ 58 :: 32 :: indented n kv.2) <$> (key, x) :: y :: l))
      with ((show_str key ++ 58 :: 32 :: indented n x) ++ (44 :: new_line n) ++ join_with (44 :: new_line n) ((λ kv, show_str kv.1 ++ 58 :: 32 :: indented n kv.2) <$> y :: l)).
    rewrite <- !(app_assoc (show_str key ++ 58 :: 32 :: indented n x)). rewrite Hstep. change (34 =? 34) with true. cbn iota.
    rewrite parse_str_esc. rewrite skip_ws_id by done. change (58 =? 58) with true. cbn iota. rewrite pv_space.
    rewrite <- !app_assoc. change ((44 :: new_line n) ++ ?X) with (44 :: new_line n ++ X). rewrite Hx; [|lia|lia|by apply stop_cons].
    rewrite skip_ws_id by done. change (44 =? 44) with true. cbn iota. rewrite pfields_line. rewrite IH; [done|done|lia|lia].
Qed.
Lemma indented_head n v : wf v → ∃ c t, indented n v = c :: t ∧ first_ok c.
Proof.
  intros Hw. destruct (show_head v Hw) as (c & t & E & Hc). destruct v; try (by exists c, t).
  - eexists _, _. split; [reflexivity|]. by cbn in E; simplify_eq.
  - eexists _, _. split; [reflexivity|]. by cbn in E; simplify_eq.
Qed.
Lemma pv_indented v : wf v → ∀ n, reads_at n v.
Proof.
  induction v as [|b|z|t|s|l IH|l IH] using json_ind'; intros Hw n f d rest Hf Hd Hs; try (by apply pv_show).
  - rewrite wf_arr in Hw. cbn [nodes depth] in Hf, Hd. destruct f as [|f]; [lia|]. destruct d as [|[|d]]; [lia|lia|].
    cbn [indented pv app]. rewrite skip_ws_id by done.
    change (91 =? 110) with false. change (91 =? 116) with false. change (91 =? 102) with false. change (91 =? 34) with false. change (91 =? 91) with true. cbn iota. rewrite <- !app_assoc. cbn [app]. rewrite skip_line.
    assert (Hr : Forall (reads_at (n + 2)) l) by (apply Forall_forall; intros x Hx; rewrite Forall_forall in IH, Hw; by apply IH, Hw).
    destruct l as [|x l]; [cbn [fmap list_fmap join_with app]; by rewrite skip_line|].
    inversion Hw as [|? ? Hwx Hwl]; subst. destruct (indented_head (n + 2) x Hwx) as (c & t & E & Hc1 & Hc2 & _).
    assert (Hh : ∃ t', join_with (44 :: new_line (n + 2)) (indented (n + 2) <$> x :: l) ++ new_line n ++ 93 :: rest = c :: t').
    { rewrite fmap_cons. destruct (indented (n + 2) <$> l) as [|y m]; cbn [join_with]; rewrite E; cbn [app]; eauto. }
    destruct Hh as [t' Hh]. pose proof (pitems_indented (n + 2) n (x :: l) Hr ltac:(done) f (S d) rest ltac:(lia) ltac:(lia)) as Hp. rewrite pitems_line. rewrite Hh in Hp |- *.
    rewrite skip_ws_id by done. rewrite Hc2. by rewrite Hp.
  - rewrite wf_obj in Hw. cbn [nodes depth] in Hf, Hd. destruct f as [|f]; [lia|]. destruct d as [|[|d]]; [lia|lia|].
    cbn [indented pv app]. rewrite skip_ws_id by done.
    change (123 =? 110) with false. change (123 =? 116) with false. change (123 =? 102) with false. change (123 =? 34) with false. change (123 =? 91) with false. change (123 =? 123) with true. cbn iota. rewrite <- !app_assoc. cbn [app]. rewrite skip_line.
    assert (Hr : Forall (λ kv, reads_at (n + 2) kv.2) l) by (apply Forall_forall; intros x Hx; rewrite Forall_forall in IH, Hw; by apply IH, Hw).
    destruct l as [|x l]; [cbn [fmap list_fmap join_with app]; by rewrite skip_line|].
    assert (Hh : ∃ t', join_with (44 :: new_line (n + 2)) ((λ kv, show_str kv.1 ++ 58 :: 32 :: indented (n + 2) kv.2) <$> x :: l) ++ new_line n ++ 125 :: rest = 34 :: t').
    { rewrite fmap_cons. destruct (_ <$> l) as [|y m]; cbn [join_with]; unfold show_str; cbn [app]; eauto. }
    destruct Hh as [t' Hh]. pose proof (pfields_indented (n + 2) n (x :: l) Hr ltac:(done) f (S d) rest ltac:(lia) ltac:(lia)) as Hp. rewrite pfields_line. rewrite Hh in Hp |- *.
    rewrite skip_ws_id by done. change (34 =? 125) with false. cbn iota. by rewrite Hp.
Qed.
Lemma squeeze_length p t : (length (squeeze p t) <= length t)%nat.
Proof. revert p. induction t as [|c t IH]; intros p; [done|]. cbn [squeeze]. destruct p; [destruct (json_ws c); [etransitivity; [apply IH|cbn; lia]|]|..]; cbn [length]; apply le_n_S, IH. Qed.
Lemma parse_indented v : wf v → (depth v < 128)%nat → parse (indented 0 v) = Some v.
Proof.
  intros Hw Hd. unfold parse. pose proof (pv_indented v Hw 0 (S (length (indented 0 v))) 128%nat []) as H. rewrite app_nil_r in H. pose proof (nodes_length v Hw).
  pose proof (squeeze_length Outside (indented 0 v)) as Hl. pose proof (squeeze_indented v Hw 0 []) as Hq. rewrite !app_nil_r in Hq. rewrite Hq in Hl. rewrite H; [done|lia|lia|done].
Qed.

(** *** Strings of bytes *)
Lemma bs_depth v : depth (byte_strings v) = depth v.
Proof.
  induction v as [|b|z|t|s|l IH|l IH] using json_ind'; try done; cbn [byte_strings depth]; f_equal.
  - induction IH as [|x l Hx Hl IHl]; [done|]. cbn [fmap list_fmap foldr]. by rewrite Hx, IHl.
  - induction IH as [|x l Hx Hl IHl]; [done|]. cbn [fmap list_fmap foldr snd]. by rewrite Hx, IHl.
Qed.
Lemma bs_wf v : wf v → wf (byte_strings v).
Proof.
  induction v as [|b|z|t|s|l IH|l IH] using json_ind'; try done; cbn [byte_strings].
  - rewrite !wf_arr, Forall_fmap. intros Hw. apply Forall_forall. intros x Hx. rewrite Forall_forall in IH, Hw. by apply IH, Hw.
  - rewrite !wf_obj, Forall_fmap. intros Hw. apply Forall_forall. intros x Hx. rewrite Forall_forall in IH, Hw. by apply IH, Hw.
Qed.
Lemma bs_keys v : scalars v → keys_ok v → keys_ok (byte_strings v).
Proof.
  induction v as [|b|z|t|s|l IH|l IH] using json_ind'; try done; cbn [byte_strings].
  - rewrite scalars_arr, !keys_ok_arr, Forall_fmap. intros Hs Hw. apply Forall_forall. intros x Hx. rewrite Forall_forall in IH, Hw, Hs. cbn. apply IH; auto.
  - rewrite scalars_obj, !keys_ok_obj, Forall_fmap. intros Hs [Hn Hw]. split.
    + rewrite <- list_fmap_compose. clear IH Hw. induction l as [|[k x] l IHl]; [constructor|]. inversion Hs as [|? ? [Hk _] Hl]; subst. rewrite fmap_cons in Hn |- *. apply NoDup_cons in Hn as [Hn1 Hn2]. apply NoDup_cons. split; [|by apply IHl]. cbn in Hn1 |- *.
      intros ((k' & x') & E & Hin)%elem_of_list_fmap. cbn in E. apply Hn1. rewrite Forall_forall in Hl. destruct (Hl _ Hin) as [Hk' _]. apply utf8_inj in E; [|done|done]. subst. apply elem_of_list_fmap. by exists (k', x').
    + apply Forall_forall. intros x Hx. rewrite Forall_forall in IH, Hw, Hs. cbn. apply IH; auto. by apply Hs.
Qed.
Lemma esc_high b : 32 <= b → (b =? 34) = false → (b =? 92) = false → esc_char b = [b].
Proof. intros H1 H2 H3. unfold esc_char. rewrite H2, H3. assert ((b =? 8) = false) as -> by lia. assert ((b =? 9) = false) as -> by lia. assert ((b =? 10) = false) as -> by lia. assert ((b =? 12) = false) as -> by lia. assert ((b =? 13) = false) as -> by lia. by assert ((b <? 32) = false) as -> by lia. Qed.
Lemma esc_char_plain c : c < 128 → plain (esc_char c).
Proof.
  intros H. unfold esc_char. repeat (destruct (c =? _); [repeat constructor; lia|]). destruct (c <? 32) eqn:E; [|by repeat constructor].
  assert (∀ h, h < 16 → hex_lower h < 128) as Hh by (intros h Hh; unfold hex_lower; destruct (h <? 10); lia). assert (c / 16 < 16) by (apply N.div_lt_upper_bound; lia). assert (c mod 16 < 16) by (apply N.mod_lt; lia).
  repeat constructor; try lia; by apply Hh.
Qed.
Lemma str_utf8 s : Forall scalar s → show_str (utf8 s) = utf8 (show_str s).
Proof.
  intros Hs. unfold show_str. rewrite utf8_cons, utf8_char_ascii by lia. cbn [app]. f_equal. rewrite utf8_app. change (utf8 [34]) with [34]. f_equal.
  induction Hs as [|c s Hc Hs IH]; [done|]. rewrite fmap_cons. cbn [concat]. rewrite utf8_cons, utf8_app, fmap_app, concat_app, IH. f_equal.
  destruct (decide (c < 128)) as [H|H].
  - rewrite utf8_char_ascii by done. rewrite fmap_cons, fmap_nil. cbn [concat]. rewrite app_nil_r. symmetry. by apply utf8_ascii, esc_char_plain.
  - assert (Forall (λ b, 128 <= b) (utf8_char c)) as Hh by (apply Forall_forall; intros b Hb; apply utf8_char_bytes in Hb as [_ Hb]; [apply Hb; lia|unfold scalar in Hc; lia]).
    rewrite esc_high by lia. rewrite utf8_cons. change (utf8 []) with (@nil N). rewrite app_nil_r. clear -Hh. induction Hh as [|b bs Hb Hbs IH]; [done|]. rewrite fmap_cons. cbn [concat]. rewrite esc_high by lia. cbn [app]. by rewrite IH.
Qed.
Lemma token_plain p : Forall token p → plain p.
Proof. intros H. eapply Forall_impl; [exact H|]. by intros c (_ & _ & _ & ?). Qed.
Lemma bs_show v : wf v → scalars v → show (byte_strings v) = utf8 (show v).
Proof.
  induction v as [|b|z|t|s|l IH|l IH] using json_ind'; intros Hw Hs; cbn [byte_strings show].
  - done.
  - by destruct b.
  - symmetry. apply utf8_ascii, token_plain, show_Z_token.
  - symmetry. by apply utf8_ascii, token_plain, float_token.
  - by apply str_utf8.
  - rewrite wf_arr in Hw. rewrite scalars_arr in Hs. rewrite utf8_cons, utf8_app. change (utf8_char 91) with [91]. change (utf8 [93]) with [93]. cbn [app]. do 2 f_equal.
    induction l as [|x l IHl]; [done|]. inversion IH as [|? ? Hx Hl]; subst. inversion Hw as [|? ? Hwx Hwl]; subst. inversion Hs as [|? ? Hsx Hsl]; subst. destruct l as [|y l]; [cbn [fmap list_fmap join_with]; by apply Hx|].
    change (join_with [44] (show <$> x :: y :: l)) with (show x ++ [44] ++ join_with [44] (show <$> y :: l)). change (join_with [44] (show <$> (byte_strings <$> x :: y :: l))) with (show (byte_strings x) ++ [44] ++ join_with [44] (show <$> (byte_strings <$> y :: l))).
    rewrite !utf8_app. rewrite (Hx Hwx Hsx), (IHl Hl Hwl Hsl). done.
  - rewrite wf_obj in Hw. rewrite scalars_obj in Hs. rewrite utf8_cons, utf8_app. change (utf8_char 123) with [123]. change (utf8 [125]) with [125]. cbn [app]. do 2 f_equal. rewrite <- list_fmap_compose.
    set (g := (λ kv : list N * json, show_str kv.1 ++ 58 :: show kv.2)). set (g' := g ∘ (λ kv : list N * json, (utf8 kv.1, byte_strings kv.2))).
    induction l as [|[k x] l IHl]; [done|]. inversion IH as [|? ? Hx Hl]; subst. inversion Hw as [|? ? Hwx Hwl]; subst. inversion Hs as [|? ? [Hsk Hsx] Hsl]; subst. cbn [fst snd] in *.
    assert (g' (k, x) = utf8 (g (k, x))) as Hg by (unfold g', g; cbn [compose fst snd]; rewrite utf8_app, str_utf8 by done; f_equal; rewrite utf8_cons, utf8_char_ascii by lia; cbn [app]; f_equal; by apply Hx).
    destruct l as [|y l]; [exact Hg|].
    change (join_with [44] (g <$> (k, x) :: y :: l)) with (g (k, x) ++ [44] ++ join_with [44] (g <$> y :: l)). change (join_with [44] (g' <$> (k, x) :: y :: l)) with (g' (k, x) ++ [44] ++ join_with [44] (g' <$> y :: l)).
    rewrite !utf8_app. rewrite Hg, (IHl Hl Hwl Hsl). done.
Qed.
Lemma utf8_id s : Forall scalar s → utf8 s = s ↔ forallb (λ c, c <? 128) s = true.
Proof.
  intros Hs. split.
  - intros H. apply forallb_forall. intros c Hc. apply elem_of_list_In in Hc. destruct (decide (c < 128)) as [Hlt|Hge]; [lia|]. exfalso.
    assert (length (utf8 s) > length s)%nat; [|rewrite H in *; lia]. clear H. induction Hs as [|x s Hx Hs IH]; [by apply elem_of_nil in Hc|]. rewrite utf8_cons, app_length. cbn [length]. pose proof (utf8_length s). pose proof (utf8_char_nonempty x) as Hn. destruct (utf8_char x) as [|b bs] eqn:E; [done|]. cbn [length].
    apply elem_of_cons in Hc as [->|Hc]; [|specialize (IH Hc); lia]. enough (0 < length bs)%nat by lia. unfold utf8_char in E. destruct (x <? 128) eqn:?; [lia|]. destruct (x <? 2048); [simplify_eq; cbn; lia|]. destruct (x <? 65536); simplify_eq; cbn; lia.
  - intros H. apply utf8_ascii. apply Forall_forall. intros c Hc. rewrite forallb_forall in H. specialize (H c). rewrite <- elem_of_list_In in H. specialize (H Hc). lia.
Qed.
Lemma bs_id v : scalars v → byte_strings v = v ↔ ascii_only v = true.
Proof.
  induction v as [|b|z|t|s|l IH|l IH] using json_ind'; intros Hs; try done; cbn [byte_strings ascii_only].
  - rewrite <- utf8_id by done. split; [by intros [= ->]|by intros ->].
  - rewrite scalars_arr in Hs. transitivity (byte_strings <$> l = l); [split; [by intros [= ->]|by intros ->]|]. induction l as [|x l IHl]; [done|]. inversion IH as [|? ? Hx Hl]; subst. inversion Hs as [|? ? Hsx Hsl]; subst. cbn [forallb]. rewrite andb_true_iff, <- (Hx Hsx), <- (IHl Hl Hsl). rewrite fmap_cons. split; [by intros [= -> ->]|by intros [-> ->]].
  - rewrite scalars_obj in Hs. set (g := λ kv : list N * json, (utf8 kv.1, byte_strings kv.2)). transitivity (g <$> l = l); [split; [by intros [= ->]|by intros ->]|]. induction l as [|[k x] l IHl]; [done|]. inversion IH as [|? ? Hx Hl]; subst. inversion Hs as [|? ? [Hk Hsx] Hsl]; subst. cbn [forallb fst snd] in *.
    rewrite !andb_true_iff, <- (Hx Hsx), <- (IHl Hl Hsl), <- utf8_id by done. rewrite fmap_cons. unfold g at 1. cbn [fst snd]. split; [by intros [= -> -> ->]|by intros [[-> ->] ->]].
Qed.

(** *** The printer *)
Lemma pretty_ok fuel v : (32 <= fuel)%nat → storable v → no_block_ends_in quote_or_backslash (to_bytes v) → pretty_print_fast fuel v = Some (indented 0 (byte_strings v)).
Proof.
  intros Hf (Hw & Hk & Hs & Hd) Hb. unfold pretty_print_fast. unfold find_escapes_simd. rewrite find_simd_ok.
  - f_equal. unfold positions. rewrite (proj1 (pretty_pp _ _ 0 0 (λ j, found_positions is_escape 0 (to_bytes v) j))). unfold to_bytes. rewrite <- bs_show by done. pose proof (pp_show _ (bs_wf _ Hw) 0 []) as H. by rewrite !app_nil_r in H.
  - done.
  - intros i Hi. unfold at_pos. destruct (to_bytes v !! _) eqn:E; [|done]. specialize (Hb i Hi _ E). unfold quote_or_backslash in Hb. unfold is_escape. lia.
Qed.
Lemma pretty_squeezed v : storable v → without_whitespace (indented 0 (byte_strings v)) = show (byte_strings v).
Proof. intros (Hw & _). pose proof (squeeze_indented _ (bs_wf _ Hw) 0 []) as H. by rewrite !app_nil_r in H. Qed.
Lemma pretty_parsed v : storable v → parse_value (indented 0 (byte_strings v)) = Some (byte_strings v).
Proof.
  intros (Hw & Hk & Hs & Hd). unfold parse_value. rewrite parse_indented by (rewrite ?bs_depth; try done; by apply bs_wf). cbn [fmap option_fmap option_map]. by rewrite norm_id by by apply bs_keys.
Qed.
