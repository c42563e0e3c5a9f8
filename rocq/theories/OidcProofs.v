(** Proofs about src/client/auth.rs. *)
From Coq Require Import ZifyBool.
From stdpp Require Import sets list strings.
From Verif Require Import ListLib TextLib Utf8Lib JsonLib SerdeLib TypesModel RpcModel SseProofs UriModel UriSpec UriProofs SimdModel SimdSpec SimdProofs HttpSseModel HttpSseProofs2 OidcModel OidcSpec.
Local Open Scope N_scope.

(** *** Searching across the end of a fixed beginning *)
Lemma contains_cut (w p : list N) (c : N) (m : list N) : c ∉ w → contains w (p ++ c :: m) = contains w (p ++ [c]) || contains w m.
Proof.
  intros Hc. apply eq_iff_eq_true. rewrite orb_true_iff, !contains_spec. split.
  - intros (a & b & E). destruct w as [|x w]; [left; exists [], (p ++ [c]); done|].
    apply app_eq_inv in E as [(k & E1 & E2)|(k & -> & E2)].
    + (* p = a ++ k, w ++ b begins in p *) 
      apply app_eq_inv in E2 as [(k' & E4 & E3)|(k' & -> & E3)].
      * destruct k' as [|y k']; [rewrite app_nil_r in E4; rewrite <- E4 in E1; left; exists a, [c]; rewrite E1; by rewrite <- app_assoc|].
        injection E3 as -> _. exfalso. apply Hc. rewrite E4. set_solver.
      * left. exists a, (k' ++ [c]). subst p. by rewrite <- !app_assoc.
    + destruct k as [|y k]; [cbn in E2; destruct w; injection E2 as -> _; exfalso; apply Hc; set_solver|].
      injection E2 as -> E2. right. exists k, b. done.
  - intros [(a & b & E)|(a & b & ->)]; [|exists (p ++ c :: a), b; by rewrite <- app_assoc].
    exists a, (b ++ m). assert (p ++ c :: m = (p ++ [c]) ++ m) as -> by by rewrite <- app_assoc. rewrite E. by rewrite <- !app_assoc.
Qed.
Lemma retry_iff c m d : contains (lit "CORS") (lit "Protocol error: " ++ show_Z c ++ lit " - ") = false →
  contains (lit "network") (lit "Protocol error: " ++ show_Z c ++ lit " - ") = false →
  contains (lit "timeout") (lit "Protocol error: " ++ show_Z c ++ lit " - ") = false →
  contains (lit "connection") (lit "Protocol error: " ++ show_Z c ++ lit " - ") = false →
  should_retry (EProtocol c m d) = true ↔ sounds_temporary m.
Proof.
  intros H1 H2 H3 H4. unfold should_retry. cbn [error_display].
  assert (∀ w, 32 ∉ w → contains w (lit "Protocol error: " ++ show_Z c ++ lit " - ") = false → contains w (lit "Protocol error: " ++ show_Z c ++ lit " - " ++ m) = contains w m) as H.
  { intros w Hw Hf. set (p := lit "Protocol error: " ++ show_Z c ++ lit " -"). assert (lit "Protocol error: " ++ show_Z c ++ lit " - " = p ++ [32]) as E.
    { unfold p. rewrite <- !app_assoc. done. }
    rewrite E in Hf. assert (lit "Protocol error: " ++ show_Z c ++ lit " - " ++ m = p ++ 32 :: m) as ->. { unfold p. rewrite <- !app_assoc. done. }
    rewrite contains_cut by done. by rewrite Hf. }
  rewrite !H by (done || by apply (bool_decide_unpack _); vm_compute). rewrite !orb_true_iff, !contains_spec. unfold sounds_temporary, temporary_words, speaks_of. split.
  - intros [[[?|?]|?]|?]; eexists; (split; [|done]); set_solver.
  - intros (w & Hw & Hx). rewrite !elem_of_cons, elem_of_nil in Hw. destruct Hw as [->|[->|[->|[->|[]]]]]; tauto.
Qed.
Lemma prefix_free p w m : 32 ∉ w → contains w (p ++ [32]) = false → contains w (p ++ 32 :: m) = contains w m.
Proof. intros Hw Hf. rewrite contains_cut by done. by rewrite Hf. Qed.
Lemma sounds_cons p m : forallb (λ w, negb (existsb (N.eqb 32) w) && negb (contains w (p ++ [32]))) temporary_words = true →
  sounds_temporary (p ++ 32 :: m) ↔ sounds_temporary m.
Proof.
  intros H. rewrite forallb_forall in H. unfold sounds_temporary. split; intros (w & Hw & Hx); exists w; (split; [done|]); apply contains_spec; apply contains_spec in Hx.
  - specialize (H w). rewrite <- elem_of_list_In in H. specialize (H Hw). apply andb_true_iff in H as [Ha Hb]. rewrite prefix_free in Hx; [done| |by apply negb_true_iff].
    intros Hi. apply negb_true_iff in Ha. rewrite <- not_true_iff_false in Ha. apply Ha. by apply mem_existsb.
  - rewrite contains_spec in *. destruct Hx as (a & b & ->). exists (p ++ 32 :: a), b. by rewrite <- app_assoc.
Qed.
Lemma success_same z : success_status z = (200 <=? z) && (z <=? 299).
Proof. unfold success_status. f_equal. destruct (N.ltb_spec z 300), (N.leb_spec z 299); lia. Qed.
Lemma success_true z : success z ↔ success_status z = true.
Proof. rewrite success_same, andb_true_iff, !N.leb_le. done. Qed.
Lemma success_false z : ¬ success z ↔ success_status z = false.
Proof. rewrite success_true. by destruct (success_status z). Qed.
Lemma fetch_retry r e : fetch_discovery r = inl e → should_retry e = true ↔ sounds_temporary (reason_of r).
Proof.
  destruct r as [why|z reason body why]; cbn [fetch_discovery reason_of].
  - intros [= <-]. rewrite retry_iff by by vm_compute. apply (sounds_cons (lit "Failed to fetch discovery document:")). by vm_compute.
  - rewrite success_same. destruct ((200 <=? z) && (z <=? 299)).
    + destruct (json_body t_metadata body); [done|]. intros [= <-]. rewrite retry_iff by by vm_compute. apply (sounds_cons (lit "Failed to parse discovery document:")). by vm_compute.
    + intros [= <-]. rewrite retry_iff by by vm_compute. apply (sounds_cons (lit "Discovery endpoint returned status:")). by vm_compute.
Qed.

Lemma retry_temporary e : should_retry e = true ↔ temporary (inl e).
Proof.
  assert (should_retry e = true ↔ (∃ ms, e = ETimeout ms) ∨ sounds_temporary (error_display e)) as H.
  { assert (contains (lit "CORS") (error_display e) || contains (lit "network") (error_display e) || contains (lit "timeout") (error_display e) || contains (lit "connection") (error_display e) = true ↔ sounds_temporary (error_display e)) as H.
    { rewrite !orb_true_iff, !contains_spec. unfold sounds_temporary, temporary_words, speaks_of. split.
      - intros [[[?|?]|?]|?]; eexists; (split; [|done]); set_solver.
      - intros (w & Hw & Hx). rewrite !elem_of_cons, elem_of_nil in Hw. destruct Hw as [->|[->|[->|[->|[]]]]]; tauto. }
    unfold should_retry. destruct e; try (rewrite H; split; [by right|by intros [(? & ?)|?]]). split; [intros _; left; by eexists|done]. }
  rewrite H. unfold temporary. split; [intros Hx; by exists e|by intros (? & [= <-] & ?)].
Qed.

(** *** The loop *)
Lemma loop_decisive url replies k : ∀ i n, decisive temporary k (λ j, fetch_discovery (replies (i + j)%nat)) n →
  discover_loop url replies k i = (fetch_discovery (replies (i + n)%nat), DFetch url :: concat (replicate n [DSleep; DFetch url])).
Proof.
  induction k as [|k IH]; intros i n (Hn & Ht & Hd); [lia|]. cbn [discover_loop]. destruct n as [|n].
  - rewrite Nat.add_0_r in *. cbn [replicate concat]. destruct (fetch_discovery (replies i)) as [e|m] eqn:E; [|done].
    destruct Hd as [Hd|[= <-]]; [|by rewrite andb_false_r]. destruct (should_retry e) eqn:R; [|done]. exfalso. apply Hd. by apply retry_temporary.
  - destruct (Ht 0%nat ltac:(lia)) as (e & E & R0). rewrite Nat.add_0_r in E. assert (should_retry e = true) as R by (apply retry_temporary; by exists e). rewrite E, R. assert ((0 <? k)%nat = true) as -> by (apply Nat.ltb_lt; lia). cbn [andb].
    rewrite (IH (S i) n).
    + replace (S i + n)%nat with (i + S n)%nat by lia. done.
    + split; [lia|]. split.
      * intros j Hj. replace (S i + j)%nat with (i + S j)%nat by lia. apply Ht. lia.
      * replace (S i + n)%nat with (i + S n)%nat by lia. destruct Hd; [by left|right; lia].
Qed.
Lemma decisive_exists {A} (P : A → Prop) `{∀ x, Decision (P x)} k (f : nat → A) : (0 < k)%nat → ∃ n, decisive P k f n.
Proof.
  revert f. induction k as [|k IH]; intros f Hk; [lia|]. destruct (decide (P (f 0%nat))) as [Hp|Hp]; [|exists 0%nat; split; [lia|]; split; [lia|by left]].
  destruct k as [|k]; [exists 0%nat; split; [lia|]; split; [lia|by right]|]. destruct (IH (λ n, f (S n)) ltac:(lia)) as (n & H1 & H2 & H3).
  exists (S n). split; [lia|]. split; [intros [|i] Hi; [done|apply H2; lia]|]. destruct H3; [by left|right; lia].
Qed.

(** *** The url *)
Lemma trim_end_snoc c l : trim_end c (l ++ [c]) = trim_end c l.
Proof. unfold trim_end. rewrite reverse_snoc. cbn [drop_while]. by rewrite N.eqb_refl. Qed.
Lemma trim_end_shape c l : ∃ n, l = trim_end c l ++ replicate n c.
Proof.
  induction l as [|x l IH] using rev_ind; [by exists 0%nat|]. destruct (decide (x = c)) as [->|Hn].
  - destruct IH as [n E]. exists (S n). rewrite trim_end_snoc. rewrite E at 1. rewrite <- app_assoc. by rewrite <- replicate_S_end.
  - exists 0%nat. unfold trim_end. rewrite reverse_snoc. cbn [drop_while]. destruct (N.eqb_spec c x); [done|]. rewrite reverse_cons, reverse_involutive. by rewrite app_nil_r.
Qed.
Lemma trim_end_replicate c w n : trim_end c (w ++ replicate n c) = trim_end c w.
Proof. induction n as [|n IH]; [by rewrite app_nil_r|]. by rewrite replicate_S_end, app_assoc, trim_end_snoc. Qed.

(** *** Forms *)
Lemma form_plain_iff b : form_plain b = true → b < 128 ∧ b ≠ 37 ∧ b ≠ 43 ∧ b ≠ 38 ∧ b ≠ 61.
Proof.
  unfold form_plain, is_alpha, is_digit. cbn [existsb]. intros H. lia.
Qed.
Lemma form_byte_read b t : b < 256 → form_bytes (form_byte b ++ t) = (match form_bytes t with Some r => Some (b :: r) | None => None end).
Proof.
  intros Hb. unfold form_byte. destruct (N.eqb_spec b 32) as [->|Hs]; [done|]. destruct (form_plain b) eqn:E.
  - apply form_plain_iff in E as (_ & H1 & H2 & _). cbn [app form_bytes]. destruct (N.eqb_spec b 37); [done|]. destruct (N.eqb_spec b 43); done.
  - cbn [app form_bytes]. rewrite N.eqb_refl. assert (b / 16 < 16) by (apply N.div_lt_upper_bound; lia).
    pose proof (N.mod_lt b 16 ltac:(lia)) as Hm. pose proof (N.div_mod b 16 ltac:(lia)) as Hd. rewrite !hex_value_digit by done. destruct (form_bytes t); [|done]. by rewrite <- Hd.
Qed.
Lemma form_text_read t : Forall scalar t → form_value (form_text t) = Some t.
Proof.
  intros H. unfold form_value, form_text. assert (∀ bs, Forall (λ b, b < 256) bs → form_bytes (concat (form_byte <$> bs)) = Some bs) as Hb.
  { intros bs. induction 1 as [|b bs Hb _ IH]; [done|]. rewrite fmap_cons. cbn [concat]. rewrite form_byte_read by done. by rewrite IH. }
  rewrite Hb by by apply utf8_bytes. by apply utf8_decode_encode.
Qed.
Lemma form_text_chars t x : Forall scalar t → x ∈ form_text t → x ≠ 38 ∧ x ≠ 61.
Proof.
  intros H Hx. unfold form_text in Hx. apply elem_of_concat in Hx as (l & Hx & (b & -> & Hb)%elem_of_list_fmap).
  apply utf8_bytes in H. rewrite Forall_forall in H. specialize (H b Hb). cbn beta in H. unfold form_byte in Hx.
  destruct (N.eqb_spec b 32); [apply elem_of_list_singleton in Hx; lia|]. destruct (form_plain b) eqn:E.
  - apply elem_of_list_singleton in Hx as ->. by apply form_plain_iff in E as (_ & _ & _ & ? & ?).
  - assert (∀ n, n < 16 → hex_digit n ≠ 38 ∧ hex_digit n ≠ 61) as Hh. { intros k Hk. unfold hex_digit. destruct (k <? 10) eqn:?; lia. }
    assert (b / 16 < 16) by (apply N.div_lt_upper_bound; lia). pose proof (N.mod_lt b 16 ltac:(lia)) as Hm.
    rewrite !elem_of_cons, elem_of_nil in Hx. destruct Hx as [->|[->|[->|[]]]]; [lia|by apply Hh|by apply Hh].
Qed.
Lemma form_round ps : ps ≠ [] → Forall (λ p, Forall scalar p.1 ∧ Forall scalar p.2) ps → form_fields (form_encode ps) = Some ps.
Proof.
  intros Hn H. unfold form_fields, form_encode. rewrite split_on_join.
  - clear Hn. induction H as [|[a b] ps [Ha Hb] _ IH]; [done|]. rewrite fmap_cons. cbn [mapM fst snd] in *.
    assert (form_field (form_pair (a, b)) = Some (a, b)) as ->; [|cbn [mbind option_bind]; by rewrite IH].
    unfold form_field, form_pair. cbn [fst snd]. cbn [app]. rewrite split_once_app.
    + by rewrite !form_text_read.
    + intros Hx. by destruct (form_text_chars _ _ Ha Hx).
  - by destruct ps.
  - apply Forall_fmap. eapply Forall_impl; [exact H|]. intros [a b] [Ha Hb]. unfold compose, form_pair. cbn [fst snd] in *. rewrite !elem_of_app, elem_of_list_singleton.
    intros [Hx|[Hx|Hx]]; [by destruct (form_text_chars _ _ Ha Hx)|done|by destruct (form_text_chars _ _ Hb Hx)].
Qed.

(** *** Basic credentials *)
Lemma utf8_no_ascii c t : c < 128 → Forall scalar t → c ∉ t → c ∉ utf8 t.
Proof.
  intros Hc Ht Hn Hi. unfold utf8 in Hi. apply elem_of_concat in Hi as (l & Hl & (x & -> & Hx)%elem_of_list_fmap).
  destruct (N.lt_ge_cases x 128) as [Hlo|Hhi].
  - unfold utf8_char in Hl. apply N.ltb_lt in Hlo. rewrite Hlo in Hl. apply elem_of_list_singleton in Hl as ->. done.
  - pose proof (utf8_char_high x c Hhi Hl). lia.
Qed.
Lemma basic_decode i s : Forall scalar i → Forall scalar s →
  base64_decode (drop 6 (basic_auth i s)) = Some (utf8 i ++ [58] ++ utf8 s) ∧ take 6 (basic_auth i s) = lit "Basic ".
Proof.
  intros Hi Hs. unfold basic_auth. split; [|done]. rewrite drop_app_alt by done. apply base64_ok.
  apply Forall_app. split; [by apply utf8_bytes|]. apply Forall_app. split; [repeat constructor|by apply utf8_bytes].
Qed.
Lemma basic_split i s : Forall scalar i → Forall scalar s → 58 ∉ i → basic_parts (basic_auth i s) = Some (utf8 i, utf8 s).
Proof.
  intros Hi Hs Hn. unfold basic_parts. destruct (basic_decode i s Hi Hs) as [-> ->]. rewrite decide_True by done. cbn [app]. rewrite split_once_app; [done|]. by apply utf8_no_ascii.
Qed.
Lemma hex_value_range a x : hex_value a = Some x → x < 16.
Proof. unfold hex_value. repeat case_match; intros H'; simplify_eq; lia. Qed.
Lemma form_bytes_range t : ∀ bs, Forall (λ b, b < 256) t → form_bytes t = Some bs → Forall (λ b, b < 256) bs.
Proof.
  induction t as [t IH] using (induction_ltof1 _ length). unfold ltof in IH. destruct t as [|c t]; cbn [form_bytes]; [by intros bs _ [= <-]|]. intros bs Ht. apply Forall_cons in Ht as [Hc Ht].
  destruct (c =? 37).
  - destruct t as [|a [|b t]]; try done. destruct (hex_value a) as [x|] eqn:Ha, (hex_value b) as [y|] eqn:Hb; try done. destruct (form_bytes t) as [r|] eqn:F; [|done]. intros [= <-].
    apply hex_value_range in Ha, Hb. rewrite !Forall_cons in Ht. destruct Ht as (_ & _ & Ht). constructor; [change (16 * x + y < 256); lia|]. apply (IH t); [cbn; lia|done|done].
  - destruct (form_bytes t) as [r|] eqn:F; [|done]. intros [= <-]. constructor; [destruct (c =? 43); [lia|done]|]. apply (IH t); [cbn; lia|done|done].
Qed.
Lemma form_bytes_length t : ∀ bs, form_bytes t = Some bs → (length bs ≤ length t)%nat.
Proof.
  induction t as [t IH] using (induction_ltof1 _ length). unfold ltof in IH. destruct t as [|c t]; cbn [form_bytes]; [by intros bs [= <-]|]. intros bs.
  destruct (c =? 37).
  - destruct t as [|a [|b t]]; try done. destruct (hex_value a), (hex_value b); try done. destruct (form_bytes t) as [r|] eqn:F; [|done]. intros [= <-]. specialize (IH t ltac:(cbn; lia) r F). cbn. lia.
  - destruct (form_bytes t) as [r|] eqn:F; [|done]. intros [= <-]. specialize (IH t ltac:(cbn; lia) r F). cbn. lia.
Qed.
Lemma form_bytes_plain t : ∀ bs, form_bytes t = Some bs → 37 ∉ t → bs = (λ c, if c =? 43 then 32 else c) <$> t.
Proof.
  induction t as [|c t IH]; cbn [form_bytes]; [by intros bs [= <-]|]. intros bs H Hn. apply not_elem_of_cons in Hn as [Hn1 Hn2]. destruct (N.eqb_spec c 37); [done|].
  destruct (form_bytes t) as [r|]; [|done]. injection H as <-. rewrite fmap_cons. by rewrite (IH r eq_refl Hn2).
Qed.
Lemma form_bytes_shorter t : ∀ bs, form_bytes t = Some bs → 37 ∈ t → (length bs < length t)%nat.
Proof.
  induction t as [t IH] using (induction_ltof1 _ length). unfold ltof in IH. destruct t as [|c t]; [intros ? _ H; by apply elem_of_nil in H|]. intros bs. cbn [form_bytes].
  destruct (N.eqb_spec c 37) as [->|Hc].
  - intros H _. destruct t as [|a [|b t]]; try done. destruct (hex_value a), (hex_value b); try done. destruct (form_bytes t) as [r|] eqn:F; [|done]. injection H as <-. apply form_bytes_length in F. cbn. lia.
  - intros H Hi. apply elem_of_cons in Hi as [?|Hi]; [done|]. destruct (form_bytes t) as [r|] eqn:F; [|done]. injection H as <-. specialize (IH t ltac:(cbn; lia) r F Hi). cbn. lia.
Qed.
