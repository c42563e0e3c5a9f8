(** Lemmas for contexts in headers that somebody else made. *)
From stdpp Require Import list strings gmap.
From Coq Require Import ZifyBool.
From Verif Require Import ListLib TextLib Utf8Lib JsonLib RpcModel ContextModel ContextSpec ContextProofs.
Local Open Scope N_scope.

Lemma utf8_cons c t : utf8 (c :: t) = utf8_char c ++ utf8 t.
Proof. done. Qed.
Lemma utf8_char_shape c : c < 1114112 → ∃ b0 r, utf8_char c = b0 :: r ∧ (b0 < 128 ∨ 192 <= b0) ∧ Forall (λ b, 128 <= b ∧ b < 192) r.
Proof.
  intros Hc. unfold utf8_char.
  pose proof (N.mod_lt c 64 ltac:(lia)) as L64. pose proof (N.mod_lt (c / 64) 64 ltac:(lia)) as L2.
  pose proof (N.mod_lt (c / 4096) 64 ltac:(lia)) as L3.
  revert L64 L2 L3. generalize (c mod 64), ((c / 64) mod 64), ((c / 4096) mod 64). generalize (c / 64), (c / 4096), (c / 262144). intros u v w x y z Hx Hy Hz.
  repeat case_match; eexists _, _; (split; [reflexivity|]); (split; [lia|]); repeat (apply Forall_cons; split; [lia|]); by apply Forall_nil_2.
Qed.
Lemma boundary_spec t i : Forall scalar t → boundary (utf8 t) i = true ↔ cuts_at t i.
Proof.
  intros Hs. revert i. induction Hs as [|c t Hc Hs IH]; intros i.
  - unfold boundary, cuts_at. cbn [utf8 length]. change (length (utf8 [])) with 0%nat. change (utf8 [] !! i) with (@nil N !! i). rewrite lookup_nil. split.
    + intros H. exists [], []. cbn. split; [done|]. lia.
    + intros (t1 & t2 & E & Hl). destruct t1; [|done]. cbn in Hl. subst. done.
  - rewrite utf8_cons. destruct (utf8_char_shape c) as (b0 & r & E & Hb0 & Hr); [unfold scalar in Hc; lia|].
    destruct (decide (i < length (utf8_char c))%nat) as [Hlt|Hge].
    + unfold boundary. rewrite lookup_app_l by done. assert ((i =? length (utf8_char c ++ utf8 t))%nat = false) as -> by (rewrite app_length; lia). cbn [orb].
      destruct i as [|i].
      * rewrite E. cbn. split; [|intros _; lia]. intros _. by exists [], (c :: t).
      * rewrite E in *. cbn [length] in Hlt. destruct (lookup_lt_is_Some_2 r i) as [b Hb]; [lia|]. change ((b0 :: r) !! S i) with (r !! i). rewrite Hb.
        assert (128 <= b ∧ b < 192) as Hbb by (rewrite Forall_lookup in Hr; by apply (Hr i)). split; [lia|].
        intros (t1 & t2 & Et & Hl). exfalso. destruct t1 as [|c' t1]; [done|]. injection Et as <- ->. rewrite utf8_cons, E, app_length in Hl. cbn in Hl. lia.
    + assert (boundary (utf8_char c ++ utf8 t) i = boundary (utf8 t) (i - length (utf8_char c))) as ->.
      { unfold boundary. rewrite lookup_app_r by lia. rewrite app_length. f_equal. lia. }
      rewrite IH. split.
      * intros (t1 & t2 & -> & Hl). exists (c :: t1), t2. split; [done|]. rewrite utf8_cons, app_length. lia.
      * intros (t1 & t2 & Et & Hl). destruct t1 as [|c' t1]; [cbn in Hl; rewrite E in Hge; cbn in Hge; lia|]. injection Et as <- ->. exists t1, t2. split; [done|].
        rewrite utf8_cons, app_length in Hl. lia.
Qed.
Lemma boundary_ends s : s ≠ [] → boundary s (length s) = true.
Proof. intros _. unfold boundary. by rewrite Nat.eqb_refl. Qed.
Lemma boundary_start t : Forall scalar t → boundary (utf8 t) 0 = true.
Proof. intros H. apply boundary_spec; [done|]. by exists [], t. Qed.
Lemma slice_none s a b : (a <= b)%nat → (b <= length s)%nat → slice s a b = None ↔ boundary s a = false ∨ boundary s b = false.
Proof.
  intros Ha Hb. unfold slice. rewrite (proj2 (Nat.leb_le _ _) Ha), (proj2 (Nat.leb_le _ _) Hb). cbn [andb].
  destruct (boundary s a), (boundary s b); cbn; split; intros H; try done; try (by left); try (by right); by destruct H.
Qed.
Lemma not_cut t k : Forall scalar t → boundary (utf8 t) k = false ↔ ¬ cuts_at t k.
Proof. intros H. rewrite <-boundary_spec by done. destruct (boundary _ _); naive_solver. Qed.
Lemma boundary_all s : boundary s (length s) = true.
Proof. unfold boundary. by rewrite Nat.eqb_refl. Qed.
Lemma trace_panics t : Forall scalar t → restore_trace (utf8 t) = None ↔ crooked 32 [8; 12; 16; 20]%nat t.
Proof.
  intros Hs. unfold restore_trace, crooked. destruct (length (utf8 t) =? 32)%nat eqn:E; [|split; [done|intros [? _]; lia]]. apply Nat.eqb_eq in E.
  pose proof (boundary_start t Hs) as B0. pose proof (boundary_all (utf8 t)) as B32. rewrite E in B32.
  assert (Hn : ∀ k, ¬ cuts_at t k ↔ boundary (utf8 t) k = false) by (intros k; by rewrite not_cut). setoid_rewrite Hn. clear Hn.
  unfold slice. rewrite E. cbn [Nat.leb andb]. rewrite B0, B32. rewrite ?andb_true_r, ?andb_true_l.
  destruct (boundary (utf8 t) 8) eqn:E8; [|split; [intros _; split; [done|]; exists 8%nat; split; [set_solver|done]|done]].
  destruct (boundary (utf8 t) 12) eqn:E12; [|split; [intros _; split; [done|]; exists 12%nat; split; [set_solver|done]|done]].
  destruct (boundary (utf8 t) 16) eqn:E16; [|split; [intros _; split; [done|]; exists 16%nat; split; [set_solver|done]|done]].
  destruct (boundary (utf8 t) 20) eqn:E20; [|split; [intros _; split; [done|]; exists 20%nat; split; [set_solver|done]|done]].
  cbn [andb]. split; [done|]. intros [_ (k & Hk & Hb)]. rewrite !elem_of_cons, elem_of_nil in Hk. destruct Hk as [->|[->|[->|[->|[]]]]]; congruence.
Qed.
Lemma span_panics t : Forall scalar t → restore_span (utf8 t) = None ↔ crooked 16 [8; 12]%nat t.
Proof.
  intros Hs. unfold restore_span, crooked. destruct (length (utf8 t) =? 16)%nat eqn:E; [|split; [done|intros [? _]; lia]]. apply Nat.eqb_eq in E.
  pose proof (boundary_start t Hs) as B0. pose proof (boundary_all (utf8 t)) as B16. rewrite E in B16.
  assert (Hn : ∀ k, ¬ cuts_at t k ↔ boundary (utf8 t) k = false) by (intros k; by rewrite not_cut). setoid_rewrite Hn. clear Hn.
  unfold slice. rewrite E. cbn [Nat.leb andb]. rewrite B0, B16. rewrite ?andb_true_r, ?andb_true_l.
  destruct (boundary (utf8 t) 8) eqn:E8; [|split; [intros _; split; [done|]; exists 8%nat; split; [set_solver|done]|done]].
  destruct (boundary (utf8 t) 12) eqn:E12; [|split; [intros _; split; [done|]; exists 12%nat; split; [set_solver|done]|done]].
  cbn [andb]. split; [done|]. intros [_ (k & Hk & Hb)]. rewrite !elem_of_cons, elem_of_nil in Hk. destruct Hk as [->|[->|[]]]; congruence.
Qed.
Lemma utf8_no_dash t : Forall scalar t → DASH ∉ t → DASH ∉ utf8 t.
Proof.
  intros Hs Hn. induction Hs as [|c t Hc Hs IH]; [by intros H; inversion H|]. apply not_elem_of_cons in Hn as [Hne Hn].
  rewrite utf8_cons, elem_of_app. intros [H|H]; [|by apply IH]. unfold DASH in *.
  destruct (N.ltb c 128) eqn:E.
  - rewrite utf8_char_ascii in H by lia. apply elem_of_list_singleton in H. done.
  - apply utf8_char_bytes in H; [|unfold scalar in Hc; lia]. lia.
Qed.
Lemma utf8_join ps : utf8 (join_with [45] ps) = join_with [45] (utf8 <$> ps).
Proof.
  induction ps as [|p ps IH]; [done|]. destruct ps as [|q ps]; [done|].
  change (join_with [45] (p :: q :: ps)) with (p ++ [45] ++ join_with [45] (q :: ps)). rewrite !utf8_app, IH. done.
Qed.
Lemma parts_split ps : ps ≠ [] → Forall (λ p, Forall scalar p ∧ DASH ∉ p) ps → split_on DASH (traceparent ps) = utf8 <$> ps.
Proof.
  intros Hne Hf. unfold traceparent. rewrite utf8_join. change [45] with [DASH]. apply split_on_join; [by destruct ps|].
  apply Forall_fmap. eapply Forall_impl; [exact Hf|]. intros p [H1 H2]. by apply utf8_no_dash.
Qed.
Lemma headers_panic fresh span h ps : ps ≠ [] → Forall (λ p, Forall scalar p ∧ DASH ∉ p) ps → h !! lit "traceparent" = Some (traceparent ps) →
  from_headers fresh span h = None ↔ ∃ v trace parent flags more, ps = v :: trace :: parent :: flags :: more ∧ (crooked 32 [8; 12; 16; 20]%nat trace ∨ crooked 16 [8; 12]%nat parent).
Proof.
  intros Hne Hf Hh. unfold from_headers. rewrite Hh, parts_split by done. clear Hh.
  destruct ps as [|v [|trace [|parent [|flags more]]]]; [done|split; [done|by intros (? & ? & ? & ? & ? & ? & _)]..|].
  rewrite !fmap_cons. apply Forall_cons in Hf as [_ Hf]. apply Forall_cons in Hf as [[Ht _] Hf]. apply Forall_cons in Hf as [[Hp _] Hf].
  pose proof (trace_panics trace Ht) as T. pose proof (span_panics parent Hp) as S. split.
  - intros H. exists v, trace, parent, flags, more. split; [done|]. destruct (restore_trace (utf8 trace)); [|left; by apply T]. destruct (restore_span (utf8 parent)); [done|right; by apply S].
  - intros (v' & t' & p' & f' & m' & [= <- <- <- <- <-] & Hc). destruct (restore_trace (utf8 trace)) as [x|]; [|done]. destruct (restore_span (utf8 parent)) as [y|]; [|done].
    destruct Hc as [Hc|Hc]; [apply T in Hc|apply S in Hc]; done.
Qed.
Lemma ascii_cuts t k : Forall (λ c, c < 128) t → (k <= length t)%nat → cuts_at t k.
Proof.
  intros Ha Hk. exists (take k t), (drop k t). split; [by rewrite take_drop|]. rewrite utf8_ascii by (by apply Forall_take). rewrite take_length. lia.
Qed.
Lemma ascii_straight n cuts t : Forall (λ c, c < 128) t → (∀ k, k ∈ cuts → (k <= n)%nat) → ¬ crooked n cuts t.
Proof. intros Ha Hk (Hl & k & Hin & Hn). apply Hn. apply ascii_cuts; [done|]. rewrite utf8_ascii in Hl by done. rewrite Hl. by apply Hk. Qed.
