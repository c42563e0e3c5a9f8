(** Lossy decoding of cut text; what the HTTP transport cannot do. *)
From stdpp Require Import list strings.
From Coq Require Import ZifyBool.
From Verif Require Import ListLib TextLib Utf8Lib JsonLib RpcModel RpcSpec RpcProofs SseModel SseSpec SseProofs HttpSseModel HttpSseSpec HttpSseProofs.
Local Open Scope N_scope.

Lemma broken_pos bs : (1 <= broken_length bs)%nat.
Proof. unfold broken_length. repeat case_match; lia. Qed.
Lemma utf8_next_shorter bs c r : utf8_next bs = Some (c, r) → (length r < length bs)%nat.
Proof. unfold utf8_next. intros H. repeat case_match; simplify_eq; cbn [length]; lia. Qed.
Lemma lossy_fuel_enough n m bs : (length bs <= n)%nat → (length bs <= m)%nat → lossy_fuel n bs = lossy_fuel m bs.
Proof.
  revert m bs. induction n as [|n IH]; intros m bs Hn Hm.
  { destruct bs; [|cbn in Hn; lia]. by destruct m. }
  destruct bs as [|b bs]; [by destruct m|]. destruct m as [|m]; [cbn in Hm; lia|]. cbn [lossy_fuel].
  destruct (utf8_next (b :: bs)) as [[c r]|] eqn:E.
  - apply utf8_next_shorter in E. f_equal. apply IH; lia.
  - f_equal. pose proof (broken_pos (b :: bs)). apply IH; rewrite drop_length; lia.
Qed.
Lemma lossy_nil : lossy [] = []. Proof. done. Qed.
Lemma lossy_next b bs : lossy (b :: bs) =
  match utf8_next (b :: bs) with Some (c, r) => c :: lossy r | None => REPLACEMENT :: lossy (drop (broken_length (b :: bs)) (b :: bs)) end.
Proof.
  unfold lossy at 1. cbn [length lossy_fuel]. destruct (utf8_next (b :: bs)) as [[c r]|] eqn:E.
  - apply utf8_next_shorter in E. f_equal. apply lossy_fuel_enough; cbn in *; lia.
  - f_equal. pose proof (broken_pos (b :: bs)). apply lossy_fuel_enough; rewrite ?drop_length; cbn in *; lia.
Qed.
Lemma lossy_char c r : scalar c → lossy (utf8_char c ++ r) = c :: lossy r.
Proof.
  intros Hc. pose proof (utf8_next_char c r Hc) as H. destruct (utf8_char c ++ r) as [|b bs] eqn:E; [done|]. rewrite lossy_next, H. done.
Qed.
Lemma lossy_text t r : Forall scalar t → lossy (utf8 t ++ r) = t ++ lossy r.
Proof.
  induction 1 as [|c t Hc Ht IH]; [done|]. unfold utf8 in *. rewrite fmap_cons. cbn [concat]. rewrite <- app_assoc, lossy_char by done. by rewrite IH.
Qed.
Lemma lossy_utf8 t : Forall scalar t → lossy (utf8 t) = t.
Proof. intros H. rewrite <- (app_nil_r (utf8 t)), lossy_text by done. by rewrite lossy_nil, app_nil_r. Qed.
(** The bytes after the first of a character are each taken for a broken one *)
Lemma lossy_conts l r : Forall (λ b, 128 <= b ∧ b < 192) l → lossy (l ++ r) = replicate (length l) REPLACEMENT ++ lossy r.
Proof.
  induction 1 as [|b l Hb Hl IH]; [done|]. cbn [app length replicate]. rewrite lossy_next.
  assert (utf8_next (b :: l ++ r) = None) as ->. { unfold utf8_next. rewrite (proj2 (N.ltb_ge b 128)) by lia. by rewrite (proj2 (N.ltb_lt b 194)) by lia. }
  assert (broken_length (b :: l ++ r) = 1%nat) as ->.
  { unfold broken_length. destruct (l ++ r) as [|b1 r']; [done|]. rewrite (proj2 (N.leb_gt 224 b)), (proj2 (N.leb_gt 240 b)) by lia. done. }
  change (drop 1 (b :: l ++ r)) with (l ++ r). by rewrite IH.
Qed.
(** A first part of a character is one broken piece *)
Lemma lossy_part c a b : scalar c → a ≠ [] → b ≠ [] → a ++ b = utf8_char c → lossy a = [REPLACEMENT] ∧ Forall (λ b, 128 <= b ∧ b < 192) b.
Proof.
  intros Hc Ha Hb E. unfold utf8_char in E.
  assert (∀ q, 128 <= 128 + q mod 64 ∧ 128 + q mod 64 < 192) as Hm. { intros q. pose proof (N.mod_lt q 64 ltac:(done)) as Hq. set (x := q mod 64) in *. clearbody x. lia. }
  destruct (N.ltb_spec c 128); [destruct a as [|? [|? ?]]; destruct b as [|? ?]; try done|].
  destruct (N.ltb_spec c 2048).
  { destruct a as [|x [|y [|? ?]]]; [done| |destruct b; [done|]; simplify_eq|destruct b; simplify_eq].
    simplify_eq/=. split; [|rewrite Forall_singleton; apply Hm].
    rewrite lossy_next. assert (2 <= c / 64 < 32) as Hq. { split; [apply N.div_le_lower_bound; lia|apply N.div_lt_upper_bound; lia]. }
    set (q := c / 64) in *. clearbody q. unfold utf8_next. rewrite (proj2 (N.ltb_ge (192 + q) 128)), (proj2 (N.ltb_ge (192 + q) 194)), (proj2 (N.ltb_lt (192 + q) 224)) by lia. done. }
  destruct (N.ltb_spec c 65536).
  { assert (c / 4096 < 16) as Hq by (apply N.div_lt_upper_bound; lia). pose proof (N.div_mod c 4096 ltac:(lia)) as Hd. pose proof (N.mod_lt c 4096 ltac:(lia)) as Hr.
    assert ((c / 64) mod 64 = (c mod 4096) / 64) as Hmid.
    { change 4096 with (64 * 64). rewrite N.mod_mul_r by lia.
      rewrite (N.mul_comm 64), N.div_add by lia. rewrite (N.div_small (c mod 64) 64) by (apply N.mod_lt; lia). lia. }
    pose proof (Hm (c / 64)) as Hm1. pose proof (Hm c) as Hm2.
    set (q := c / 4096) in *. set (r := c mod 4096) in *.
    assert (r / 64 < 64) as Hr64 by (apply N.div_lt_upper_bound; lia).
    assert (q = 0 → 32 <= r / 64) as Hz. { intros ->. apply N.div_le_lower_bound; lia. }
    assert (q = 13 → r / 64 < 32) as H13. { intros ->. apply N.div_lt_upper_bound; [lia|]. destruct Hc; lia. }
    rewrite Hmid in *. set (x := r / 64) in *. set (y := c mod 64) in *. clearbody q r x y.
    assert (lossy [224 + q] = [REPLACEMENT] ∧ lossy [224 + q; 128 + x] = [REPLACEMENT]) as [L1 L2].
    { split; rewrite lossy_next; unfold utf8_next; rewrite (proj2 (N.ltb_ge (224 + q) 128)), (proj2 (N.ltb_ge (224 + q) 194)), (proj2 (N.ltb_ge (224 + q) 224)), (proj2 (N.ltb_lt (224 + q) 240)) by lia; [done|].
      assert (broken_length [224 + q; 128 + x] = 2%nat) as ->; [|done].
      unfold broken_length. rewrite (proj2 (N.leb_le 224 (224 + q))), (proj2 (N.ltb_lt (224 + q) 240)) by lia. cbn [andb].
      destruct (N.eqb_spec (224 + q) 224). { rewrite (proj2 (N.leb_le 160 (128 + x))), (proj2 (N.ltb_lt (128 + x) 192)) by lia. done. }
      destruct (N.eqb_spec (224 + q) 237). { rewrite (proj2 (N.leb_le 128 (128 + x))), (proj2 (N.ltb_lt (128 + x) 160)) by lia. done. }
      unfold is_cont. rewrite (proj2 (N.leb_le 128 (128 + x))), (proj2 (N.ltb_lt (128 + x) 192)) by lia. done. }
    destruct a as [|a1 [|a2 [|a3 [|? ?]]]]; [done| | |destruct b; [done|]; simplify_eq|destruct b; simplify_eq]; simplify_eq/=; (split; [done|]); repeat constructor; lia. }
  { assert (c < 1114112) as Hc' by (destruct Hc; lia).
    assert (c / 262144 < 5) as Hq by (apply N.div_lt_upper_bound; lia). pose proof (N.div_mod c 262144 ltac:(lia)) as Hd. pose proof (N.mod_lt c 262144 ltac:(lia)) as Hr.
    assert ((c / 4096) mod 64 = (c mod 262144) / 4096) as Hmid.
    { change 262144 with (4096 * 64). rewrite N.mod_mul_r by lia. rewrite (N.mul_comm 4096), N.div_add by lia. rewrite (N.div_small (c mod 4096) 4096) by (apply N.mod_lt; lia). lia. }
    pose proof (Hm (c / 4096)) as Hm0. pose proof (Hm (c / 64)) as Hm1. pose proof (Hm c) as Hm2.
    set (q := c / 262144) in *. set (r := c mod 262144) in *.
    assert (r / 4096 < 64) as Hr64 by (apply N.div_lt_upper_bound; lia).
    assert (q = 0 → 16 <= r / 4096) as Hz. { intros ->. apply N.div_le_lower_bound; lia. }
    assert (q = 4 → r / 4096 < 16) as H4. { intros ->. apply N.div_lt_upper_bound; lia. }
    rewrite Hmid in *. set (x := r / 4096) in *. set (z := (c / 64) mod 64) in *. set (y := c mod 64) in *. clearbody q r x y z.
    assert (lossy [240 + q] = [REPLACEMENT] ∧ lossy [240 + q; 128 + x] = [REPLACEMENT] ∧ lossy [240 + q; 128 + x; 128 + z] = [REPLACEMENT]) as (L1 & L2 & L3).
    { split; [|split]; rewrite lossy_next; unfold utf8_next; rewrite (proj2 (N.ltb_ge (240 + q) 128)), (proj2 (N.ltb_ge (240 + q) 194)), (proj2 (N.ltb_ge (240 + q) 224)), (proj2 (N.ltb_ge (240 + q) 240)), (proj2 (N.ltb_lt (240 + q) 245)) by lia; [done| |].
      all: unfold broken_length; rewrite (proj2 (N.ltb_ge (240 + q) 240)) by lia; rewrite andb_false_r, (proj2 (N.leb_le 240 (240 + q))), (proj2 (N.ltb_lt (240 + q) 245)) by lia; cbn [andb].
      all: unfold is_cont; rewrite ?(proj2 (N.leb_le 128 (128 + z))), ?(proj2 (N.ltb_lt (128 + z) 192)) by lia.
      all: destruct (N.eqb_spec (240 + q) 240); [rewrite (proj2 (N.leb_le 144 (128 + x))), (proj2 (N.ltb_lt (128 + x) 192)) by lia; done|].
      all: destruct (N.eqb_spec (240 + q) 244); [rewrite (proj2 (N.leb_le 128 (128 + x))), (proj2 (N.ltb_lt (128 + x) 144)) by lia; done|].
      all: rewrite (proj2 (N.leb_le 128 (128 + x))), (proj2 (N.ltb_lt (128 + x) 192)) by lia; done. }
    destruct a as [|a1 [|a2 [|a3 [|a4 [|? ?]]]]]; [done| | | |destruct b; [done|]; simplify_eq|destruct b; simplify_eq]; simplify_eq/=; (split; [done|]); repeat constructor; lia. }
Qed.
(** A character cut by the end of a chunk becomes at least two replacement characters, the rest is intact. *)
Lemma lossy_cut c a b t1 t2 : scalar c → a ≠ [] → b ≠ [] → a ++ b = utf8_char c → Forall scalar t1 → Forall scalar t2 →
  lossy (utf8 t1 ++ a) ++ lossy (b ++ utf8 t2) = t1 ++ replicate (S (length b)) REPLACEMENT ++ t2.
Proof.
  intros Hc Ha Hb E H1 H2. destruct (lossy_part c a b Hc Ha Hb E) as [La Lb].
  rewrite lossy_text, La, lossy_conts, lossy_utf8 by done. by rewrite <- app_assoc.
Qed.
