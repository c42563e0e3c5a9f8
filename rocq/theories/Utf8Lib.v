(** UTF-8: encoding of code points, a strict decoder, and the round trips between them. *)
From stdpp Require Import sets list strings.
From Verif Require Import ListLib TextLib.
Local Open Scope N_scope.

(** Unicode scalar values: what a Rust [char] can hold. *)
Definition scalar (c : N) : Prop := c < 55296 ∨ (57344 <= c ∧ c < 1114112).

(** The bytes of one character ([char::encode_utf8]). *)
Definition utf8_char (c : N) : list N :=
  if c <? 128 then [c]
  else if c <? 2048 then [192 + c / 64; 128 + c mod 64]
  else if c <? 65536 then [224 + c / 4096; 128 + (c / 64) mod 64; 128 + c mod 64]
  else [240 + c / 262144; 128 + (c / 4096) mod 64; 128 + (c / 64) mod 64; 128 + c mod 64].
(** [str::as_bytes]. *)
Definition utf8 (t : list N) : list N := concat (utf8_char <$> t).

(** A continuation byte. *)
Definition is_cont (b : N) : bool := (128 <=? b) && (b <? 192).

(** One character off the front of a byte string, by the definition of well-formed UTF-8
    (no overlong forms, no surrogates, at most U+10FFFF). *)
Definition utf8_next (bs : list N) : option (N * list N) :=
  match bs with
  | [] => None
  | b0 :: r =>
    if b0 <? 128 then Some (b0, r)
    else if b0 <? 194 then None
    else if b0 <? 224 then
      match r with
      | b1 :: r => if is_cont b1 then Some ((b0 - 192) * 64 + (b1 - 128), r) else None
      | _ => None
      end
    else if b0 <? 240 then
      match r with
      | b1 :: b2 :: r =>
          let c := (b0 - 224) * 4096 + (b1 - 128) * 64 + (b2 - 128) in
          if is_cont b1 && is_cont b2 && (2048 <=? c) && negb ((55296 <=? c) && (c <? 57344))
          then Some (c, r) else None
      | _ => None
      end
    else if b0 <? 245 then
      match r with
      | b1 :: b2 :: b3 :: r =>
          let c := (b0 - 240) * 262144 + (b1 - 128) * 4096 + (b2 - 128) * 64 + (b3 - 128) in
          if is_cont b1 && is_cont b2 && is_cont b3 && (65536 <=? c) && (c <? 1114112)
          then Some (c, r) else None
      | _ => None
      end
    else None
  end.

Fixpoint utf8_decode_fuel (fuel : nat) (bs : list N) : option (list N) :=
  match bs with
  | [] => Some []
  | _ =>
    match fuel with
    | O => None
    | S fuel =>
      match utf8_next bs with
      | Some (c, r) => match utf8_decode_fuel fuel r with Some t => Some (c :: t) | None => None end
      | None => None
      end
    end
  end.
(** [std::str::from_utf8]. *)
Definition utf8_decode (bs : list N) : option (list N) := utf8_decode_fuel (length bs) bs.

Lemma utf8_char_length c : N.of_nat (length (utf8_char c)) = utf8_len c.
Proof. unfold utf8_char, utf8_len. repeat (destruct (_ <? _); [done|]). done. Qed.
Lemma utf8_char_nonempty c : utf8_char c ≠ [].
Proof. unfold utf8_char. repeat (destruct (_ <? _); [done|]). done. Qed.

Ltac nb :=
  repeat match goal with
  | |- context [?a <? ?b] => first
      [ rewrite (proj2 (N.ltb_lt a b)) by lia | rewrite (proj2 (N.ltb_ge a b)) by lia ]
  | |- context [?a <=? ?b] => first
      [ rewrite (proj2 (N.leb_le a b)) by lia | rewrite (proj2 (N.leb_gt a b)) by lia ]
  end.

Lemma utf8_next_char c r : scalar c → utf8_next (utf8_char c ++ r) = Some (c, r).
Proof.
  intros Hs. unfold utf8_char.
  destruct (c <? 128) eqn:E1; [simpl; by rewrite E1|]. apply N.ltb_ge in E1.
  pose proof (N.div_mod c 64 ltac:(lia)) as H64. pose proof (N.mod_lt c 64 ltac:(lia)) as L64.
  destruct (c <? 2048) eqn:E2; [|apply N.ltb_ge in E2; destruct (c <? 65536) eqn:E3].
  - apply N.ltb_lt in E2. unfold utf8_next, is_cont. cbn [app].
    set (q := c / 64) in *. set (m := c mod 64) in *. clearbody q m.
    nb. cbn [andb]. f_equal. f_equal. lia.
  - apply N.ltb_lt in E3.
    assert (H12 : c / 4096 = (c / 64) / 64) by (rewrite N.div_div by lia; done).
    pose proof (N.div_mod (c / 64) 64 ltac:(lia)) as H2. pose proof (N.mod_lt (c / 64) 64 ltac:(lia)) as L2.
    rewrite H12. set (q := c / 64) in *. set (m := c mod 64) in *.
    set (q2 := q / 64) in *. set (m2 := q mod 64) in *. clearbody q m q2 m2.
    unfold utf8_next, is_cont. cbn [app].
    replace ((224 + q2 - 224) * 4096 + (128 + m2 - 128) * 64 + (128 + m - 128)) with c by lia.
    nb. cbn [andb negb].
    destruct Hs as [Hs|[Hs1 Hs2]]; nb; done.
  - apply N.ltb_ge in E3.
    assert (H12 : c / 4096 = (c / 64) / 64) by (rewrite N.div_div by lia; done).
    assert (H18 : c / 262144 = (c / 64) / 64 / 64) by (rewrite !N.div_div by lia; done).
    pose proof (N.div_mod (c / 64) 64 ltac:(lia)) as H2. pose proof (N.mod_lt (c / 64) 64 ltac:(lia)) as L2.
    pose proof (N.div_mod (c / 64 / 64) 64 ltac:(lia)) as H3. pose proof (N.mod_lt (c / 64 / 64) 64 ltac:(lia)) as L3.
    rewrite H12, H18. set (q := c / 64) in *. set (m := c mod 64) in *.
    set (q2 := q / 64) in *. set (m2 := q mod 64) in *.
    set (q3 := q2 / 64) in *. set (m3 := q2 mod 64) in *. clearbody q m q2 m2 q3 m3.
    unfold utf8_next, is_cont. cbn [app].
    replace ((240 + q3 - 240) * 262144 + (128 + m3 - 128) * 4096 + (128 + m2 - 128) * 64 + (128 + m - 128))
      with c by lia.
    destruct Hs as [Hs|[Hs1 Hs2]]; [lia|]. nb. done.
Qed.

Lemma utf8_decode_fuel_ok t n : Forall scalar t → (length t <= n)%nat → utf8_decode_fuel n (utf8 t) = Some t.
Proof.
  revert n. induction t as [|c t IH]; intros n Hf Hn; [by destruct n|]. inversion Hf; subst.
  unfold utf8. rewrite fmap_cons. cbn [concat]. fold (utf8 t).
  destruct n as [|n]; [simpl in Hn; lia|].
  destruct (utf8_char c ++ utf8 t) as [|b bs] eqn:E.
  { apply app_eq_nil in E as [E _]. by apply utf8_char_nonempty in E. }
  cbn [utf8_decode_fuel]. rewrite <- E, utf8_next_char by done.
  rewrite IH; [done|done|simpl in Hn; lia].
Qed.

Lemma utf8_length t : (length t <= length (utf8 t))%nat.
Proof.
  induction t as [|c t IH]; [done|]. unfold utf8. rewrite fmap_cons. cbn [concat]. fold (utf8 t).
  rewrite app_length. pose proof (utf8_char_nonempty c). destruct (utf8_char c); [done|]. simpl. lia.
Qed.

(** Decoding the bytes of a text gives the text back. *)
Lemma utf8_decode_encode t : Forall scalar t → utf8_decode (utf8 t) = Some t.
Proof. intros H. apply utf8_decode_fuel_ok; [done|apply utf8_length]. Qed.

Lemma utf8_inj t1 t2 : Forall scalar t1 → Forall scalar t2 → utf8 t1 = utf8 t2 → t1 = t2.
Proof.
  intros H1 H2 H. apply utf8_decode_encode in H1, H2. rewrite H in H1. congruence.
Qed.

(** The decoder accepts only encodings of scalar values. *)
Lemma utf8_next_inv bs x r : Forall (λ b, b < 256) bs → utf8_next bs = Some (x, r) → scalar x ∧ bs = utf8_char x ++ r.
Proof.
  intros Hb. unfold utf8_next. destruct bs as [|b0 bs]; [done|].
  destruct (b0 <? 128) eqn:E0.
  { intros [= <- <-]. pose proof (proj1 (N.ltb_lt _ _) E0). split; [left; lia|]. unfold utf8_char. by rewrite E0. }
  apply N.ltb_ge in E0. destruct (b0 <? 194) eqn:E1; [done|]. apply N.ltb_ge in E1.
  unfold is_cont. destruct (b0 <? 224) eqn:E2.
  { apply N.ltb_lt in E2. destruct bs as [|b1 bs]; [done|].
    destruct ((128 <=? b1) && (b1 <? 192)) eqn:E3; [|done]. apply andb_prop in E3 as [E3 E4].
    apply N.leb_le in E3. apply N.ltb_lt in E4. intros [= <- <-].
    set (c := (b0 - 192) * 64 + (b1 - 128)). assert (c = 64 * (b0 - 192) + (b1 - 128)) as Hc by (unfold c; lia).
    assert (Hq : c / 64 = b0 - 192) by (rewrite Hc; symmetry; eapply N.div_unique; [|reflexivity]; lia).
    assert (Hm : c mod 64 = b1 - 128) by (rewrite Hc; symmetry; eapply N.mod_unique; [|reflexivity]; lia).
    clearbody c. split; [left; lia|]. unfold utf8_char. nb. rewrite Hq, Hm. cbn [app]. repeat f_equal; lia. }
  apply N.ltb_ge in E2. destruct (b0 <? 240) eqn:E5.
  { apply N.ltb_lt in E5. destruct bs as [|b1 [|b2 bs]]; [done|done|].
    set (c := (b0 - 224) * 4096 + (b1 - 128) * 64 + (b2 - 128)).
    destruct ((128 <=? b1) && (b1 <? 192)) eqn:E3; [|done]. apply andb_prop in E3 as [E3 E4].
    destruct ((128 <=? b2) && (b2 <? 192)) eqn:E6; [|done]. apply andb_prop in E6 as [E6 E7].
    apply N.leb_le in E3, E6. apply N.ltb_lt in E4, E7. cbn [andb].
    destruct (2048 <=? c) eqn:E8; [|done]. apply N.leb_le in E8. cbn [andb].
    destruct (negb ((55296 <=? c) && (c <? 57344))) eqn:E9; [|done].
    intros [= <- <-].
    assert (c = 64 * ((b0 - 224) * 64 + (b1 - 128)) + (b2 - 128)) as Hc by (unfold c; lia).
    assert (Hq : c / 64 = (b0 - 224) * 64 + (b1 - 128)) by (rewrite Hc; symmetry; eapply N.div_unique; [|reflexivity]; lia).
    assert (Hm : c mod 64 = b2 - 128) by (rewrite Hc; symmetry; eapply N.mod_unique; [|reflexivity]; lia).
    assert (Hq2 : c / 64 / 64 = b0 - 224) by (rewrite Hq; symmetry; eapply (N.div_unique _ _ _ (b1 - 128)); lia).
    assert (Hm2 : (c / 64) mod 64 = b1 - 128) by (rewrite Hq; symmetry; eapply (N.mod_unique _ _ (b0 - 224)); lia).
    assert (H12 : c / 4096 = (c / 64) / 64) by (rewrite N.div_div by lia; done).
    assert (Hsc : scalar c).
    { apply negb_true_iff, andb_false_iff in E9 as [E9|E9].
      - apply N.leb_gt in E9. left. lia.
      - apply N.ltb_ge in E9. right. split; [done|]. clearbody c. lia. }
    clearbody c. split; [done|]. unfold utf8_char. nb. rewrite H12, Hq2, Hm2, Hm. cbn [app]. repeat f_equal; lia. }
  apply N.ltb_ge in E5. destruct (b0 <? 245) eqn:E10; [|done]. apply N.ltb_lt in E10.
  destruct bs as [|b1 [|b2 [|b3 bs]]]; [done|done|done|].
  set (c := (b0 - 240) * 262144 + (b1 - 128) * 4096 + (b2 - 128) * 64 + (b3 - 128)).
  destruct ((128 <=? b1) && (b1 <? 192)) eqn:E3; [|done]. apply andb_prop in E3 as [E3 E4].
  destruct ((128 <=? b2) && (b2 <? 192)) eqn:E6; [|done]. apply andb_prop in E6 as [E6 E7].
  destruct ((128 <=? b3) && (b3 <? 192)) eqn:E11; [|done]. apply andb_prop in E11 as [E11 E12].
  apply N.leb_le in E3, E6, E11. apply N.ltb_lt in E4, E7, E12. cbn [andb].
  destruct (65536 <=? c) eqn:E8; [|done]. apply N.leb_le in E8. cbn [andb].
  destruct (c <? 1114112) eqn:E9; [|done]. apply N.ltb_lt in E9.
  intros [= <- <-].
  set (d := (b0 - 240) * 64 + (b1 - 128)). 
  assert (c = 64 * (d * 64 + (b2 - 128)) + (b3 - 128)) as Hc by (unfold c, d; lia).
  assert (Hq : c / 64 = d * 64 + (b2 - 128)) by (rewrite Hc; symmetry; eapply N.div_unique; [|reflexivity]; lia).
  assert (Hm : c mod 64 = b3 - 128) by (rewrite Hc; symmetry; eapply N.mod_unique; [|reflexivity]; lia).
  assert (Hq2 : c / 64 / 64 = d) by (rewrite Hq; symmetry; eapply (N.div_unique _ _ _ (b2 - 128)); lia).
  assert (Hm2 : (c / 64) mod 64 = b2 - 128) by (rewrite Hq; symmetry; eapply (N.mod_unique _ _ d); lia).
  assert (Hq3 : d / 64 = b0 - 240) by (unfold d; symmetry; eapply (N.div_unique _ _ _ (b1 - 128)); lia).
  assert (Hm3 : d mod 64 = b1 - 128) by (unfold d; symmetry; eapply (N.mod_unique _ _ (b0 - 240)); lia).
  assert (H12 : c / 4096 = (c / 64) / 64) by (rewrite N.div_div by lia; done).
  assert (H18 : c / 262144 = (c / 64) / 64 / 64) by (rewrite !N.div_div by lia; done).
  clearbody c d. split; [right; lia|]. unfold utf8_char. nb. rewrite H18, H12, Hq2, Hm2, Hm, Hq3, Hm3.
  cbn [app]. repeat f_equal; lia.
Qed.

Lemma utf8_decode_fuel_inv n bs t : Forall (λ b, b < 256) bs → utf8_decode_fuel n bs = Some t →
  Forall scalar t ∧ bs = utf8 t.
Proof.
  revert bs t. induction n as [|n IH]; intros bs t Hb H; destruct bs as [|b bs]; cbn [utf8_decode_fuel] in H.
  - by simplify_eq.
  - done.
  - by simplify_eq.
  - destruct (utf8_next (b :: bs)) as [[c r]|] eqn:E; [|done].
    destruct (utf8_decode_fuel n r) as [t'|] eqn:E2; [|done]. simplify_eq.
    apply utf8_next_inv in E as [Hc E]; [|done]. rewrite E in Hb. apply Forall_app in Hb as [_ Hr].
    apply IH in E2 as [Ht ->]; [|done]. split; [by constructor|]. rewrite E. done.
Qed.

(** [from_utf8] succeeds exactly on encodings of scalar-value text. *)
Lemma utf8_decode_iff bs t : Forall (λ b, b < 256) bs →
  utf8_decode bs = Some t ↔ Forall scalar t ∧ bs = utf8 t.
Proof.
  intros Hb. split; [by apply utf8_decode_fuel_inv|]. intros [H ->]. by apply utf8_decode_encode.
Qed.

Lemma utf8_char_ascii c : c < 128 → utf8_char c = [c].
Proof. intros H. unfold utf8_char. by nb. Qed.
Lemma utf8_ascii t : Forall (λ c, c < 128) t → utf8 t = t.
Proof.
  induction 1 as [|c t Hc Ht IH]; [done|]. unfold utf8. rewrite fmap_cons. cbn [concat]. fold (utf8 t).
  by rewrite IH, utf8_char_ascii.
Qed.
Lemma utf8_char_bytes c b : c < 1114112 → b ∈ utf8_char c → b < 256 ∧ (128 <= c → 128 <= b).
Proof.
  intros Hc. unfold utf8_char.
  pose proof (N.mod_lt c 64 ltac:(lia)) as L64. pose proof (N.mod_lt (c / 64) 64 ltac:(lia)) as L2.
  pose proof (N.mod_lt (c / 4096) 64 ltac:(lia)) as L3.
  destruct (c <? 128) eqn:E1; [intros ->%elem_of_list_singleton; apply N.ltb_lt in E1; lia|].
  apply N.ltb_ge in E1. destruct (c <? 2048) eqn:E2; [|apply N.ltb_ge in E2; destruct (c <? 65536) eqn:E3].
  - apply N.ltb_lt in E2. assert (c / 64 < 32) by (apply N.div_lt_upper_bound; lia).
    revert L64. generalize (c mod 64). revert H. generalize (c / 64). clear -E1 E2. intros.
    rewrite !elem_of_cons, elem_of_nil in *. naive_solver lia.
  - apply N.ltb_lt in E3. assert (c / 4096 < 16) by (apply N.div_lt_upper_bound; lia).
    revert L64 L2 H. generalize (c mod 64), ((c / 64) mod 64), (c / 4096). clear -E1. intros.
    rewrite !elem_of_cons, elem_of_nil in *. naive_solver lia.
  - apply N.ltb_ge in E3. assert (c / 262144 < 5) by (apply N.div_lt_upper_bound; lia).
    revert L64 L2 L3 H. generalize (c mod 64), ((c / 64) mod 64), ((c / 4096) mod 64), (c / 262144). clear -E1. intros.
    rewrite !elem_of_cons, elem_of_nil in *. naive_solver lia.
Qed.
Lemma utf8_app t1 t2 : utf8 (t1 ++ t2) = utf8 t1 ++ utf8 t2.
Proof. unfold utf8. by rewrite fmap_app, concat_app. Qed.
Lemma utf8_size_bytes t : utf8_size t = N.of_nat (length (utf8 t)).
Proof.
  induction t as [|c t IH]; [done|]. unfold utf8. rewrite fmap_cons. cbn [concat utf8_size foldr]. fold (utf8 t).
  change (foldr (λ c n, utf8_len c + n) 0 t) with (utf8_size t).
  rewrite IH, <- utf8_char_length, app_length. lia.
Qed.
