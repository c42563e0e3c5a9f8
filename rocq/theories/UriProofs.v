From stdpp Require Import gmap sets list strings.
From Verif Require Import ListLib TextLib Utf8Lib UriModel UriSpec.
Local Open Scope N_scope.

(** *** Finite character facts, checked on 0..255 and bounded above *)
Lemma below_ind (P : N → bool) k c : forallb P (N.of_nat <$> seq 0 k) = true → c < N.of_nat k → P c = true.
Proof.
  intros H Hc. rewrite forallb_forall in H. apply H. apply elem_of_list_In.
  apply elem_of_list_fmap. exists (N.to_nat c). split; [lia|]. apply elem_of_seq. lia.
Qed.
Lemma mem_existsb (c : N) l : c ∈ l ↔ existsb (N.eqb c) l = true.
Proof.
  rewrite existsb_exists. split.
  - intros H. exists c. split; [by apply elem_of_list_In|apply N.eqb_refl].
  - intros (x & H & E). apply N.eqb_eq in E as ->. by apply elem_of_list_In.
Qed.
Lemma is_alpha_high c : 128 <= c → is_alpha c = false.
Proof. intros H. unfold is_alpha. by nb. Qed.
Lemma is_digit_high c : 128 <= c → is_digit c = false.
Proof. intros H. unfold is_digit. nb. by rewrite andb_false_r. Qed.
Lemma eqb_high a c : a < 128 → 128 <= c → (c =? a) = false.
Proof. intros. apply N.eqb_neq. lia. Qed.
Lemma mem_high c l : forallb (λ x, x <? 128) l = true → 128 <= c → existsb (N.eqb c) l = false.
Proof.
  intros Hl Hc. destruct (existsb (N.eqb c) l) eqn:E; [|done]. apply existsb_exists in E as (x & Hx & E).
  apply N.eqb_eq in E as <-. rewrite forallb_forall in Hl. apply Hl in Hx. apply N.ltb_lt in Hx. lia.
Qed.
Lemma is_unreserved_high c : 128 <= c → is_unreserved c = false.
Proof.
  intros H. unfold is_unreserved. rewrite is_alpha_high, is_digit_high, !eqb_high by (done || lia). done.
Qed.
Lemma unreserved_iff c : is_unreserved c = true ↔ c ∈ unreserved_chars.
Proof.
  rewrite mem_existsb. enough (is_unreserved c = existsb (N.eqb c) unreserved_chars) as -> by done.
  destruct (decide (c < 128)) as [Hc|Hc].
  - apply eqb_prop. refine (below_ind (λ c, Bool.eqb (is_unreserved c) (existsb (N.eqb c) unreserved_chars)) 128 c _ Hc).
    vm_compute. reflexivity.
  - rewrite is_unreserved_high by lia. symmetry. apply mem_high; [vm_compute; reflexivity|lia].
Qed.
Lemma unreserved_low c : c ∈ unreserved_chars → c < 128.
Proof.
  intros H. destruct (decide (c < 128)) as [|Hc]; [done|].
  apply unreserved_iff in H. rewrite is_unreserved_high in H by lia. done.
Qed.
Lemma unreserved_not c x : existsb (N.eqb x) unreserved_chars = false → c ∈ unreserved_chars → c ≠ x.
Proof. intros Hx Hc ->. apply mem_existsb in Hc. congruence. Qed.

Lemma name_first_iff c : is_alpha c || (c =? 95) = true ↔ c ∈ name_first.
Proof.
  rewrite mem_existsb. enough ((is_alpha c || (c =? 95)) = existsb (N.eqb c) name_first) as -> by done.
  destruct (decide (c < 128)) as [Hc|Hc].
  - apply eqb_prop. refine (below_ind (λ c, Bool.eqb (is_alpha c || (c =? 95)) (existsb (N.eqb c) name_first)) 128 c _ Hc).
    vm_compute. reflexivity.
  - rewrite is_alpha_high, eqb_high by lia. symmetry. apply mem_high; [vm_compute; reflexivity|lia].
Qed.
Lemma name_rest_iff c : is_alpha c || is_digit c || (c =? 95) = true ↔ c ∈ name_rest.
Proof.
  rewrite mem_existsb. enough ((is_alpha c || is_digit c || (c =? 95)) = existsb (N.eqb c) name_rest) as -> by done.
  destruct (decide (c < 128)) as [Hc|Hc].
  - apply eqb_prop. refine (below_ind (λ c, Bool.eqb (is_alpha c || is_digit c || (c =? 95)) (existsb (N.eqb c) name_rest)) 128 c _ Hc).
    vm_compute. reflexivity.
  - rewrite is_alpha_high, is_digit_high, eqb_high by lia. symmetry. apply mem_high; [vm_compute; reflexivity|lia].
Qed.
Lemma valid_name_iff n : valid_name n = true ↔ good_name n.
Proof.
  unfold good_name. destruct n as [|c n]; simpl; [split; [done|intros (? & ? & ? & ?); done]|].
  rewrite andb_true_iff, name_first_iff, forallb_forall. split.
  - intros [H1 H2]. exists c, n. split; [done|]. split; [done|]. intros x Hx.
    apply name_rest_iff, H2. by apply elem_of_list_In.
  - intros (c' & n' & [= <- <-] & H1 & H2). split; [done|]. intros x Hx. apply name_rest_iff, H2.
    by apply elem_of_list_In.
Qed.
Lemma good_name_chars n c : good_name n → c ∈ n → c ∈ name_rest.
Proof.
  intros (x & r & -> & Hx & Hr) Hc. apply elem_of_cons in Hc as [->|Hc]; [|by apply Hr].
  unfold name_rest. apply elem_of_app. by left.
Qed.

(** *** Percent-encoding *)
Lemma hex_value_digit n : n < 16 → hex_value (hex_digit n) = Some n.
Proof.
  intros Hn.
  assert (H : bool_decide (hex_value (hex_digit n) = Some n) = true).
  { refine (below_ind (λ n, bool_decide (hex_value (hex_digit n) = Some n)) 16 n _ Hn). vm_compute. reflexivity. }
  by apply bool_decide_eq_true in H.
Qed.

Lemma pct_byte_decode b t : b < 256 →
  pct_decode (pct_byte b ++ t) = match pct_decode t with Some r => Some (b :: r) | None => None end.
Proof.
  intros Hb. unfold pct_byte. destruct (is_unreserved b) eqn:E.
  - apply unreserved_iff in E. cbn [app pct_decode]. rewrite decide_False; [done|].
    by apply unreserved_not.
  - cbn [app pct_decode]. rewrite decide_True by done.
    assert (b / 16 < 16) by (apply N.div_lt_upper_bound; lia).
    pose proof (N.mod_lt b 16 ltac:(lia)) as Hm. pose proof (N.div_mod b 16 ltac:(lia)) as Hd.
    rewrite !hex_value_digit by done. destruct (pct_decode t); [|done]. by rewrite <- Hd.
Qed.
Lemma pct_byte_safe b t : b < 256 → safe t → safe (pct_byte b ++ t).
Proof.
  intros Hb Ht. unfold pct_byte. destruct (is_unreserved b) eqn:E; cbn [app].
  - constructor; [by apply unreserved_iff|done].
  - assert (b / 16 < 16) by (apply N.div_lt_upper_bound; lia).
    pose proof (N.mod_lt b 16 ltac:(lia)) as Hm.
    constructor; [rewrite hex_value_digit by done; eauto|rewrite hex_value_digit by done; eauto|done].
Qed.

Lemma utf8_bytes t : Forall scalar t → Forall (λ b, b < 256) (utf8 t).
Proof.
  intros H. apply Forall_forall. intros b Hb. unfold utf8 in Hb.
  rewrite Forall_forall in H. revert Hb. clear -H. induction t as [|c t IH]; [set_solver|].
  rewrite fmap_cons. cbn [concat]. rewrite elem_of_app. intros [Hb|Hb].
  - eapply utf8_char_bytes; [|exact Hb]. assert (scalar c) as Hs by (apply H; set_solver).
    destruct Hs; lia.
  - apply IH; [|done]. intros x Hx. apply H. set_solver.
Qed.

Lemma pct_encode_bytes bs : Forall (λ b, b < 256) bs →
  safe (concat (pct_byte <$> bs)) ∧ pct_decode (concat (pct_byte <$> bs)) = Some bs.
Proof.
  induction 1 as [|b bs Hb Hbs [IH1 IH2]]; [split; [constructor|done]|].
  rewrite fmap_cons. cbn [concat]. split; [by apply pct_byte_safe|].
  rewrite pct_byte_decode by done. by rewrite IH2.
Qed.
Lemma pct_encode_spec v : Forall scalar v → safe (pct_encode v) ∧ pct_decode (pct_encode v) = Some (utf8 v).
Proof. intros H. apply pct_encode_bytes. by apply utf8_bytes. Qed.

Lemma pct_encode_app v1 v2 : pct_encode (v1 ++ v2) = pct_encode v1 ++ pct_encode v2.
Proof. unfold pct_encode. by rewrite utf8_app, fmap_app, concat_app. Qed.
Lemma utf8_char_high c b : 128 <= c → b ∈ utf8_char c → 128 <= b.
Proof.
  intros Hc. unfold utf8_char. rewrite (proj2 (N.ltb_ge c 128)) by lia.
  destruct (c <? 2048); [|destruct (c <? 65536)]; rewrite !elem_of_cons, elem_of_nil;
    generalize (c / 64), (c mod 64), (c / 4096), ((c / 64) mod 64), (c / 262144), ((c / 4096) mod 64);
    intros; naive_solver lia.
Qed.
Lemma hex_digit_upper n : hex_digit n = upper_hex n.
Proof. unfold hex_digit, upper_hex. destruct (n <? 10) eqn:E; [done|]. apply N.ltb_ge in E. lia. Qed.
Lemma pct_char c : concat (pct_byte <$> utf8_char c) = rfc_char false c.
Proof.
  unfold rfc_char. destruct (decide (c ∈ unreserved_chars)) as [Hc|Hc].
  - rewrite utf8_char_ascii by (by apply unreserved_low). simpl. rewrite app_nil_r.
    unfold pct_byte. apply unreserved_iff in Hc. by rewrite Hc.
  - rewrite decide_False by naive_solver. unfold escape_char. f_equal. apply list_fmap_ext.
    intros i b Hb. unfold pct_byte. destruct (is_unreserved b) eqn:E; [|by rewrite !hex_digit_upper]. exfalso.
    apply elem_of_list_lookup_2 in Hb. destruct (decide (c < 128)) as [Hl|Hh].
    + rewrite utf8_char_ascii in Hb by done. apply elem_of_list_singleton in Hb as ->.
      by apply Hc, unreserved_iff.
    + apply utf8_char_high in Hb; [|lia]. rewrite is_unreserved_high in E by done. done.
Qed.
Lemma pct_encode_cons c v : pct_encode (c :: v) = rfc_char false c ++ pct_encode v.
Proof.
  change (c :: v) with ([c] ++ v). rewrite pct_encode_app. f_equal. rewrite <- pct_char.
  unfold pct_encode, utf8. simpl. by rewrite app_nil_r.
Qed.
Lemma rfc_string_cons c v : rfc_string false (c :: v) = rfc_char false c ++ rfc_string false v.
Proof.
  cbn [rfc_string]. destruct v as [|a [|b v]]; [done|done|]. rewrite decide_False by naive_solver. done.
Qed.
Lemma pct_encode_rfc v : pct_encode v = rfc_string false v.
Proof.
  induction v as [|c v IH]; [done|]. by rewrite pct_encode_cons, rfc_string_cons, IH.
Qed.
Lemma pct_encode_id v : (∀ c, c ∈ v → c ∈ unreserved_chars) → pct_encode v = v.
Proof.
  induction v as [|c v IH]; intros H; [done|]. rewrite pct_encode_cons, IH by set_solver.
  unfold rfc_char. rewrite decide_True by set_solver. done.
Qed.
Lemma escape_char_length c : (3 <= length (escape_char c))%nat.
Proof.
  unfold escape_char. pose proof (utf8_char_nonempty c). destruct (utf8_char c); [done|].
  rewrite fmap_cons. simpl. lia.
Qed.
Lemma pct_encode_length v : (length v <= length (pct_encode v))%nat.
Proof.
  induction v as [|c v IH]; [done|]. rewrite pct_encode_cons, app_length. unfold rfc_char.
  repeat case_decide; simpl; [lia|naive_solver|]. pose proof (escape_char_length c). lia.
Qed.
(** Encoding leaves a text alone exactly if it has nothing to encode. *)
Lemma pct_encode_fix v : pct_encode v = v ↔ ∀ c, c ∈ v → c ∈ unreserved_chars.
Proof.
  split; [|apply pct_encode_id]. intros H c Hc. revert H.
  induction v as [|x v IH]; [set_solver|]. rewrite pct_encode_cons. unfold rfc_char.
  case_decide as Hx; [|rewrite decide_False by naive_solver].
  - intros [= H]. apply elem_of_cons in Hc as [->|Hc]; auto.
  - intros H. exfalso. assert (Hl : length (escape_char x ++ pct_encode v) = length (x :: v)) by (by rewrite H).
    rewrite app_length in Hl. simpl in Hl. pose proof (escape_char_length x). pose proof (pct_encode_length v). lia.
Qed.
Lemma rfc_string_reserved v : (∀ c, c ∈ v → c ∈ unreserved_chars ∨ c ∈ reserved_chars) → rfc_string true v = v.
Proof.
  intros H.
  assert (Hp : ∀ c, c ∈ v → c ≠ PERCENT).
  { intros c Hc ->. apply H in Hc as [Hc|Hc]; apply mem_existsb in Hc; vm_compute in Hc; done. }
  assert (Hch : ∀ c, c ∈ v → rfc_char true c = [c]).
  { intros c Hc. unfold rfc_char. case_decide; [done|]. rewrite decide_True; [done|].
    split; [done|]. apply H in Hc. naive_solver. }
  clear H. induction v as [|c v IH]; [done|]. cbn [rfc_string].
  assert (IH' : rfc_string true v = v).
  { apply IH; intros; [apply Hp|apply Hch]; set_solver. }
  assert (Hc : rfc_char true c = [c]) by (apply Hch; set_solver).
  destruct v as [|a [|b v]]; rewrite ?Hc, ?IH'; [done|done|].
  rewrite decide_False; [done|]. intros (_ & ? & _). apply (Hp c); [set_solver|done].
Qed.

(** *** Expansion *)
Lemma parts_defined o specs vars :
  omap (λ s, match vars !! v_name s with Some v => Some (part o s v) | None => None end) specs
  = (λ d, part o d.1 d.2) <$> defined_values vars specs.
Proof.
  induction specs as [|s specs IH]; [done|]. cbn. destruct (vars !! v_name s); cbn; [f_equal|]; exact IH.
Qed.
Lemma expand_multiple_parts o specs vars :
  expand_multiple o specs vars =
  match defined_values vars specs with
  | [] => []
  | ds => r_first (rfc_table o) ++ join_with (r_sep (rfc_table o)) ((λ d, part o d.1 d.2) <$> ds)
  end.
Proof.
  unfold expand_multiple. rewrite parts_defined. destruct (defined_values vars specs) as [|d ds]; [done|].
  by destruct o.
Qed.
Lemma part_shape o s v :
  part o s v = (if r_named (rfc_table o) then v_name s ++ lit "=" else []) ++
               encode_value (truncated s v) (bool_decide (o = OReserved)).
Proof.
  unfold part, truncated. destruct o; simpl; rewrite <- ?app_assoc; done.
Qed.

(** What each variable contributes is safe and decodes to its (truncated) value. *)
Lemma expansion_safe o specs vars : o ≠ OReserved →
  (∀ n v, vars !! n = Some v → Forall scalar v) →
  ∃ ts, Forall2 (λ d t, safe t ∧ pct_decode t = Some (utf8 (truncated d.1 d.2))) (defined_values vars specs) ts ∧
  expand_multiple o specs vars =
  match ts with
  | [] => []
  | _ => r_first (rfc_table o) ++ join_with (r_sep (rfc_table o))
          (zip_with (λ d t, (if r_named (rfc_table o) then v_name d.1 ++ lit "=" else []) ++ t)
                    (defined_values vars specs) ts)
  end.
Proof.
  intros Ho Hv. exists ((λ d, pct_encode (truncated d.1 d.2)) <$> defined_values vars specs). split.
  - assert (Hd : Forall (λ d : varspec * list N, Forall scalar d.2) (defined_values vars specs)).
    { clear -Hv. induction specs as [|s specs IH]; [constructor|]. simpl.
      destruct (vars !! v_name s) eqn:E; [|done]. constructor; [by eapply Hv|done]. }
    induction Hd as [|d ds Hd Hds IH]; [constructor|]. rewrite fmap_cons. constructor; [|done].
    apply pct_encode_spec. unfold truncated. destruct (v_mod d.1) as [[n|]|]; [|done|done].
    by apply Forall_take.
  - rewrite expand_multiple_parts. destruct (defined_values vars specs) as [|d ds]; [done|].
    rewrite fmap_cons. cbn [zip_with]. f_equal.
    assert (Hp : ∀ d, part o d.1 d.2 = (if r_named (rfc_table o) then v_name d.1 ++ lit "=" else []) ++ pct_encode (truncated d.1 d.2)).
    { intros d'. rewrite part_shape. rewrite bool_decide_eq_false_2 by done. done. }
    rewrite fmap_cons. rewrite Hp. f_equal. f_equal.
    clear -Hp. induction ds as [|d ds IH]; [done|]. rewrite !fmap_cons. cbn [zip_with]. by rewrite Hp, IH.
Qed.

(** Values on which the code follows the RFC. *)
Definition rfc_agrees (o : oper) (v : list N) : Prop :=
  match o with
  | OSimple | OLabel | OPath | OQuery | OCont => True
  | OParam => v ≠ []
  | OReserved => ∀ c, c ∈ v → c ∈ unreserved_chars ∨ c ∈ reserved_chars
  | OFragment => ∀ c, c ∈ v → c ∈ unreserved_chars
  end.
Lemma rfc_string_nonempty v : v ≠ [] → rfc_string false v ≠ [].
Proof.
  intros H E. pose proof (pct_encode_length v). rewrite pct_encode_rfc, E in H0. destruct v; [done|]. simpl in H0. lia.
Qed.
Lemma part_rfc o s v : rfc_agrees o (truncated s v) → part o s v = rfc_part (rfc_table o) s v.
Proof.
  intros H. rewrite part_shape. unfold rfc_part, encode_value.
  assert (Hn : ∀ x, v_name s ++ lit "=" ++ x = match x with [] => v_name s ++ lit "=" | _ => v_name s ++ lit "=" ++ x end).
  { intros [|]; done. }
  destruct o; cbn [rfc_table r_named r_reserved r_ifemp] in *; cbn [app];
    repeat first [rewrite bool_decide_eq_true_2 by done | rewrite bool_decide_eq_false_2 by done].
  - apply pct_encode_rfc.
  - symmetry. by apply rfc_string_reserved.
  - rewrite pct_encode_id by done. symmetry.
    apply rfc_string_reserved. intros. left. by apply H.
  - apply pct_encode_rfc.
  - apply pct_encode_rfc.
  - rewrite pct_encode_rfc.
    pose proof (rfc_string_nonempty _ H) as Hx.
    destruct (rfc_string false (truncated s v)); [done|]. by rewrite <- app_assoc.
  - rewrite pct_encode_rfc, <- app_assoc. apply Hn.
  - rewrite pct_encode_rfc, <- app_assoc. apply Hn.
Qed.
Lemma expand_rfc o specs vars :
  (∀ s v, s ∈ specs → vars !! v_name s = Some v → rfc_agrees o (truncated s v)) →
  expand_multiple o specs vars = rfc_expand o specs vars.
Proof.
  intros H. rewrite expand_multiple_parts. unfold rfc_expand.
  assert (Hd : (λ d, part o d.1 d.2) <$> defined_values vars specs
             = (λ d, rfc_part (rfc_table o) d.1 d.2) <$> defined_values vars specs).
  { induction specs as [|s specs IH]; [done|]. simpl. destruct (vars !! v_name s) as [v|] eqn:E.
    - rewrite !fmap_cons. rewrite IH by (intros; eapply H; [set_solver|done]). f_equal.
      apply part_rfc. eapply H; [set_solver|done].
    - apply IH. intros; eapply H; [set_solver|done]. }
  destruct (defined_values vars specs); [done|]. by rewrite Hd.
Qed.

(** Only the variables of the template matter. *)
Lemma expand_ext es vars1 vars2 : (∀ n, n ∈ variables es → vars1 !! n = vars2 !! n) →
  expand_map es vars1 = expand_map es vars2.
Proof.
  intros H. unfold expand_map. f_equal. induction es as [|e es IH]; [done|].
  rewrite !fmap_cons. f_equal.
  - destruct e as [t|o specs]; [done|]. simpl. rewrite !expand_multiple_parts.
    assert (Hd : defined_values vars1 specs = defined_values vars2 specs); [|by rewrite Hd].
    assert (Hs : ∀ s, s ∈ specs → vars1 !! v_name s = vars2 !! v_name s).
    { intros s Hs. apply H. unfold variables. simpl. apply elem_of_app. left. apply elem_of_list_fmap. eauto. }
    clear -Hs. induction specs as [|s specs IH]; [done|]. simpl. rewrite Hs by set_solver.
    rewrite IH by set_solver. done.
  - apply IH. intros n Hn. apply H. unfold variables. simpl. apply elem_of_app. by right.
Qed.
Lemma expand_undefined o specs vars : (∀ s, s ∈ specs → vars !! v_name s = None) → expand_multiple o specs vars = [].
Proof.
  intros H. rewrite expand_multiple_parts. assert (Hd : defined_values vars specs = []); [|by rewrite Hd].
  induction specs as [|s specs IH]; [done|]. simpl. rewrite H by set_solver. apply IH. set_solver.
Qed.

(** [expand] uses the last pair given for a name. *)
Lemma var_map_last vars n :
  var_map vars !! n = snd <$> last (filter (λ kv, kv.1 = n) vars).
Proof.
  unfold var_map. induction vars as [|kv vars IH] using rev_ind; [done|].
  rewrite fold_left_app, filter_app. simpl. destruct (decide (kv.1 = n)) as [<-|Hne].
  - rewrite lookup_insert, filter_cons_True, filter_nil by done. by rewrite last_snoc.
  - rewrite lookup_insert_ne, filter_cons_False, filter_nil, app_nil_r by done. apply IH.
Qed.

(** *** Parsing *)
Lemma find_expr_Some t a i b : find_expr t = Some (a, i, b) →
  t = a ++ LBRACE :: i ++ RBRACE :: b ∧ RBRACE ∉ i ∧ i ≠ [] ∧
  (∀ x y z, a ++ LBRACE :: i ++ [RBRACE] = x ++ LBRACE :: y ++ RBRACE :: z → y ≠ [] → RBRACE ∉ y → (length a <= length x)%nat).
Proof.
  revert a i b. induction t as [|c t IH]; intros a i b; cbn [find_expr]; [done|].
  assert (Hskip : match find_expr t with Some (b0, i0, a0) => Some (c :: b0, i0, a0) | None => None end = Some (a, i, b) →
    (c = LBRACE → ∀ y z, t = y ++ RBRACE :: z → y ≠ [] → RBRACE ∈ y) →
    c :: t = a ++ LBRACE :: i ++ RBRACE :: b ∧ RBRACE ∉ i ∧ i ≠ [] ∧
    (∀ x y z, a ++ LBRACE :: i ++ [RBRACE] = x ++ LBRACE :: y ++ RBRACE :: z → y ≠ [] → RBRACE ∉ y → (length a <= length x)%nat)).
  { intros H Hc. destruct (find_expr t) as [[[b0 i0] a0]|]; [|done]. injection H as [= <- <- <-].
    destruct (IH b0 i0 a0 eq_refl) as (Ht & H1 & H2 & H3). split; [by rewrite Ht|]. split; [done|]. split; [done|].
    intros x y z Hx Hy Hy2. destruct x as [|x0 x]; simpl in Hx; injection Hx as Hc0 Hx.
    - exfalso. apply Hy2. apply (Hc Hc0 y (z ++ a0)); [|done]. rewrite Ht.
      transitivity ((b0 ++ LBRACE :: i0 ++ [RBRACE]) ++ a0); [by rewrite <- !app_assoc; simpl; rewrite <- app_assoc|].
      rewrite Hx. by rewrite <- app_assoc.
    - simpl. apply le_n_S. by eapply H3. }
  destruct (decide (c = LBRACE)) as [->|Hne].
  - destruct (split_once RBRACE t) as [[[|i0 inner] after]|] eqn:E.
    + intros H. apply Hskip; [done|]. intros _ y z Hyz Hy. apply split_once_Some in E as [E _].
      destruct y as [|y0 y]; [done|]. simpl in *. rewrite Hyz in E. injection E as -> _. set_solver.
    + intros [= <- <- <-]. apply split_once_Some in E as [-> Hni]. split; [done|]. split; [done|]. split; [done|].
      intros. simpl. lia.
    + intros H. apply Hskip; [done|]. intros _ y z Hyz Hy. apply split_once_None in E. subst t. set_solver.
  - intros H. apply Hskip; [done|]. intros ?. done.
Qed.
Lemma find_expr_None t : find_expr t = None ↔ no_expr t.
Proof.
  unfold no_expr. induction t as [|c t IH]; cbn [find_expr].
  - split; [|done]. intros _ a i b H. by destruct a.
  - assert (Hs : match find_expr t with Some (b0, i0, a0) => Some (c :: b0, i0, a0) | None => None end = None ↔ find_expr t = None).
    { destruct (find_expr t) as [[[]]|]; done. }
    destruct (decide (c = LBRACE)) as [->|Hne].
    + destruct (split_once RBRACE t) as [[[|i0 inner] after]|] eqn:E.
      * rewrite Hs, IH. apply split_once_Some in E as [E _]. split.
        -- intros H a i b Ht Hi. destruct a as [|a0 a]; simpl in Ht; injection Ht as Ht.
           ++ destruct i as [|i0 i]; [done|]. simpl in *. rewrite Ht in E. injection E as -> _. set_solver.
           ++ by eapply H.
        -- intros H a i b -> Hi. by apply (H (LBRACE :: a) i b).
      * split; [done|]. intros H. apply split_once_Some in E as [-> Hn]. exfalso. apply Hn.
        by apply (H [] (i0 :: inner) after).
      * rewrite Hs, IH. apply split_once_None in E. split.
        -- intros H a i b Ht Hi. destruct a as [|a0 a]; simpl in Ht; injection Ht as Ht.
           ++ subst t. set_solver.
           ++ by eapply H.
        -- intros H a i b -> Hi. by apply (H (LBRACE :: a) i b).
    + rewrite Hs, IH. split.
      * intros H a i b Ht Hi. destruct a as [|a0 a]; simpl in Ht; injection Ht as Hc Ht; [done|]. by eapply H.
      * intros H a i b -> Hi. by apply (H (c :: a) i b).
Qed.

(** A parsed template is its text cut into literals and expressions. *)
Lemma parse_loop_text f t es : parse_loop f t = Some es →
  ∃ srcs, concat srcs = t ∧
  Forall2 (λ e src, match e with
                    | ELit l => src = l ∧ l ≠ [] ∧ no_expr l
                    | EMulti _ _ => ∃ inner, src = LBRACE :: inner ++ [RBRACE] ∧ inner ≠ [] ∧ RBRACE ∉ inner ∧
                                             parse_expression inner = Some e
                    end) es srcs.
Proof.
  revert t es. induction f as [|f IH]; intros t es; cbn [parse_loop].
  - destruct (find_expr t) as [[[a i] b]|] eqn:E; [done|]. apply find_expr_None in E.
    intros [= <-]. destruct t as [|c t]; [exists []; by split; [|constructor]|].
    exists [c :: t]. split; [simpl; by rewrite app_nil_r|]. constructor; [|constructor]. done.
  - destruct (find_expr t) as [[[a i] b]|] eqn:E.
    + pose proof E as E'. apply find_expr_Some in E as (Ht & Hi1 & Hi2 & Hleft).
      destruct (parse_expression i) as [e|] eqn:Ee; [|done].
      destruct (parse_loop f b) as [es'|] eqn:Eb; [|done]. intros [= <-].
      destruct (IH _ _ Eb) as (srcs & Hc & Hf).
      assert (He : ∃ o specs, e = EMulti o specs).
      { unfold parse_expression in Ee. destruct i; [done|]. destruct (operator_of (n :: i)) as [o vs].
        destruct (mapM _ _); [|done]. injection Ee as <-. eauto. }
      destruct He as (o & specs & ->).
      assert (Hexp : ∃ inner, LBRACE :: i ++ [RBRACE] = LBRACE :: inner ++ [RBRACE] ∧ inner ≠ [] ∧ RBRACE ∉ inner ∧
                                             parse_expression inner = Some (EMulti o specs)) by eauto.
      destruct a as [|a0 a].
      * exists ((LBRACE :: i ++ [RBRACE]) :: srcs). split.
        -- cbn [concat]. rewrite Hc, Ht. simpl. by rewrite <- app_assoc.
        -- by constructor.
      * exists ((a0 :: a) :: (LBRACE :: i ++ [RBRACE]) :: srcs). split.
        -- cbn [concat]. rewrite Hc, Ht. simpl. by rewrite <- app_assoc.
        -- constructor; [|by constructor]. split; [done|]. split; [done|].
           intros x y z Hx Hy. destruct (decide (RBRACE ∈ y)) as [|Hn]; [done|]. exfalso.
           assert (Hl : (length (a0 :: a) <= length x)%nat).
           { apply (Hleft x y (z ++ LBRACE :: i ++ [RBRACE])); [|done|done]. rewrite Hx.
             rewrite <- app_assoc. simpl. rewrite <- app_assoc. done. }
           rewrite Hx in Hl. rewrite app_length in Hl. simpl in Hl. lia.
    + apply find_expr_None in E.
      intros [= <-]. destruct t as [|c t]; [exists []; by split; [|constructor]|].
      exists [c :: t]. split; [simpl; by rewrite app_nil_r|]. constructor; [|constructor]. done.
Qed.

(** Everything accepted is well-formed. *)
Lemma parse_var_spec_good spec s : parse_var_spec spec = Some s → good_spec s.
Proof.
  unfold parse_var_spec. destruct spec as [|c spec]; [done|]. case_decide.
  - destruct (valid_name _) eqn:E; [|done]. intros [= <-]. split; [by apply valid_name_iff|done].
  - destruct (split_once COLON (c :: spec)) as [[name len]|].
    + destruct (valid_name name) eqn:E; [|done]. destruct (parse_unsigned u64_max len) as [n|]; [|done].
      destruct ((n =? 0) || (10000 <? n)) eqn:En; [done|]. intros [= <-].
      apply orb_false_iff in En as [E1 E2]. apply N.eqb_neq in E1. apply N.ltb_ge in E2.
      split; [by apply valid_name_iff|]. intros n' [= <-]. lia.
    + destruct (valid_name (c :: spec)) eqn:E; [|done]. intros [= <-]. split; [by apply valid_name_iff|done].
Qed.
Lemma parse_expression_good inner e : parse_expression inner = Some e →
  ∃ o specs, e = EMulti o specs ∧ specs ≠ [] ∧ Forall good_spec specs.
Proof.
  unfold parse_expression. destruct inner as [|c inner]; [done|].
  destruct (operator_of (c :: inner)) as [o vs].
  destruct (mapM (λ v, parse_var_spec (trim_by is_white v)) (split_on COMMA vs)) as [specs|] eqn:E; [|done].
  intros [= <-]. exists o, specs. split; [done|]. apply mapM_Some_1 in E. split.
  - intros ->. inversion E. by destruct (split_on_nonempty COMMA vs).
  - clear -E. induction E as [|x s xs ss Hx Hf IH]; constructor; [|done]. by eapply parse_var_spec_good.
Qed.

(** Printing a well-formed template and parsing it gives it back. *)
Lemma name_rest_not c x : existsb (N.eqb x) name_rest = false → c ∈ name_rest → c ≠ x.
Proof. intros Hx Hc ->. apply mem_existsb in Hc. congruence. Qed.
Lemma spec_text_chars s c : good_spec s → c ∈ spec_text s → c ∈ name_rest ++ lit "*:0123456789".
Proof.
  intros [Hn Hp] Hc. unfold spec_text in Hc. apply elem_of_app in Hc as [Hc|Hc].
  - apply elem_of_app. left. by eapply good_name_chars.
  - apply elem_of_app. right. destruct (v_mod s) as [[n|]|]; [| |set_solver].
    + apply elem_of_app in Hc as [Hc|Hc]; [apply elem_of_list_singleton in Hc as ->; by apply mem_existsb|].
      apply show_N_digits in Hc. apply mem_existsb.
      assert (Hb : (λ c, (c <? 48) || existsb (N.eqb c) (lit "*:0123456789")) c = true).
      { refine (below_ind (λ c, (c <? 48) || existsb (N.eqb c) (lit "*:0123456789")) 58 c _ _); [vm_compute; reflexivity|lia]. }
      simpl in Hb. apply orb_true_iff in Hb as [Hb|Hb]; [apply N.ltb_lt in Hb; lia|done].
    + apply elem_of_list_singleton in Hc as ->. by apply mem_existsb.
Qed.
Lemma spec_text_not s x : existsb (N.eqb x) (name_rest ++ lit "*:0123456789") = false → good_spec s → x ∉ spec_text s.
Proof. intros Hx Hs Hc. apply spec_text_chars in Hc; [|done]. apply mem_existsb in Hc. congruence. Qed.
Lemma spec_text_nonempty s : good_spec s → spec_text s ≠ [].
Proof. intros [(c & r & H & _) _]. unfold spec_text. by rewrite H. Qed.
Lemma not_white_char c : c ∈ name_rest ++ lit "*:0123456789" → is_white c = false.
Proof.
  intros H. assert (Hb : forallb (λ c, negb (is_white c)) (name_rest ++ lit "*:0123456789") = true) by (vm_compute; reflexivity).
  rewrite forallb_forall in Hb. apply elem_of_list_In, Hb in H. by apply negb_true_iff in H.
Qed.
Lemma trim_spec_text s : good_spec s → trim_by is_white (spec_text s) = spec_text s.
Proof.
  intros Hs. assert (H := trim_by_pad is_white [] (spec_text s) []). simpl in H. rewrite app_nil_r in H. apply H.
  - set_solver.
  - set_solver.
  - intros x Hx. apply not_white_char, (spec_text_chars s); [done|]. by apply head_Some_elem_of.
  - intros x Hx. apply not_white_char, (spec_text_chars s); [done|]. apply last_Some in Hx as [l ->]. set_solver.
  - by apply spec_text_nonempty.
Qed.
Lemma last_app_nonempty {A} (a b : list A) : b ≠ [] → last (a ++ b) = last b.
Proof.
  intros H. destruct b as [|x b _] using rev_ind; [done|]. by rewrite app_assoc, !last_snoc.
Qed.
Lemma parse_spec_text s : good_spec s → parse_var_spec (spec_text s) = Some s.
Proof.
  intros Hs. pose proof (spec_text_nonempty s Hs) as Hne. pose proof Hs as [Hn Hp].
  unfold parse_var_spec. destruct (spec_text s) as [|c0 t0] eqn:E; [done|]. rewrite <- E in *. clear Hne.
  assert (Hcolon : COLON ∉ v_name s).
  { intros Hc. eapply good_name_chars in Hc; [|done]. apply mem_existsb in Hc. by vm_compute in Hc. }
  assert (Hnl : ∀ x, last (v_name s) = Some x → x ∈ name_rest).
  { intros x Hx. eapply good_name_chars; [done|]. apply last_Some in Hx as [l ->]. set_solver. }
  unfold spec_text in *. destruct s as [name md]. cbn [v_name v_mod] in *. destruct md as [[n|]|].
  - rewrite decide_False.
    2:{ rewrite app_assoc. rewrite last_app_nonempty by apply show_N_nonempty.
        intros Hl. apply last_Some in Hl as [l Hl].
        assert (Hd : STAR ∈ show_N n) by (rewrite Hl; set_solver). apply show_N_digits in Hd. unfold STAR in Hd. lia. }
    change (lit ":" ++ show_N n) with (COLON :: show_N n). rewrite split_once_app by done.
    rewrite (proj2 (valid_name_iff name)) by done. specialize (Hp n eq_refl).
    rewrite parse_show_N by (unfold u64_max; lia).
    rewrite (proj2 (N.eqb_neq n 0)) by lia. by rewrite (proj2 (N.ltb_ge 10000 n)) by lia.
  - rewrite decide_True by (change (lit "*") with [STAR]; by rewrite last_snoc).
    rewrite app_length. change (length (lit "*")) with 1%nat.
    replace (length name + 1 - 1)%nat with (length name) by lia. rewrite take_app.
    by rewrite (proj2 (valid_name_iff name)).
  - rewrite app_nil_r in *. rewrite decide_False.
    2:{ intros Hl. apply Hnl in Hl. apply mem_existsb in Hl. by vm_compute in Hl. }
    apply split_once_None in Hcolon. rewrite Hcolon. by rewrite (proj2 (valid_name_iff name)).
Qed.

Lemma join_head l ls sep : l ≠ [] → head (join_with sep (l :: ls)) = head (l : list N).
Proof. intros H. destruct l as [|c l]; [done|]. by destruct ls. Qed.
Lemma operator_text o s specs : good_spec s →
  operator_of (op_text o ++ join_with (lit ",") (spec_text <$> s :: specs))
  = (o, join_with (lit ",") (spec_text <$> s :: specs)).
Proof.
  intros Hs. destruct o; try done. cbn [op_text app].
  assert (Hh : ∃ c, head (join_with (lit ",") (spec_text <$> s :: specs)) = Some c ∧ c ∈ name_first).
  { rewrite fmap_cons, join_head by (by apply spec_text_nonempty). destruct Hs as [(c & r & Hn & Hc & _) _].
    exists c. split; [|done]. unfold spec_text. by rewrite Hn. }
  destruct Hh as (c & Hh & Hc). destruct (join_with (lit ",") (spec_text <$> s :: specs)) as [|c' r]; [done|].
  injection Hh as ->. unfold operator_of.
  assert (Hx : ∀ x, existsb (N.eqb x) name_first = false → c ≠ x).
  { intros x Hx ->. apply mem_existsb in Hc. congruence. }
  repeat (rewrite decide_False by (by apply Hx)). done.
Qed.
Lemma parse_expr_text o specs : specs ≠ [] → Forall good_spec specs →
  parse_expression (op_text o ++ join_with (lit ",") (spec_text <$> specs)) = Some (EMulti o specs).
Proof.
  intros Hne Hf. destruct specs as [|s specs]; [done|].
  assert (Hs : good_spec s) by (by inversion Hf). unfold parse_expression.
  rewrite operator_text by done.
  assert (Hj : op_text o ++ join_with (lit ",") (spec_text <$> s :: specs) ≠ []).
  { rewrite fmap_cons. intros H. apply app_eq_nil in H as [_ H].
    pose proof (join_head (spec_text s) (spec_text <$> specs) (lit ",") (spec_text_nonempty s Hs)) as H2.
    rewrite H in H2. pose proof (spec_text_nonempty s Hs). by destruct (spec_text s). }
  destruct (op_text o ++ _) as [|c0 t0]; [done|].
  change (lit ",") with [COMMA]. rewrite split_on_join; [|done|].
  - assert (Hm : mapM (λ v, parse_var_spec (trim_by is_white v)) (spec_text <$> s :: specs) = Some (s :: specs)).
    { apply mapM_Some_2. clear -Hf. induction Hf as [|s0 ss Hs0 Hf IH]; [constructor|]. rewrite fmap_cons. constructor; [|done].
      rewrite trim_spec_text by done. by apply parse_spec_text. }
    by rewrite Hm.
  - apply Forall_fmap. eapply Forall_impl; [exact Hf|]. intros s' Hs'. by apply spec_text_not.
Qed.

Lemma find_expr_app l inner rest : LBRACE ∉ l → inner ≠ [] → RBRACE ∉ inner →
  find_expr (l ++ LBRACE :: inner ++ RBRACE :: rest) = Some (l, inner, rest).
Proof.
  intros Hl Hi Hr. induction l as [|c l IH].
  - cbn [app find_expr]. rewrite decide_True by done. rewrite split_once_app by done. by destruct inner.
  - cbn [app find_expr]. rewrite decide_False by set_solver. rewrite IH by set_solver. done.
Qed.

Lemma expr_inner o specs : specs ≠ [] → Forall good_spec specs →
  op_text o ++ join_with (lit ",") (spec_text <$> specs) ≠ [] ∧
  RBRACE ∉ op_text o ++ join_with (lit ",") (spec_text <$> specs).
Proof.
  intros Hne Hf. split.
  - destruct specs as [|s specs]; [done|]. assert (Hs : good_spec s) by (by inversion Hf).
    rewrite fmap_cons. intros H. apply app_eq_nil in H as [_ H].
    pose proof (join_head (spec_text s) (spec_text <$> specs) (lit ",") (spec_text_nonempty s Hs)) as H2.
    rewrite H in H2. pose proof (spec_text_nonempty s Hs). by destruct (spec_text s).
  - rewrite elem_of_app. intros [H|H].
    + assert (Hb : existsb (N.eqb RBRACE) (op_text o) = false) by (by destruct o).
      apply mem_existsb in H. congruence.
    + clear Hne. revert H. induction Hf as [|s ss Hs Hf IH]; [set_solver|].
      destruct ss as [|s2 ss].
      * simpl. by apply spec_text_not.
      * change (join_with (lit ",") (spec_text <$> s :: s2 :: ss))
          with (spec_text s ++ lit "," ++ join_with (lit ",") (spec_text <$> s2 :: ss)).
        rewrite !elem_of_app. intros [H|[H|H]]; [|by apply elem_of_list_singleton in H|by apply IH].
        revert H. by apply spec_text_not.
Qed.

Lemma parse_print f es : Forall good_expr es → alternating es →
  (length es <= f)%nat → parse_loop f (concat (expr_text <$> es)) = Some es.
Proof.
  revert f. induction es as [es IH] using (induction_ltof1 _ length). unfold ltof in IH.
  intros f Hg Ha Hf. destruct es as [|e es]; [by destruct f|].
  inversion Hg as [|? ? He Hes]; subst. destruct e as [l|o specs].
  - destruct He as [Hl1 Hl2]. destruct es as [|e2 es].
    + simpl. rewrite app_nil_r. assert (Hn : find_expr l = None).
      { apply find_expr_None. intros a i b -> _. set_solver. }
      destruct f; cbn [parse_loop]; rewrite Hn; by destruct l.
    + destruct Ha as [Ha1 Ha2]. destruct e2 as [l2|o specs]; [by specialize (Ha1 eq_refl)|].
      inversion Hes as [|? ? He Hes2]; subst. destruct He as [He1 He2].
      destruct (expr_inner o specs He1 He2) as [Hi1 Hi2].
      destruct f as [|f]; [simpl in Hf; lia|]. rewrite !fmap_cons. cbn [concat expr_text parse_loop].
      replace (l ++ (lit "{" ++ op_text o ++ join_with (lit ",") (spec_text <$> specs) ++ lit "}") ++ concat (expr_text <$> es))
        with (l ++ LBRACE :: (op_text o ++ join_with (lit ",") (spec_text <$> specs)) ++ RBRACE :: concat (expr_text <$> es))
        by (change (lit "{") with [LBRACE]; change (lit "}") with [RBRACE]; rewrite <- !app_assoc; done).
      rewrite find_expr_app by done. rewrite parse_expr_text by done.
      rewrite (IH es); [|simpl; lia|done| |simpl in Hf; lia].
      * by destruct l.
      * destruct es as [|e3 es]; [done|]. by destruct Ha2.
  - destruct He as [He1 He2]. destruct (expr_inner o specs He1 He2) as [Hi1 Hi2].
    destruct f as [|f]; [simpl in Hf; lia|]. rewrite !fmap_cons. cbn [concat expr_text parse_loop].
    replace ((lit "{" ++ op_text o ++ join_with (lit ",") (spec_text <$> specs) ++ lit "}") ++ concat (expr_text <$> es))
        with ([] ++ LBRACE :: (op_text o ++ join_with (lit ",") (spec_text <$> specs)) ++ RBRACE :: concat (expr_text <$> es))
        by (change (lit "{") with [LBRACE]; change (lit "}") with [RBRACE]; rewrite <- !app_assoc; done).
    rewrite find_expr_app by (done || set_solver). rewrite parse_expr_text by done.
    rewrite (IH es); [done|simpl; lia|done| |simpl in Hf; lia].
    destruct es as [|e3 es]; [done|]. by destruct Ha.
Qed.
Lemma expr_text_length es : Forall good_expr es → (length es <= length (concat (expr_text <$> es)))%nat.
Proof.
  induction 1 as [|e es He Hes IH]; [done|]. rewrite fmap_cons. cbn [concat]. rewrite app_length. simpl length at 1.
  assert (expr_text e ≠ []).
  { destruct e as [l|o specs]; [by destruct He|done]. }
  destruct (expr_text e); [done|]. simpl. lia.
Qed.
Lemma parse_print_all es : Forall good_expr es → alternating es →
  parse_template (concat (expr_text <$> es)) = Some es.
Proof. intros Hg Ha. apply parse_print; [done|done|]. by apply expr_text_length. Qed.

(** *** Matching *)
Lemma run_len_exact cls v rest : (∀ c, c ∈ v → cls c = true) →
  (∀ c, head rest = Some c → cls c = false) → run_len cls (v ++ rest) = length v.
Proof.
  intros Hv Hr. induction v as [|c v IH]; cbn [app run_len].
  - destruct rest as [|c r]; [done|]. cbn [run_len]. by rewrite (Hr c eq_refl).
  - rewrite Hv by set_solver. simpl. f_equal. apply IH. set_solver.
Qed.
Lemma match_group cls ps v rest cs : v ≠ [] → (∀ c, c ∈ v → cls c = true) →
  (∀ c, head rest = Some c → cls c = false) → match_pieces ps rest = Some cs →
  match_pieces (PGroup cls :: ps) (v ++ rest) = Some (v :: cs).
Proof.
  intros Hne Hv Hr Hm. cbn [match_pieces]. rewrite run_len_exact by done.
  destruct (length v) as [|n] eqn:E; [by destruct v|]. cbn [try_lens]. rewrite <- E.
  rewrite drop_app, take_app, Hm. done.
Qed.
Lemma strip_prefix_app p t : strip_prefix p (p ++ t) = Some t.
Proof. induction p as [|x p IH]; [done|]. cbn [app strip_prefix]. by rewrite decide_True. Qed.
Lemma not_in_spec l c : not_in l c = true ↔ c ∉ l.
Proof.
  unfold not_in. rewrite forallb_forall. split.
  - intros H Hc. apply elem_of_list_In, H in Hc. rewrite N.eqb_refl in Hc. done.
  - intros H x Hx. apply negb_true_iff, N.eqb_neq. intros ->. by apply H, elem_of_list_In.
Qed.
Lemma pieces_single o s :
  pieces_of (EMulti o [s]) =
  (let l := r_first (rfc_table o) ++ (if r_named (rfc_table o) then v_name s ++ [EQUALS] else []) in
   match l with [] => [] | _ => [PLit l] end) ++ [PGroup (not_in (stops o))].
Proof. by destruct o. Qed.

(** The values captured, in order. *)
Fixpoint values (vars : vmap) (es : list expr) : list (list N) :=
  match es with
  | [] => []
  | EMulti _ [s] :: es => default [] (vars !! v_name s) :: values vars es
  | _ :: es => values vars es
  end.
Lemma expand_single o s v vars : vars !! v_name s = Some v → truncated s v = v →
  (o = OReserved ∨ ∀ c, c ∈ v → c ∈ unreserved_chars) →
  expand_multiple o [s] vars =
  (r_first (rfc_table o) ++ (if r_named (rfc_table o) then v_name s ++ [EQUALS] else [])) ++ v.
Proof.
  intros Hv Ht Hc. rewrite expand_multiple_parts. simpl. rewrite Hv. simpl.
  rewrite part_shape. rewrite Ht. rewrite <- app_assoc. f_equal.
  change (lit "=") with [EQUALS]. f_equal. unfold encode_value.
  destruct Hc as [->|Hc]; [by rewrite bool_decide_eq_true_2|]. case_bool_decide; [done|]. by apply pct_encode_id.
Qed.
Lemma expand_head e es vars c : recoverable vars (e :: es) → first_char e = Some c →
  head (expand_map (e :: es) vars) = Some c.
Proof.
  intros Hr Hc. unfold expand_map. rewrite fmap_cons. cbn [concat]. destruct e as [t|o specs]; simpl in *.
  - by destruct t.
  - destruct specs as [|s [|]]; [done| |done]. destruct Hr as [(v & Hv & Ht & Hne & Hu & _) _].
    rewrite (expand_single o s v) by done. by destruct (r_first (rfc_table o)).
Qed.
Lemma match_expand es vars : recoverable vars es →
  match_pieces (concat (pieces_of <$> es)) (expand_map es vars) = Some (values vars es).
Proof.
  induction es as [|e es IH]; intros Hr; [done|]. unfold expand_map. rewrite !fmap_cons. cbn [concat].
  fold (expand_map es vars). destruct e as [t|o specs].
  - destruct Hr as [Ht Hr]. cbn [pieces_of app match_pieces expand_expr]. rewrite strip_prefix_app. by apply IH.
  - destruct specs as [|s [|]]; [done| |done]. cbn [recoverable] in Hr.
    destruct Hr as [(v & Hv & Ht & Hne & Hu & Hs) [Hnext Hr]].
    cbn [expand_expr values]. rewrite (expand_single o s v) by done. rewrite pieces_single.
    assert (Hg : match_pieces (PGroup (not_in (stops o)) :: concat (pieces_of <$> es)) (v ++ expand_map es vars)
                 = Some (v :: values vars es)).
    { apply match_group; [done| | |by apply IH].
      - intros c Hc. apply not_in_spec. by apply Hs.
      - intros c Hc. destruct es as [|e es]; [done|]. destruct Hnext as (c' & Hf & Hin).
        rewrite (expand_head e es vars c') in Hc by done. injection Hc as <-.
        destruct (not_in (stops o) c') eqn:E; [|done]. apply not_in_spec in E. done. }
    rewrite Hv. simpl default. cbn zeta.
    destruct (r_first (rfc_table o) ++ (if r_named (rfc_table o) then v_name s ++ [EQUALS] else [])) as [|c l] eqn:E.
    + exact Hg.
    + rewrite <- !app_assoc. cbn [app]. cbn [match_pieces]. change (c :: l ++ v ++ expand_map es vars) with ((c :: l) ++ (v ++ expand_map es vars)).
      rewrite strip_prefix_app. exact Hg.
Qed.
Lemma assign_lookup es vars m n : recoverable vars es →
  assign es (values vars es) m !! n = if decide (n ∈ variables es) then vars !! n else m !! n.
Proof.
  revert m. induction es as [|e es IH]; intros m Hr; [done|].
  destruct e as [t|o specs].
  - destruct Hr as [_ Hr]. cbn [assign get_var_name values]. rewrite IH by done. done.
  - destruct specs as [|s [|]]; [done| |done]. destruct Hr as [(v & Hv & _) [_ Hr]].
    cbn [assign get_var_name values]. rewrite Hv. simpl default. rewrite IH by done.
    assert (Hvar : variables (EMulti o [s] :: es) = v_name s :: variables es) by done. rewrite Hvar.
    destruct (decide (n ∈ variables es)) as [Hin|Hin].
    + rewrite decide_True by set_solver. done.
    + destruct (decide (n = v_name s)) as [->|Hne].
      * rewrite lookup_insert, decide_True by set_solver. done.
      * rewrite lookup_insert_ne, decide_False by set_solver. done.
Qed.
Lemma match_recovers es vars : recoverable vars es →
  ∃ m, match_uri es (expand_map es vars) = Some m ∧
  ∀ n, m !! n = if decide (n ∈ variables es) then vars !! n else None.
Proof.
  intros Hr. unfold match_uri. rewrite match_expand by done. eexists. split; [done|].
  intros n. rewrite assign_lookup by done. by rewrite lookup_empty.
Qed.

(** A single variable comes back percent-encoded. *)
Lemma safe_no_slash t c : safe t → c ∈ t → c ≠ SLASH.
Proof.
  assert (Hhex : ∀ x, is_Some (hex_value x) → x ≠ SLASH).
  { intros x [y H] ->. by vm_compute in H. }
  induction 1 as [|c0 t Hc Ht IH|a b t Ha Hb Ht IH]; [set_solver| |].
  - intros [->|?]%elem_of_cons; [|auto]. by apply unreserved_not.
  - rewrite !elem_of_cons. intros [->|[->|[->|?]]]; auto.
Qed.
Lemma match_single_encoded x v : v ≠ [] → Forall scalar v →
  match_uri [EMulti OSimple [MkSpec x None]] (expand_map [EMulti OSimple [MkSpec x None]] {[ x := v ]})
  = Some {[ x := pct_encode v ]}.
Proof.
  intros Hv Hs. unfold expand_map. simpl. rewrite app_nil_r.
  rewrite expand_multiple_parts. simpl. rewrite lookup_singleton. simpl. rewrite part_shape. cbn [rfc_table r_named app].
  unfold match_uri. change (concat (pieces_of <$> [EMulti OSimple [MkSpec x None]])) with [PGroup (not_in [SLASH])].
  change (encode_value (truncated (MkSpec x None) v) (bool_decide (OSimple = OReserved))) with (pct_encode v).
  destruct (pct_encode_spec v Hs) as [Hsafe _].
  pose proof (match_group (not_in [SLASH]) [] (pct_encode v) [] []) as H. rewrite app_nil_r in H.
  rewrite H; [done| | |done|done].
  - pose proof (pct_encode_length v). destruct v; [done|]. intros E. rewrite E in H0. simpl in H0. lia.
  - intros c Hc. apply not_in_spec. apply not_elem_of_cons. split; [|set_solver]. by eapply safe_no_slash.
Qed.

(** Two variables side by side: the first one takes everything but the last character. *)
Lemma match_two_adjacent a b u c : a ≠ b → u ≠ [] → (∀ x, x ∈ u ++ [c] → x ≠ SLASH) →
  match_uri [EMulti OSimple [MkSpec a None]; EMulti OSimple [MkSpec b None]] (u ++ [c])
  = Some {[ a := u; b := [c] ]}.
Proof.
  intros Hab Hu Hs. unfold match_uri.
  change (concat (pieces_of <$> [EMulti OSimple [MkSpec a None]; EMulti OSimple [MkSpec b None]]))
    with [PGroup (not_in [SLASH]); PGroup (not_in [SLASH])].
  assert (Hc : ∀ x, x ∈ u ++ [c] → not_in [SLASH] x = true).
  { intros x Hx. apply not_in_spec. apply not_elem_of_cons. split; [by apply Hs|set_solver]. }
  assert (E : match_pieces [PGroup (not_in [SLASH]); PGroup (not_in [SLASH])] (u ++ [c]) = Some [u; [c]]).
  { cbn [match_pieces].
    pose proof (run_len_exact (not_in [SLASH]) (u ++ [c]) [] Hc ltac:(done)) as Hr. rewrite app_nil_r in Hr.
    rewrite Hr. rewrite app_length. simpl length. replace (length u + 1)%nat with (S (length u)) by lia.
    cbn [try_lens]. rewrite (drop_ge (u ++ [c])) by (rewrite app_length; simpl; lia). cbn [run_len try_lens].
    destruct (length u) as [|n] eqn:El; [by destruct u|]. cbn [try_lens]. rewrite <- El.
    rewrite drop_app, take_app.
    pose proof (run_len_exact (not_in [SLASH]) [c] [] ltac:(intros x Hx; apply Hc; set_solver) ltac:(done)) as Hr1.
    rewrite app_nil_r in Hr1. rewrite Hr1. simpl. done. }
  rewrite E. cbn [assign get_var_name v_name]. f_equal. rewrite insert_commute by congruence. done.
Qed.

(** Accepted templates alternate. *)
Lemma parse_loop_alternating f t es : parse_loop f t = Some es → alternating es.
Proof.
  revert t es. induction f as [|f IH]; intros t es; cbn [parse_loop].
  - destruct (find_expr t) as [[[a i] b]|]; [done|]. intros [= <-]. by destruct t.
  - destruct (find_expr t) as [[[a i] b]|]; [|intros [= <-]; by destruct t].
    destruct (parse_expression i) as [e|] eqn:Ee; [|done].
    destruct (parse_loop f b) as [es'|] eqn:Eb; [|done]. intros [= <-]. apply IH in Eb.
    apply parse_expression_good in Ee as (o & specs & -> & _).
    destruct a; cbn [alternating]; destruct es'; cbn [alternating is_lit]; naive_solver.
Qed.
Lemma parse_template_good t es : parse_template t = Some es →
  alternating es ∧
  Forall (λ e, match e with
               | ELit l => l ≠ [] ∧ no_expr l
               | EMulti _ specs => specs ≠ [] ∧ Forall good_spec specs
               end) es.
Proof.
  intros H. split; [by eapply parse_loop_alternating|]. apply parse_loop_text in H as (srcs & _ & H).
  induction H as [|e src es srcs He Hf IH]; constructor; [|done]. destruct e as [l|o specs]; [naive_solver|].
  destruct He as (inner & _ & _ & _ & He). apply parse_expression_good in He as (o' & specs' & [= <- <-] & H).
  done.
Qed.
Lemma parse_no_expr t : no_expr t → t ≠ [] → parse_template t = Some [ELit t].
Proof.
  intros H Ht. unfold parse_template. apply find_expr_None in H. destruct t as [|c t]; [done|].
  cbn [length parse_loop]. by rewrite H.
Qed.

(** Expansion of a parsed template, piece by piece. *)
Lemma parse_expand t es vars : parse_template t = Some es →
  ∃ srcs outs, concat srcs = t ∧ expand_map es vars = concat outs ∧
  Forall2 (λ e src, match e with
                    | ELit l => src = l
                    | EMulti _ _ => ∃ inner, src = LBRACE :: inner ++ [RBRACE] ∧ RBRACE ∉ inner ∧
                                             parse_expression inner = Some e
                    end) es srcs ∧
  Forall2 (λ e out, match e with
                    | ELit l => out = l
                    | EMulti o specs => out = expand_multiple o specs vars ∧
                        ((∀ s, s ∈ specs → vars !! v_name s = None) → out = [])
                    end) es outs.
Proof.
  intros H. apply parse_loop_text in H as (srcs & Hc & H). exists srcs, (expand_expr vars <$> es).
  split; [done|]. split; [done|]. split.
  - eapply Forall2_impl; [exact H|]. intros [l|o specs] src; naive_solver.
  - clear. induction es as [|[l|o specs] es IH]; [constructor| |]; rewrite fmap_cons; constructor; try done.
    split; [done|]. apply expand_undefined.
Qed.

(** Where the code leaves the RFC. *)
Lemma reserved_raw s vars v : vars !! v_name s = Some v → expand_multiple OReserved [s] vars = truncated s v.
Proof.
  intros Hv. rewrite expand_multiple_parts. simpl. rewrite Hv. simpl. rewrite part_shape.
  by rewrite bool_decide_eq_true_2.
Qed.
Lemma hex_value_not c x : bool_decide (is_Some (hex_value x)) = false → is_Some (hex_value c) → c ≠ x.
Proof. intros Hx Hc ->. by apply bool_decide_eq_false in Hx. Qed.
Lemma upper_hex_not n : upper_hex n ≠ SP.
Proof. unfold upper_hex, SP. destruct (n <? 10); lia. Qed.
Lemma escape_char_no_space c : SP ∉ escape_char c.
Proof.
  unfold escape_char. induction (utf8_char c) as [|b bs IH]; [set_solver|]. rewrite fmap_cons. cbn [concat].
  rewrite elem_of_app, !elem_of_cons, elem_of_nil. intros [[H|[H|[H|H]]]|H]; try done.
  - symmetry in H. by apply upper_hex_not in H.
  - symmetry in H. by apply upper_hex_not in H.
Qed.
Lemma rfc_char_no_space r c : SP ∉ rfc_char r c.
Proof.
  unfold rfc_char. case_decide as H1; [|case_decide as H2].
  - intros <-%elem_of_list_singleton. apply mem_existsb in H1. by vm_compute in H1.
  - intros <-%elem_of_list_singleton. destruct H2 as [_ H2]. apply mem_existsb in H2. by vm_compute in H2.
  - apply escape_char_no_space.
Qed.
(** The RFC never emits a space ... *)
Lemma rfc_string_no_space r v : SP ∉ rfc_string r v.
Proof.
  induction v as [v IH] using (induction_ltof1 _ length). unfold ltof in IH.
  destruct v as [|c [|a [|b v]]]; cbn [rfc_string]; rewrite ?app_nil_r.
  - set_solver.
  - apply rfc_char_no_space.
  - rewrite elem_of_app. intros [H|H]; by apply rfc_char_no_space in H.
  - case_decide as H.
    + destruct H as (_ & -> & Ha & Hb). rewrite !elem_of_cons. intros [H|[H|[H|H]]].
      * done.
      * revert H. apply not_eq_sym. by apply hex_value_not.
      * revert H. apply not_eq_sym. by apply hex_value_not.
      * revert H. apply IH. simpl. lia.
    + rewrite elem_of_app. intros [H1|H1]; [by apply rfc_char_no_space in H1|]. revert H1.
      apply (IH (a :: b :: v)). simpl. lia.
Qed.
Lemma reserved_space_differs s vars v : vars !! v_name s = Some v → SP ∈ truncated s v →
  SP ∈ expand_multiple OReserved [s] vars ∧ SP ∉ rfc_expand OReserved [s] vars.
Proof.
  intros Hv Hs. split; [by rewrite (reserved_raw s vars v)|].
  unfold rfc_expand. simpl. rewrite Hv. simpl. apply rfc_string_no_space.
Qed.
(** ... and leaves reserved characters in a fragment, which the code escapes. *)
Lemma reserved_not_hex c : c ∈ reserved_chars → ¬ is_Some (hex_value c) ∧ c ∉ unreserved_chars ∧ c ≠ PERCENT.
Proof.
  intros H. assert (Hb : forallb (λ c, negb (bool_decide (is_Some (hex_value c))) && negb (existsb (N.eqb c) unreserved_chars) && negb (c =? PERCENT)) reserved_chars = true)
    by (vm_compute; reflexivity).
  rewrite forallb_forall in Hb. apply elem_of_list_In, Hb in H. rewrite !andb_true_iff, !negb_true_iff in H.
  destruct H as [[H1 H2] H3]. split; [by apply bool_decide_eq_false in H1|]. split; [|by apply N.eqb_neq in H3].
  rewrite mem_existsb. congruence.
Qed.
Lemma rfc_string_keeps c v : c ∈ reserved_chars → c ∈ v → c ∈ rfc_string true v.
Proof.
  intros Hc. destruct (reserved_not_hex c Hc) as (Hh & Hu & Hp).
  assert (Hself : rfc_char true c = [c]).
  { unfold rfc_char. rewrite decide_False by done. by rewrite decide_True. }
  induction v as [v IH] using (induction_ltof1 _ length). unfold ltof in IH.
  destruct v as [|x [|a [|b v]]]; cbn [rfc_string]; rewrite ?app_nil_r.
  - set_solver.
  - intros ->%elem_of_list_singleton. rewrite Hself. apply elem_of_list_here.
  - rewrite !elem_of_cons, elem_of_nil, elem_of_app.
    intros [->|[->|?]]; [| |done]; rewrite Hself; [left|right]; apply elem_of_list_here.
  - case_decide as H.
    + destruct H as (_ & -> & Ha & Hb). rewrite !elem_of_cons. intros [H|[H|[H|H]]]; subst; try done.
      do 3 right. apply IH; [simpl; lia|done].
    + rewrite elem_of_cons, elem_of_app. intros [->|Hx]; [rewrite Hself; left; apply elem_of_list_here|].
      right. apply (IH (a :: b :: v)); [simpl; lia|done].
Qed.
Lemma safe_chars t c : safe t → c ∈ t → c ∈ unreserved_chars ∨ c = PERCENT ∨ is_Some (hex_value c).
Proof.
  induction 1 as [|c0 t Hc Ht IH|a b t Ha Hb Ht IH]; rewrite ?elem_of_nil, ?elem_of_cons; [done|naive_solver|naive_solver].
Qed.
Lemma fragment_differs s vars v c : vars !! v_name s = Some v → Forall scalar v →
  c ∈ reserved_chars → c ≠ HASH → c ∈ truncated s v →
  c ∉ expand_multiple OFragment [s] vars ∧ c ∈ rfc_expand OFragment [s] vars.
Proof.
  intros Hv Hs Hc Hne Hin. destruct (reserved_not_hex c Hc) as (Hh & Hu & Hp). split.
  - rewrite expand_multiple_parts. simpl. rewrite Hv. simpl. rewrite part_shape.
    change (c ∉ HASH :: pct_encode (truncated s v)). rewrite elem_of_cons. intros [H|H]; [done|].
    assert (Ht : Forall scalar (truncated s v)) by (unfold truncated; destruct (v_mod s) as [[]|]; [by apply Forall_take|done|done]).
    destruct (pct_encode_spec _ Ht) as [Hsafe _]. apply (safe_chars _ _ Hsafe) in H. naive_solver.
  - unfold rfc_expand. simpl. rewrite Hv. simpl. apply elem_of_cons. right. by apply rfc_string_keeps.
Qed.
Lemma param_empty_differs s vars : vars !! v_name s = Some [] →
  expand_multiple OParam [s] vars = lit ";" ++ v_name s ++ lit "=" ∧
  rfc_expand OParam [s] vars = lit ";" ++ v_name s.
Proof.
  intros Hv. assert (Ht : truncated s [] = []) by (unfold truncated; destruct (v_mod s) as [[]|]; [by rewrite take_nil|done|done]). split.
  - rewrite expand_multiple_parts. simpl. rewrite Hv. simpl. rewrite part_shape, Ht. simpl. by rewrite app_nil_r.
  - unfold rfc_expand. simpl. rewrite Hv. simpl. unfold rfc_part. rewrite Ht. simpl. by rewrite app_nil_r.
Qed.

(** *** What a successful match says about the uri *)
Lemma strip_prefix_Some p t r : strip_prefix p t = Some r → t = p ++ r.
Proof.
  revert t. induction p as [|x p IH]; intros t; cbn [strip_prefix]; [by intros [= ->]|].
  destruct t as [|y t]; [done|]. destruct (decide (x = y)) as [->|]; [|done]. intros ->%IH. done.
Qed.
Lemma try_lens_Some f n r : try_lens f n = Some r → ∃ k, (0 < k)%nat ∧ (k ≤ n)%nat ∧ f k = Some r.
Proof.
  induction n as [|n IH]; cbn [try_lens]; [done|]. destruct (f (S n)) eqn:E.
  - intros [= ->]. exists (S n). split; [lia|]. done.
  - intros (k & ? & ? & ?)%IH. exists k. split; [lia|]. split; [lia|done].
Qed.
Lemma run_len_le cls t : (run_len cls t ≤ length t)%nat.
Proof. induction t as [|c t IH]; cbn [run_len length]; [lia|]. destruct (cls c); lia. Qed.
Lemma match_group_inv cls ps t caps : match_pieces (PGroup cls :: ps) t = Some caps →
  ∃ v r cs, t = v ++ r ∧ v ≠ [] ∧ caps = v :: cs ∧ match_pieces ps r = Some cs.
Proof.
  cbn [match_pieces]. intros (k & Hk & Hk2 & H)%try_lens_Some.
  destruct (match_pieces ps (drop k t)) as [cs|] eqn:E; [|done]. simplify_eq.
  exists (take k t), (drop k t), cs. rewrite take_drop. pose proof (run_len_le cls t). split_and!; [done| |done|done].
  intros Hn. apply (f_equal length) in Hn. rewrite take_length in Hn. cbn in Hn. lia.
Qed.
Lemma match_lit_inv l ps t caps : match_pieces (PLit l :: ps) t = Some caps →
  ∃ r, t = l ++ r ∧ match_pieces ps r = Some caps.
Proof.
  cbn [match_pieces]. destruct (strip_prefix l t) as [r|] eqn:E; [|done]. apply strip_prefix_Some in E as ->. eauto.
Qed.
Lemma assign_keep es caps m n : n ∉ variables es → assign es caps m !! n = m !! n.
Proof.
  revert caps m. induction es as [|e es IH]; intros caps m Hn; [done|].
  assert (n ∉ variables es) as Hes.
  { intros H. apply Hn. unfold variables. rewrite fmap_cons. cbn [concat]. apply elem_of_app. by right. }
  cbn [assign]. destruct (get_var_name e) as [x|] eqn:E; [|by apply IH].
  destruct caps as [|c caps]; rewrite IH by done; [done|]. apply lookup_insert_ne. intros ->. apply Hn.
  destruct e as [|o [|s [|]]]; cbn in E; simplify_eq. unfold variables. rewrite fmap_cons. cbn. by left.
Qed.
Lemma match_spells es : ∀ uri caps m0, Forall one_variable es → NoDup (variables es) →
  match_pieces (concat (pieces_of <$> es)) uri = Some caps → spells (assign es caps m0) es uri.
Proof.
  induction es as [|e es IH]; intros uri caps m0 Ho Hn Hm.
  - cbn in Hm. destruct uri; [|done]. simplify_eq. constructor.
  - inversion Ho as [|? ? Ho1 Ho2]; subst. rewrite fmap_cons in Hm. cbn [concat] in Hm.
    assert (variables (e :: es) = (match e with ELit _ => [] | EMulti _ specs => v_name <$> specs end) ++ variables es) as Hv by done.
    rewrite Hv in Hn. destruct e as [t|o [|s [|]]]; cbn in Ho1; try lia.
    + cbn [pieces_of app] in Hm. apply match_lit_inv in Hm as (r & -> & Hm). constructor. cbn [assign get_var_name]. by apply IH.
    + cbn in Hn. apply NoDup_cons in Hn as [Hn1 Hn2].
      assert (∃ v r cs, uri = opener o (v_name s) ++ v ++ r ∧ v ≠ [] ∧ caps = v :: cs ∧ match_pieces (concat (pieces_of <$> es)) r = Some cs) as (v & r & cs & -> & Hne & -> & Hr).
      { destruct o; cbn [pieces_of app] in Hm;
          try (apply match_lit_inv in Hm as (u & -> & Hm));
          apply match_group_inv in Hm as (v & r & cs & -> & ? & -> & ?); exists v, r, cs; cbn [opener];
          repeat (split; [try done; cbn; rewrite <-?app_assoc; done|]); done. }
      cbn [assign get_var_name]. constructor; [|done|].
      * rewrite assign_keep by done. by rewrite lookup_insert.
      * by apply IH.
Qed.
