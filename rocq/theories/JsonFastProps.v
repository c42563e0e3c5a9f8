(** C59, C60, C114: fast reading, printing and writing of JSON. *)
From stdpp Require Import list list_numbers strings.
From Coq Require Import ZifyBool.
From Verif Require Import ListLib TextLib Utf8Lib JsonLib SimdModel SimdSpec SimdProofs JsonFastModel JsonFastSpec JsonFastProofs JsonFastProofs2 JsonFastProofs3.
Local Open Scope N_scope.

(** *** C59: fast parsing gives what standard parsing gives *)
(** Every text that standard parsing accepts is accepted with the same value, if no character lies
    across a block of 32 bytes and no block ends in whitespace. *)
Theorem C59_valid_partial : ∀ avx2 fuel t v, (32 <= fuel)%nat → Forall scalar t → aligned t → no_block_ends_in json_ws (utf8 t) →
  of_bytes (utf8 t) = Some v → parse_json_fast avx2 fuel (utf8 t) = Some (Some v).
Proof. exact fast_valid. Qed.
Print Assumptions C59_valid_partial.
(** Also the rejected texts are the same if less than a tenth is whitespace, or none is outside of strings. *)
Theorem C59_same_partial : ∀ avx2 fuel t, (32 <= fuel)%nat → Forall scalar t → aligned t → no_block_ends_in json_ws (utf8 t) →
  (length (positions json_ws (utf8 t)) < length (utf8 t) / 10)%nat ∨ without_whitespace t = t → parse_json_fast avx2 fuel (utf8 t) = Some (of_bytes (utf8 t)).
Proof. exact fast_same. Qed.
Print Assumptions C59_same_partial.
(** Removing the whitespace outside of strings never changes the value of a text that parses. *)
Theorem C59_whitespace : ∀ t v, parse_value t = Some v → parse_value (without_whitespace t) = Some v.
Proof. intros t v H. unfold parse_value in *. destruct (parse t) as [w|] eqn:E; [|done]. unfold without_whitespace. by rewrite (parse_squeeze _ _ E). Qed.
Print Assumptions C59_whitespace.
(** Refuted: two numbers with only whitespace between them, which are no JSON text, are read as one number, *)
Theorem C59_joined_refuted : ∀ fuel n m sep, (32 <= fuel)%nat → 0 < n → sep ≠ [] → Forall (λ c, json_ws c = true) sep →
  (length (show_N n) + length (show_N m) <= 18)%nat → (length (show_N n ++ sep ++ show_N m) < 32)%nat →
  of_bytes (show_N n ++ sep ++ show_N m) = None ∧
  parse_json_fast true fuel (show_N n ++ sep ++ show_N m) = Some (Some (JInt (Z.of_N (n * 10 ^ N.of_nat (length (show_N m)) + m)))).
Proof. exact joined. Qed.
Print Assumptions C59_joined_refuted.
(** parsing does not return when a block of 32 bytes ends in whitespace, *)
Theorem C59_hangs_refuted : ∀ t i b, Forall scalar t → aligned t → (i * 32 + 32 <= length (utf8 t))%nat → utf8 t !! (i * 32 + 31)%nat = Some b → json_ws b = true →
  ∀ fuel, parse_json_fast true fuel (utf8 t) = None.
Proof. intros t i b Ht Ha Hi Hb Hs fuel. apply (fast_hangs fuel t i b); [|done..]. by apply utf8_boundaries. Qed.
Print Assumptions C59_hangs_refuted.
(** and valid JSON with a character across byte 32 is an error. *)
Definition unescaped (c : N) : Prop := 32 <= c ∧ c ≠ 34 ∧ c ≠ 92.
Lemma show_unescaped s : Forall unescaped s → show_str s = 34 :: s ++ [34].
Proof. intros H. unfold show_str. f_equal. f_equal. induction H as [|c s (H1 & H2 & H3) Hs IH]; [done|]. rewrite fmap_cons. cbn [concat]. rewrite IH, esc_high by lia. done. Qed.
Lemma crossing_string a c b : Forall (λ x, unescaped x ∧ x < 128) a → Forall (λ x, unescaped x ∧ x < 128) b → length a = 30%nat → (length b < 30)%nat → 128 <= c → c < 2048 →
  storable (JStr (a ++ [c] ++ b)) ∧ validate_utf8_simd (to_bytes (JStr (a ++ [c] ++ b))) = false.
Proof.
  intros Ha Hb Hla Hlb H1 H2. assert (Forall (λ x, x < 128) a) as Pa by (eapply Forall_impl; [exact Ha|]; by intros x [_ ?]). assert (Forall (λ x, x < 128) b) as Pb by (eapply Forall_impl; [exact Hb|]; by intros x [_ ?]). split.
  - split; [done|]. split; [done|]. split; [|cbn; lia]. cbn [scalars]. rewrite !Forall_app, Forall_singleton. split; [by apply plain_scalar|]. split; [unfold scalar; lia|by apply plain_scalar].
  - unfold to_bytes. cbn [show]. rewrite show_unescaped.
    + replace (34 :: (a ++ [c] ++ b) ++ [34]) with ((34 :: a) ++ [c] ++ (b ++ [34])) by (cbn [app]; f_equal; by rewrite <- !app_assoc). apply crossing_rejected; [|cbn [length]; lia|done|done| |].
      * by constructor.
      * rewrite app_length. cbn [length]. lia.
      * rewrite Forall_app, Forall_singleton. done.
    + rewrite !Forall_app, Forall_singleton. split; [eapply Forall_impl; [exact Ha|]; by intros x [? _]|]. split; [unfold unescaped; lia|]. eapply Forall_impl; [exact Hb|]. by intros x [? _].
Qed.
Theorem C59_crossing_refuted : ∀ a c b, Forall (λ x, unescaped x ∧ x < 128) a → Forall (λ x, unescaped x ∧ x < 128) b → length a = 30%nat → (length b < 30)%nat → 128 <= c → c < 2048 →
  let v := JStr (a ++ [c] ++ b) in of_bytes (to_bytes v) = Some v ∧ ∀ fuel, parse_json_fast true fuel (to_bytes v) = Some None.
Proof.
  intros a c b Ha Hb Hla Hlb H1 H2 v. destruct (crossing_string a c b Ha Hb Hla Hlb H1 H2) as [Hs Hv]. split; [by apply of_to_bytes|]. intros fuel. unfold parse_json_fast. fold v in Hv. by rewrite Hv.
Qed.
Print Assumptions C59_crossing_refuted.
(** A batch gives for each input what parsing it alone gives, in order. *)
Theorem C59_batch : ∀ avx2 fuel inputs rs, parse_json_batch avx2 fuel inputs = Some rs → length rs = length inputs ∧ ∀ i input, inputs !! i = Some input → ∃ r, rs !! i = Some r ∧ parse_json_fast avx2 fuel input = Some r.
Proof.
  intros avx2 fuel inputs rs H. unfold parse_json_batch in H. apply mapM_Some in H. split; [symmetry; by eapply Forall2_length|]. intros i input Hi. by eapply Forall2_lookup_l in H as (r & ? & ?); [exists r|exact Hi].
Qed.
Print Assumptions C59_batch.
Definition ex_doc : list N := lit "{ ""name"" : ""a b"",  ""n"": [1, 2.5] }".
Example C59_example : let v := JObj [(lit "name", JStr (lit "a b")); (lit "n", JArr [JInt 1; JFloat (lit "2.5")])] in
  of_bytes ex_doc = Some v ∧ parse_json_fast true 32 ex_doc = Some (Some v) ∧ without_whitespace ex_doc = lit "{""name"":""a b"",""n"":[1,2.5]}" ∧
  parse_json_fast true 32 (lit "1 2") = Some (Some (JInt 12)) ∧ of_bytes (lit "1 2") = None ∧ parse_json_fast true 99 (lit "[111111111111111111111111111111 ]") = None ∧
  parse_json_batch true 32 [lit "[]"; lit "x"; lit " 7 "] = Some [Some (JArr []); None; Some (JInt 7)].
Proof. repeat split; by vm_compute. Qed.

(** *** C60: fast pretty printing preserves the document *)
(** The text is the document over several lines with every string replaced by the string of its bytes;
    without whitespace it is the compact text of that, and it reads back as that. *)
Theorem C60_printed : ∀ fuel v, (32 <= fuel)%nat → storable v → no_block_ends_in quote_or_backslash (to_bytes v) → ∃ text, pretty_print_fast fuel v = Some text ∧
  text = indented 0 (byte_strings v) ∧ without_whitespace text = show (byte_strings v) ∧ parse_value text = Some (byte_strings v).
Proof. intros fuel v Hf Hs Hb. eexists. split; [by apply pretty_ok|]. split; [done|]. split; [by apply pretty_squeezed|by apply pretty_parsed]. Qed.
Print Assumptions C60_printed.
(** Hence an ASCII document is preserved, *)
Theorem C60_ascii_partial : ∀ fuel v, (32 <= fuel)%nat → storable v → no_block_ends_in quote_or_backslash (to_bytes v) → ascii_only v = true →
  ∃ text, pretty_print_fast fuel v = Some text ∧ without_whitespace text = show v ∧ parse_value text = Some v.
Proof. intros fuel v Hf Hs Hb Ha. destruct (C60_printed fuel v Hf Hs Hb) as (text & H1 & _ & H2 & H3). apply bs_id in Ha; [|apply Hs]. rewrite Ha in *. by exists text. Qed.
Print Assumptions C60_ascii_partial.
(** and any other is not. *)
Theorem C60_characters_refuted : ∀ fuel v, storable v → ascii_only v = false → ∀ text, (32 <= fuel)%nat → no_block_ends_in quote_or_backslash (to_bytes v) → pretty_print_fast fuel v = Some text →
  without_whitespace text ≠ show v ∧ parse_value text ≠ Some v.
Proof.
  intros fuel v Hs Ha text Hf Hb Ht. destruct (C60_printed fuel v Hf Hs Hb) as (text' & H1 & _ & H2 & H3). rewrite Ht in H1. injection H1 as <-.
  assert (byte_strings v ≠ v) as Hne by (intros H; apply bs_id in H; [congruence|apply Hs]). rewrite H2, H3. destruct Hs as (Hw & Hk & Hsc & Hd). split; [|by intros [= ?]].
  intros H. apply (f_equal parse) in H. rewrite !parse_show in H by (rewrite ?bs_depth; try done; by apply bs_wf). congruence.
Qed.
Print Assumptions C60_characters_refuted.
(** Printing does not return when a block of 32 bytes of the compact text ends in a quote or backslash. *)
Theorem C60_hangs_refuted : ∀ v i b, (i * 32 + 32 <= length (to_bytes v))%nat → to_bytes v !! (i * 32 + 31)%nat = Some b → quote_or_backslash b = true → ∀ fuel, pretty_print_fast fuel v = None.
Proof.
  intros v i b Hi Hb Hq fuel. unfold pretty_print_fast, find_escapes_simd. rewrite (find_simd_hangs _ _ _ i); [done|done|]. unfold at_pos. rewrite Hb. unfold is_escape. unfold quote_or_backslash in Hq. lia.
Qed.
Print Assumptions C60_hangs_refuted.
Definition ex_nl : list N := [10].
Example C60_example : let v := JObj [(lit "k", JArr [JInt 1; JStr (lit "a, b")])] in
  pretty_print_fast 32 v = Some (lit "{" ++ ex_nl ++ lit "  ""k"": [" ++ ex_nl ++ lit "    1," ++ ex_nl ++ lit "    ""a, b""" ++ ex_nl ++ lit "  ]" ++ ex_nl ++ lit "}") ∧
  pretty_print_fast 32 (JStr [233]) = Some [34; 195; 169; 34] ∧ ascii_only v = true ∧ ascii_only (JStr [233]) = false ∧
  pretty_print_fast 99 (JStr (lit "012345678901234567890123456789")) = None.
Proof. repeat split; by vm_compute. Qed.

(** *** C114: fast writing gives the standard bytes *)
Theorem C114_bytes : ∀ avx2 v out, serialize_json_fast avx2 v = Some out → out = to_bytes v.
Proof. intros avx2 v out. unfold serialize_json_fast. destruct (_ && _); [done|]. by intros [= <-]. Qed.
Print Assumptions C114_bytes.
Theorem C114_written_partial : ∀ avx2 v, scalars v → aligned (show v) → serialize_json_fast avx2 v = Some (to_bytes v).
Proof. intros avx2 v Hs Ha. unfold serialize_json_fast, to_bytes. rewrite utf8_boundaries by (try done; by apply show_scalar). by destruct avx2. Qed.
Print Assumptions C114_written_partial.
(** Refuted: a document that serde_json writes is an error when a character lies across byte 32. *)
Theorem C114_crossing_refuted : ∀ a c b, Forall (λ x, unescaped x ∧ x < 128) a → Forall (λ x, unescaped x ∧ x < 128) b → length a = 30%nat → (length b < 30)%nat → 128 <= c → c < 2048 →
  storable (JStr (a ++ [c] ++ b)) ∧ serialize_json_fast true (JStr (a ++ [c] ++ b)) = None.
Proof. intros a c b Ha Hb Hla Hlb H1 H2. destruct (crossing_string a c b Ha Hb Hla Hlb H1 H2) as [Hs Hv]. split; [done|]. unfold serialize_json_fast. by rewrite Hv. Qed.
Print Assumptions C114_crossing_refuted.
Example C114_example : serialize_json_fast true (JArr [JStr [233]; JNull]) = Some ([91; 34; 195; 169; 34] ++ lit ",null]") ∧
  serialize_json_fast true (JStr (lit "012345678901234567890123456789" ++ [233])) = None ∧ serialize_json_fast true (JStr (lit "01234567890123456789012345678" ++ [233])) ≠ None.
Proof. repeat split; by vm_compute. Qed.
