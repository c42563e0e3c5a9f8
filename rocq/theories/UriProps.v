(** Properties C15 - C17, C72 and C73 (URI templates). *)
From stdpp Require Import gmap sets list strings.
From Verif Require Import ListLib TextLib Utf8Lib UriModel UriSpec UriProofs UriProofs2.
Local Open Scope N_scope.

(** C15.  For every operator that escapes: the expansion of an expression is the operator's first
    character and, separated by the operator's separator, one text per defined variable (preceded by
    "name=" for the named operators).  That text is [safe] (unreserved characters and %XX only) and
    percent-decodes to the UTF-8 bytes of the value, or of its prefix for a ":n" modifier. *)
Theorem C15_safe_expansion : ∀ o specs vars, o ≠ OReserved →
  (∀ n v, vars !! n = Some v → Forall scalar v) →
  ∃ ts, Forall2 (λ d t, safe t ∧ pct_decode t = Some (utf8 (truncated d.1 d.2))) (defined_values vars specs) ts ∧
  expand_multiple o specs vars =
  match ts with
  | [] => []
  | _ => r_first (rfc_table o) ++ join_with (r_sep (rfc_table o))
          (zip_with (λ d t, (if r_named (rfc_table o) then v_name d.1 ++ lit "=" else []) ++ t)
                    (defined_values vars specs) ts)
  end.
Proof. exact expansion_safe. Qed.
Print Assumptions C15_safe_expansion.

(** C15 for the encoder itself; decoding the bytes as UTF-8 gives the value back. *)
Theorem C15_encode_decode : ∀ v, Forall scalar v →
  safe (pct_encode v) ∧ pct_decode (pct_encode v) = Some (utf8 v) ∧ utf8_decode (utf8 v) = Some v.
Proof.
  intros v Hv. destruct (pct_encode_spec v Hv). split; [done|]. split; [done|]. by apply utf8_decode_encode.
Qed.
Print Assumptions C15_encode_decode.

(** C15: a safe text contains no delimiter. *)
Theorem C15_no_delimiter : ∀ t c, safe t → c ∈ t → c ∉ reserved_chars ∧ c ≠ SP ∧ c ≠ LF.
Proof.
  intros t c Ht Hc. pose proof (safe_chars t c Ht Hc) as H. split; [|split].
  - intros Hr. pose proof (reserved_not_hex c Hr). naive_solver.
  - intros ->. destruct H as [H|[H|[y H]]]; [apply mem_existsb in H| |]; by vm_compute in H.
  - intros ->. destruct H as [H|[H|[y H]]]; [apply mem_existsb in H| |]; by vm_compute in H.
Qed.
Print Assumptions C15_no_delimiter.

Example C15_example :
  expand_multiple OQuery [MkSpec (lit "q") None; MkSpec (lit "r") (Some (MPrefix 2))]
    {[ lit "q" := lit "a&b=c"; lit "r" := [233; 47; 48] ]} = lit "?q=a%26b%3Dc&r=%C3%A9%2F"
  ∧ Forall scalar [233; 47; 48].
Proof. split; [vm_compute; reflexivity|]. repeat constructor; vm_compute; naive_solver. Qed.

(** C16, the part that holds: when every expression has one variable whose value needs no escaping
    and is ended by what follows it ([recoverable]), matching returns exactly the values of the
    template's variables. *)
Theorem C16_match_recovers_partial : ∀ es vars, recoverable vars es →
  ∃ m, match_uri es (expand_map es vars) = Some m ∧
  ∀ n, m !! n = if decide (n ∈ variables es) then vars !! n else None.
Proof. exact match_recovers. Qed.
Print Assumptions C16_match_recovers_partial.

(** What a match returns accounts for the whole URI: with the returned values in place of the
    variables the template spells the URI, and no value is empty. *)
Theorem C16_whole_uri_partial : ∀ es uri m, Forall one_variable es → NoDup (variables es) →
  match_uri es uri = Some m → spells m es uri.
Proof.
  intros es uri m Ho Hn. unfold match_uri. destruct (match_pieces _ _) eqn:E; [|done]. intros [= <-].
  by apply match_spells.
Qed.
Print Assumptions C16_whole_uri_partial.

(** C16 fails for every other value of "{x}": the encoded text is returned, which is the value only
    if nothing had to be encoded. *)
Theorem C16_encoded_refuted : ∀ x v, v ≠ [] → Forall scalar v →
  match_uri [EMulti OSimple [MkSpec x None]] (expand_map [EMulti OSimple [MkSpec x None]] {[ x := v ]})
  = Some {[ x := pct_encode v ]} ∧
  (pct_encode v = v ↔ ∀ c, c ∈ v → c ∈ unreserved_chars).
Proof. intros x v Hv Hs. split; [by apply match_single_encoded|apply pct_encode_fix]. Qed.
Print Assumptions C16_encoded_refuted.

(** C16 fails for every expression with several variables: nothing is assigned to them ... *)
Theorem C16_several_refuted : ∀ o s1 s2 ss uri m,
  match_uri [EMulti o (s1 :: s2 :: ss)] uri = Some m → m = ∅.
Proof. intros o s1 s2 ss uri m. unfold match_uri. destruct (match_pieces _ _); [|done]. by intros [= <-]. Qed.
Print Assumptions C16_several_refuted.

(** ... and what they captured goes to a later variable. *)
Theorem C16_misassigned_refuted :
  ∃ es, parse_template (lit "{a,b}/{c}") = Some es ∧
  let vars := {[ lit "a" := lit "x"; lit "b" := lit "y"; lit "c" := lit "z" ]} in
  expand_map es vars = lit "x,y/z" ∧
  match_uri es (expand_map es vars) = Some {[ lit "c" := lit "x,y" ]}.
Proof. eexists. split; [vm_compute; reflexivity|]. split; vm_compute; reflexivity. Qed.
Print Assumptions C16_misassigned_refuted.

(** C16 fails for adjacent variables: the first takes all but one character. *)
Theorem C16_adjacent_refuted : ∀ a b u c, a ≠ b → u ≠ [] → (∀ x, x ∈ u ++ [c] → x ≠ SLASH) →
  match_uri [EMulti OSimple [MkSpec a None]; EMulti OSimple [MkSpec b None]] (u ++ [c])
  = Some {[ a := u; b := [c] ]}.
Proof. exact match_two_adjacent. Qed.
Print Assumptions C16_adjacent_refuted.

Example C16_example :
  let vars := {[ lit "u" := lit "alice"; lit "v" := lit "2"; lit "q" := lit "a.b" ]} in
  ∃ es, parse_template (lit "res://h/{u}/x{/v}{?q}") = Some es ∧
  expand_map es vars = lit "res://h/alice/x/2?q=a.b" ∧
  map_to_list <$> match_uri es (lit "res://h/alice/x/2?q=a.b") = Some (map_to_list vars) ∧
  match_uri es (lit "res://h/alice/x/2") = None.
Proof. eexists. split; [vm_compute; reflexivity|]. split_and!; vm_compute; reflexivity. Qed.
Example C16_hypotheses :
  recoverable {[ lit "u" := lit "alice"; lit "v" := lit "2" ]}
    [ELit (lit "/"); EMulti OSimple [MkSpec (lit "u") None]; ELit (lit "/x"); EMulti OPath [MkSpec (lit "v") None]].
Proof.
  assert (Hin : ∀ t, forallb (λ c, existsb (N.eqb c) unreserved_chars) t = true → ∀ c, c ∈ t → c ∈ unreserved_chars).
  { intros t H c Hc. apply mem_existsb. rewrite forallb_forall in H. by apply H, elem_of_list_In. }
  assert (Hout : ∀ t l, forallb (λ c, negb (existsb (N.eqb c) l)) t = true → ∀ c, c ∈ t → c ∉ l).
  { intros t l H c Hc. rewrite mem_existsb. rewrite forallb_forall in H. apply elem_of_list_In, H in Hc.
    by destruct (existsb (N.eqb c) l). }
  split; [done|]. split.
  { exists (lit "alice"). split; [vm_compute; reflexivity|]. split; [done|]. split; [done|].
    split; [right; by apply Hin|by apply Hout]. }
  split; [exists SLASH; split; [done|apply elem_of_list_here]|]. split; [done|]. split.
  { exists (lit "2"). split; [vm_compute; reflexivity|]. split; [done|]. split; [done|].
    split; [right; by apply Hin|by apply Hout]. }
  done.
Qed.

(** C17.  An accepted template text is cut into literals and brace expressions; the expansion is,
    in the same order, the literals unchanged and the expansions of the expressions, and an
    expression none of whose variables is defined contributes nothing. *)
Theorem C17_literals : ∀ t es vars, parse_template t = Some es →
  ∃ srcs outs, concat srcs = t ∧ expand_map es vars = concat outs ∧
  Forall2 (λ e src, match e with
                    | ELit l => src = l
                    | EMulti _ _ => ∃ inner, src = LBRACE :: inner ++ [RBRACE] ∧ RBRACE ∉ inner ∧
                                             parse_expression inner = Some e
                    end) es srcs ∧
  Forall2 (λ e out, match e with
                    | ELit l => out = l
                    | EMulti o specs => out = expand_multiple o specs vars ∧
                        ((∀ s, s ∈ specs → vars !! v_name s = None) → out = [])
                    end) es outs.
Proof. exact parse_expand. Qed.
Print Assumptions C17_literals.

(** C17: literals hide no expression. *)
Theorem C17_no_hidden_expression : ∀ t es l, parse_template t = Some es → ELit l ∈ es → l ≠ [] ∧ no_expr l.
Proof.
  intros t es l H Hl. apply parse_template_good in H as [_ H]. rewrite Forall_forall in H. by apply H in Hl.
Qed.
Print Assumptions C17_no_hidden_expression.

(** C17: undefined variables contribute nothing, also inside an expression. *)
Theorem C17_undefined : ∀ o specs vars,
  expand_multiple o specs vars =
  match defined_values vars specs with
  | [] => []
  | ds => r_first (rfc_table o) ++ join_with (r_sep (rfc_table o)) ((λ d, part o d.1 d.2) <$> ds)
  end.
Proof. exact expand_multiple_parts. Qed.
Print Assumptions C17_undefined.

(** C17: the expansion depends on the template's variables only, and a repeated pair counts once, the
    last one. *)
Theorem C17_only_variables : ∀ es vars1 vars2, (∀ n, n ∈ variables es → vars1 !! n = vars2 !! n) →
  expand_map es vars1 = expand_map es vars2.
Proof. exact expand_ext. Qed.
Print Assumptions C17_only_variables.
Theorem C17_last_pair : ∀ vars n, var_map vars !! n = snd <$> last (filter (λ kv, kv.1 = n) vars).
Proof. exact var_map_last. Qed.
Print Assumptions C17_last_pair.

Example C17_example : ∃ es, parse_template (lit "a{x}b{}c{?y,z}{") = Some es ∧
  expand es [(lit "x", lit "1"); (lit "z", lit "9"); (lit "x", lit "2")] = lit "a2b{}c?z=9{" ∧
  expand es [] = lit "ab{}c{".
Proof. eexists. split; [vm_compute; reflexivity|]. split; vm_compute; reflexivity. Qed.

(** C72, the part that holds: string expansion follows RFC 6570 for every value under the operators
    none, ".", "/", "?", "&"; under ";" for non-empty values; under "+" when nothing needs escaping;
    under "#" for unreserved text ([rfc_agrees]). *)
Theorem C72_rfc6570_partial : ∀ o specs vars,
  (∀ s v, s ∈ specs → vars !! v_name s = Some v → rfc_agrees o (truncated s v)) →
  expand_multiple o specs vars = rfc_expand o specs vars.
Proof. exact expand_rfc. Qed.
Print Assumptions C72_rfc6570_partial.

(** C72 fails outside that: "+" never escapes, "#" always does, ";x" with an empty value keeps "=". *)
Theorem C72_reserved_refuted : ∀ s vars v, vars !! v_name s = Some v → SP ∈ truncated s v →
  SP ∈ expand_multiple OReserved [s] vars ∧ SP ∉ rfc_expand OReserved [s] vars.
Proof. exact reserved_space_differs. Qed.
Print Assumptions C72_reserved_refuted.
Theorem C72_fragment_refuted : ∀ s vars v c, vars !! v_name s = Some v → Forall scalar v →
  c ∈ reserved_chars → c ≠ HASH → c ∈ truncated s v →
  c ∉ expand_multiple OFragment [s] vars ∧ c ∈ rfc_expand OFragment [s] vars.
Proof. exact fragment_differs. Qed.
Print Assumptions C72_fragment_refuted.
Theorem C72_param_refuted : ∀ s vars, vars !! v_name s = Some [] →
  expand_multiple OParam [s] vars = lit ";" ++ v_name s ++ lit "=" ∧
  rfc_expand OParam [s] vars = lit ";" ++ v_name s.
Proof. exact param_empty_differs. Qed.
Print Assumptions C72_param_refuted.

(** The examples of RFC 6570, section 3.2, on which the specification and the code agree. *)
Example C72_example :
  let vars := {[ lit "var" := lit "value"; lit "hello" := lit "Hello World!"; lit "x" := lit "1024";
                 lit "y" := lit "768"; lit "empty" := []; lit "path" := lit "/foo/bar" ]} in
  rfc_expand OSimple [MkSpec (lit "hello") None] vars = lit "Hello%20World%21" ∧
  rfc_expand OReserved [MkSpec (lit "hello") None] vars = lit "Hello%20World!" ∧
  rfc_expand OReserved [MkSpec (lit "path") (Some (MPrefix 6))] vars = lit "/foo/b" ∧
  rfc_expand OFragment [MkSpec (lit "path") None; MkSpec (lit "x") None] vars = lit "#/foo/bar,1024" ∧
  rfc_expand OParam [MkSpec (lit "x") None; MkSpec (lit "y") None; MkSpec (lit "empty") None] vars = lit ";x=1024;y=768;empty" ∧
  rfc_expand OQuery [MkSpec (lit "x") None; MkSpec (lit "y") None; MkSpec (lit "empty") None] vars = lit "?x=1024&y=768&empty=" ∧
  rfc_expand OLabel [MkSpec (lit "x") None; MkSpec (lit "undef") None; MkSpec (lit "y") None] vars = lit ".1024.768" ∧
  expand_multiple OQuery [MkSpec (lit "x") None; MkSpec (lit "y") None; MkSpec (lit "empty") None] vars = lit "?x=1024&y=768&empty=".
Proof. split_and!; vm_compute; reflexivity. Qed.

(** C73: an accepted template has only well-formed variables, and no two literals in a row. *)
Theorem C73_accepted_good : ∀ t es, parse_template t = Some es →
  alternating es ∧
  Forall (λ e, match e with
               | ELit l => l ≠ [] ∧ no_expr l
               | EMulti _ specs => specs ≠ [] ∧ Forall good_spec specs
               end) es.
Proof. exact parse_template_good. Qed.
Print Assumptions C73_accepted_good.

(** C73: every well-formed template text is accepted, and means what it says. *)
Theorem C73_parse_print : ∀ es, Forall good_expr es → alternating es →
  parse_template (concat (expr_text <$> es)) = Some es.
Proof. exact parse_print_all. Qed.
Print Assumptions C73_parse_print.

(** C73: so does the text with white space around the variables. *)
Theorem C73_blanks : ∀ es ts, Forall good_expr es → alternating es → Forall2 expr_spelled es ts → parse_template (concat ts) = Some es.
Proof. intros es ts Hg Ha Ht. apply parse_spelled; [done..|]. by apply spelled_length. Qed.
Print Assumptions C73_blanks.

(** C73: unbalanced braces are not errors: the whole text is a literal. *)
Theorem C73_unbalanced_refuted : ∀ t, no_expr t → t ≠ [] → parse_template t = Some [ELit t].
Proof. exact parse_no_expr. Qed.
Print Assumptions C73_unbalanced_refuted.

Example C73_example :
  parse_template (lit "/u/{id}{?q:3,r*}") =
    Some [ELit (lit "/u/"); EMulti OSimple [MkSpec (lit "id") None];
          EMulti OQuery [MkSpec (lit "q") (Some (MPrefix 3)); MkSpec (lit "r") (Some MExplode)]] ∧
  parse_template (lit "{ id , n:3 }") = Some [EMulti OSimple [MkSpec (lit "id") None; MkSpec (lit "n") (Some (MPrefix 3))]] ∧
  parse_template (lit "{1a}") = None ∧ parse_template (lit "{a:0}") = None ∧
  parse_template (lit "{a:10001}") = None ∧ parse_template (lit "{a,}") = None ∧
  parse_template (lit "/u/{id") = Some [ELit (lit "/u/{id")].
Proof. split_and!; vm_compute; reflexivity. Qed.
