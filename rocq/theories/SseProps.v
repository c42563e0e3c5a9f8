(** Properties C18 - C20 and C71 (server-sent events). *)
From stdpp Require Import sets list strings.
From Verif Require Import ListLib TextLib SseModel SseSpec SseSpec2 SseProofs SseProofs2.

(** C18, the part that holds: the text of any sequence of writable events, cut into any chunks, is
    parsed into exactly those events (an event without id carries the last id sent), and leaves the
    parser at rest. *)
Theorem C18_round_trip_partial : ∀ es chunks lastid,
  Forall writable es → concat chunks = concat (display <$> es) →
  feed_all (MkP [] builder0 lastid) chunks
  = Some (MkP [] builder0 (fold_left next_id es lastid), received lastid es).
Proof. exact round_trip. Qed.
Print Assumptions C18_round_trip_partial.

(** C18 for one event and a fresh parser: exactly that event. *)
Theorem C18_round_trip_one_partial : ∀ e,
  writable e → ∃ p, feed parser0 (display e) = Some (p, [e]).
Proof.
  intros e He. pose proof (round_trip [e] [display e] None (Forall_cons_2 _ _ _ He (Forall_nil_2 _)) eq_refl) as H.
  unfold parser0. simpl in H. destruct (feed (MkP [] builder0 None) (display e)) as [[p es]|]; [|done].
  rewrite app_nil_r in H. exists p. f_equal. f_equal. injection H as _ ->. f_equal.
  unfold with_default_id. destruct e as [id ev d r]. simpl. by destruct id.
Qed.
Print Assumptions C18_round_trip_one_partial.

(** C18 for events with any data free of carriage returns, in any sequence and any chunks: exactly
    what arrives.  Of the data the leading line feeds and one trailing line feed are lost; an event
    of which nothing is left does not arrive at all. *)
Theorem C18_seen_partial : ∀ es chunks lastid,
  Forall headed es → concat chunks = concat (display <$> es) →
  feed_all (MkP [] builder0 lastid) chunks
  = Some (MkP [] builder0 (fold_left next_id es lastid), seen lastid es).
Proof. exact all_seen. Qed.
Print Assumptions C18_seen_partial.

(** Hence an event arrives unchanged exactly if its data neither starts nor ends with a line feed:
    every event whose data does is changed or lost. *)
Theorem C18_ends_refuted : ∀ e,
  headed e → (head (e_data e) = Some LF ∨ last (e_data e) = Some LF) →
  ∃ p es, feed parser0 (display e) = Some (p, es) ∧ e ∉ es.
Proof.
  intros e He Hd. pose proof (all_seen [e] [display e] None (Forall_cons_2 _ _ _ He (Forall_nil_2 _)) eq_refl) as H.
  cbn [feed_all] in H. change (MkP [] builder0 None) with parser0 in H.
  destruct (feed parser0 (display e)) as [[p es]|]; [|done]. rewrite app_nil_r in H.
  exists p, es. split; [done|]. injection H as _ ->. cbn [seen]. rewrite app_nil_r. intros Hin.
  assert (Hk : kept (e_data e) ≠ e_data e).
  { rewrite kept_same. intros [Hn|[H1 H2]]; [by rewrite Hn in Hd; destruct Hd|].
    by destruct Hd. }
  destruct (kept (e_data e)) as [|c d] eqn:Ek; [by apply elem_of_nil in Hin|].
  apply elem_of_list_singleton in Hin. apply Hk. by rewrite Hin.
Qed.
Print Assumptions C18_ends_refuted.
Example C18_ends_example :
  let e := MkSse (Some (lit "7")) None ([LF; LF] ++ lit "a" ++ [LF] ++ lit "b" ++ [LF; LF]) None in
  headed e ∧ head (e_data e) = Some LF ∧ kept (e_data e) = lit "a" ++ [LF] ++ lit "b" ++ [LF] ∧
  seen None [MkSse (Some (lit "7")) None [LF] None; MkSse None None (lit "x") None]
  = [MkSse (Some (lit "7")) None (lit "x") None].
Proof.
  assert (Hd : ∀ (c : N) l, existsb (N.eqb c) l = false → c ∉ l).
  { intros c l H Hin. apply elem_of_list_In in Hin.
    assert (existsb (N.eqb c) l = true) as H'; [|congruence]. apply existsb_exists. exists c.
    split; [done|]. apply N.eqb_refl. }
  split; [|split; [done|by split; vm_compute]].
  split; [intros v [= <-]; split; [split|]; by apply Hd|]. split; [done|]. split; [done|by apply Hd].
Qed.

(** The excluded events really are lost or changed: non-empty data ending in a line feed, starting
    with one, data with a carriage return before a line feed ... *)
Theorem C18_trailing_newline_refuted :
  let e := MkSse None None (lit "a" ++ [LF]) None in
  ∃ p, feed parser0 (display e) = Some (p, [MkSse None None (lit "a") None]).
Proof. eexists. vm_compute. reflexivity. Qed.
Print Assumptions C18_trailing_newline_refuted.
Theorem C18_leading_newline_refuted :
  let e := MkSse None None ([LF] ++ lit "a") None in
  ∃ p, feed parser0 (display e) = Some (p, [MkSse None None (lit "a") None]).
Proof. eexists. vm_compute. reflexivity. Qed.
Print Assumptions C18_leading_newline_refuted.
Theorem C18_crlf_data_refuted :
  let e := MkSse None None (lit "a" ++ [CR; LF] ++ lit "b") None in
  ∃ p, feed parser0 (display e) = Some (p, [MkSse None None (lit "a" ++ [LF] ++ lit "b") None]).
Proof. eexists. vm_compute. reflexivity. Qed.
Print Assumptions C18_crlf_data_refuted.
(** ... and a line feed in the id lets a peer inject an event of its own. *)
Theorem C18_injection_refuted :
  let e := MkSse (Some (lit "1" ++ [LF] ++ lit "data: evil" ++ [LF; LF])) None (lit "good") None in
  ∃ p, feed parser0 (display e)
       = Some (p, [MkSse (Some (lit "1")) None (lit "evil") None; MkSse (Some (lit "1")) None (lit "good") None]).
Proof. eexists. vm_compute. reflexivity. Qed.
Print Assumptions C18_injection_refuted.

(** C19, the part that holds: for text that is ASCII or free of carriage returns, any splitting
    gives the same events and the same parser state. *)
Theorem C19_chunking_partial : ∀ p chunks,
  plain (p_buf p ++ concat chunks) → LF ∉ p_buf p →
  feed_all p chunks = feed p (concat chunks).
Proof. exact chunking. Qed.
Print Assumptions C19_chunking_partial.

(** The condition can be put line by line: every line is ASCII, or neither ends in a carriage return
    nor has one at the place found by counting its bytes as characters.  Texts that are ASCII or
    free of carriage returns are such texts. *)
Theorem C19_lines_partial : ∀ p chunks,
  tame (p_buf p ++ concat chunks) → LF ∉ p_buf p →
  feed_all p chunks = feed p (concat chunks).
Proof. exact chunking_tame. Qed.
Print Assumptions C19_lines_partial.
Theorem C19_plain_lines : ∀ t, plain t → tame t.
Proof. exact plain_tame. Qed.
Print Assumptions C19_plain_lines.

(** The hypothesis on the buffer holds in every state that [feed] leaves behind. *)
Theorem C19_buffer_has_no_line : ∀ p data p' es, feed p data = Some (p', es) → LF ∉ p_buf p'.
Proof. exact feed_buf. Qed.
Print Assumptions C19_buffer_has_no_line.

(** C19 fails in general: "data:ééx", line feed, then carriage return, line feed.  Fed in one piece
    the event's data is "éé", fed in two it is "ééx". *)
Theorem C19_chunking_refuted :
  ∃ a b p1 p2 es1 es2,
    feed parser0 (a ++ b) = Some (p1, es1) ∧ feed_all parser0 [a; b] = Some (p2, es2) ∧ es1 ≠ es2.
Proof.
  exists (lit "data:" ++ [233; 233; 120; LF]%N), [CR; LF]%N.
  do 4 eexists. split; [|split]; [vm_compute; reflexivity|vm_compute; reflexivity|]. done.
Qed.
Print Assumptions C19_chunking_refuted.

(** No line with a character beyond ASCII that is ended by carriage return and line feed and fed by
    itself is read without its carriage return. *)
Theorem C19_crlf_refuted : ∀ line cur lastid,
  LF ∉ line → ¬ ascii line →
  feed (MkP [] cur lastid) (line ++ [CR; LF]) =
  let '(cur', lastid', e) := process_line cur lastid (line ++ [CR]) in
  Some (MkP [] cur' lastid', option_list e).
Proof. exact crlf_kept. Qed.
Print Assumptions C19_crlf_refuted.

(** C71: complete lines are interpreted as the SSE standard says: "name: value", "name:value" and
    "name" set the field (one space after the colon is dropped), lines starting with a colon and
    unknown fields are ignored, an empty line dispatches the event unless it has no data. *)
Theorem C71_field_lines : ∀ cur lastid name value,
  name ≠ [] → COLON ∉ name →
  process_line cur lastid (name ++ [COLON; SP] ++ value) = (field_effect name value cur lastid, None) ∧
  (head value ≠ Some SP →
     process_line cur lastid (name ++ [COLON] ++ value) = (field_effect name value cur lastid, None)) ∧
  process_line cur lastid name = (field_effect name [] cur lastid, None).
Proof. exact line_fields. Qed.
Print Assumptions C71_field_lines.

Theorem C71_other_lines : ∀ cur lastid comment,
  process_line cur lastid (COLON :: comment) = (cur, lastid, None) ∧
  (b_data cur = [] → process_line cur lastid [] = (builder0, lastid, None)) ∧
  (b_data cur ≠ [] →
     process_line cur lastid [] =
     (builder0, lastid,
      Some (MkSse (match b_id cur with Some i => Some i | None => lastid end)
                  (b_event cur) (b_data cur) (b_retry cur)))).
Proof.
  intros cur lastid comment. split; [done|]. unfold process_line, dispatch.
  split; [intros ->; done|]. by destruct (b_data cur).
Qed.
Print Assumptions C71_other_lines.

(** C71: a complete line fed to the parser is handed to the interpretation whole, without its line
    feed and an optional carriage return before it. *)
Theorem C71_lines_partial : ∀ line rest cur lastid,
  LF ∉ line → tame (line ++ LF :: rest) →
  feed (MkP [] cur lastid) (line ++ LF :: rest) =
  let '(cur', lastid', e) := process_line cur lastid (strip_cr line) in
  match feed (MkP [] cur' lastid') rest with
  | Some (p, es) => Some (p, option_list e ++ es)
  | None => None
  end.
Proof.
  intros line rest cur lastid Hl Hp. rewrite feed_tame by done. cbn [p_buf p_cur p_last app].
  rewrite run_line by done. destruct (process_line cur lastid (strip_cr line)) as [[cur' last'] e].
  rewrite feed_tame.
  - cbn [p_buf p_cur p_last app]. destruct (run (MkP rest cur' last')) as [p es]. by destruct e.
  - cbn [p_buf app]. by apply tame_rest in Hp.
Qed.
Print Assumptions C71_lines_partial.
(** False beyond that: with a character beyond ASCII anywhere on it, a line ended by carriage return and line feed sets its
    field to a value with the carriage return in it. *)
Theorem C71_crlf_refuted : ∀ cur lastid name value, name ≠ [] → COLON ∉ name → LF ∉ name ++ value → ¬ ascii (name ++ value) →
  feed (MkP [] cur lastid) (name ++ [COLON; SP] ++ value ++ [CR; LF]) =
  Some (MkP [] (field_effect name (value ++ [CR]) cur lastid).1 (field_effect name (value ++ [CR]) cur lastid).2, []).
Proof.
  intros cur lastid name value Hn Hc Hl Ha. replace (name ++ [COLON; SP] ++ value ++ [CR; LF]) with ((name ++ [COLON; SP] ++ value) ++ [CR; LF]) by (by rewrite <-!app_assoc).
  rewrite C19_crlf_refuted.
  - replace ((name ++ [COLON; SP] ++ value) ++ [CR]) with (name ++ [COLON; SP] ++ value ++ [CR]) by (by rewrite <-!app_assoc). destruct (C71_field_lines cur lastid name (value ++ [CR]) Hn Hc) as [-> _]. by destruct (field_effect _ _ _ _).
  - rewrite not_elem_of_app in Hl |- *. rewrite not_elem_of_app. destruct Hl as [H1 H2]. split; [done|]. split; [|done]. by apply (bool_decide_unpack _); vm_compute.
  - intros H. apply Ha. unfold ascii in *. intros c Hc'. apply H. rewrite !elem_of_app in *. tauto.
Qed.
Print Assumptions C71_crlf_refuted.
Example C71_example :
  ∃ p, feed parser0 (lit ": hi" ++ [LF] ++ lit "data:x" ++ [LF] ++ lit "data" ++ [CR; LF] ++ lit "foo: 1" ++ [LF]
                     ++ lit "retry: z" ++ [LF; LF])
       = Some (p, [MkSse None None (lit "x" ++ [LF]) None]).
Proof. eexists. vm_compute. reflexivity. Qed.

(** C20, the part that holds. *)
Theorem C20_no_panic_partial : ∀ p data, plain (p_buf p ++ data) → ∃ r, feed p data = Some r.
Proof. exact no_panic. Qed.
Print Assumptions C20_no_panic_partial.

(** C20: the exact condition of a panic.  Some complete line ends in a character beyond ASCII, and a
    carriage return stands where the line's bytes, counted as characters, end. *)
Theorem C20_panics : ∀ p data,
  feed p data = None ↔
  ∃ line rest, line_of (p_buf p ++ data) line rest ∧ struck line rest ∧
    ∃ c, last line = Some c ∧ (128 <= c)%N.
Proof. exact panics. Qed.
Print Assumptions C20_panics.
Example C20_panics_example :
  line_of (p_buf parser0 ++ [97; LF; 233; 233; LF; CR]%N) [233; 233]%N [CR] ∧ struck [233; 233]%N [CR] ∧
  feed parser0 [97; LF; 233; 233; LF; CR]%N = None.
Proof.
  split; [|split; [done|by vm_compute]]. exists [97; LF]%N. split; [done|]. split; [by right|].
  by apply (bool_decide_unpack _).
Qed.

(** C20 fails: two two-byte characters, a line feed and a carriage return. *)
Theorem C20_panic_refuted : feed parser0 [233; 233; LF; CR]%N = None.
Proof. vm_compute. reflexivity. Qed.
Print Assumptions C20_panic_refuted.

(** A multi-line event with id, type, retry and non-ASCII data, and a second one inheriting the id,
    are writable and survive being fed one character at a time. *)
Definition ev1 : sse_event :=
  MkSse (Some (lit "7")) (Some (lit "update")) (lit "a" ++ [LF; LF; 233]%N ++ lit ": b") (Some 1500%N).
Definition ev2 : sse_event := MkSse None None (lit " x") None.
Example C18_example :
  writable ev1 ∧ writable ev2 ∧
  ∃ p, feed_all parser0 ((λ c, [c]) <$> (display ev1 ++ display ev2))
       = Some (p, [ev1; MkSse (Some (lit "7")) None (lit " x") None]).
Proof.
  assert (Hd : ∀ (c : N) l, existsb (N.eqb c) l = false → c ∉ l).
  { intros c l H Hin. apply elem_of_list_In in Hin.
    assert (existsb (N.eqb c) l = true) as H'; [|congruence]. apply existsb_exists. exists c.
    split; [done|]. apply N.eqb_refl. }
  split; [|split].
  - repeat split; try (intros v [= <-]); try (simpl in *; simplify_eq); try (by apply Hd); try done; try (by vm_compute).
  - repeat split; try (intros v [= <-]); try (simpl in *; simplify_eq); try (by apply Hd); try done; try (by vm_compute).
  - eexists. vm_compute. reflexivity.
Qed.
(** Carriage returns are handled in ASCII text, also across a chunk boundary. *)
Example C19_example :
  plain (lit "data: a" ++ [CR; LF; CR; LF]) ∧
  (∃ p, feed_all parser0 [lit "data: a" ++ [CR]; [LF; CR]; [LF]] = Some (p, [MkSse None None (lit "a") None])).
Proof.
  split; [|eexists; vm_compute; reflexivity]. left.
  assert (H : forallb (λ c, (c <? 128)%N) (lit "data: a" ++ [CR; LF; CR; LF]) = true) by done.
  rewrite forallb_forall in H. intros c Hc. apply elem_of_list_In in Hc. by apply N.ltb_lt, H.
Qed.
(** A text with CRLF lines and a line beyond ASCII satisfies the line-wise condition only. *)
Example C19_lines_example :
  let t := lit "id: 1" ++ [CR; LF] ++ lit "data: " ++ [233; LF; LF]%N in
  ¬ plain t ∧ tame t ∧
  (snd <$> feed parser0 t) = Some [MkSse (Some (lit "1")) None [233]%N None].
Proof.
  split; [|split; [|by vm_compute]].
  - intros [H|H]; [|by apply H; apply (bool_decide_unpack _); vm_compute].
    assert (233 < 128)%N; [|lia]. apply H. by apply (bool_decide_unpack _); vm_compute.
  - intros l r Hl.
    change (lit "id: 1" ++ [CR; LF] ++ lit "data: " ++ [233; LF; LF]%N)
      with ((lit "id: 1" ++ [CR]) ++ LF :: (lit "data: " ++ [233]%N) ++ LF :: [] ++ LF :: []) in Hl.
    apply line_of_later in Hl; [|by apply (bool_decide_unpack _); vm_compute].
    destruct Hl as [[-> ->]|Hl].
    { left. assert (H : forallb (λ c, (c <? 128)%N) (lit "id: 1" ++ [CR]) = true) by done.
      rewrite forallb_forall in H. intros c Hc. apply elem_of_list_In in Hc. by apply N.ltb_lt, H. }
    apply line_of_later in Hl; [|by apply (bool_decide_unpack _); vm_compute].
    destruct Hl as [[-> ->]|Hl]; [right; split; [done|]; by vm_compute|].
    apply line_of_later in Hl; [|set_solver].
    destruct Hl as [[-> ->]|Hl]; [left; intros ? ?%elem_of_nil; done|].
    exfalso. revert Hl. apply line_of_none. set_solver.
Qed.
