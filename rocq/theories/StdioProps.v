(** C37, C80, C81, C193: the stdio transport. *)
From stdpp Require Import sets list strings.
From Verif Require Import ListLib TextLib Utf8Lib JsonLib SerdeLib WhiteSpec TypesModel RpcModel RpcSpec RpcProofs StdioModel StdioSpec StdioProofs StdioProofs2.
Local Open Scope N_scope.

(** ** C37: framing is transparent *)
(** Frames with arbitrary payload bytes, followed by any bytes, are read one by one, each giving
    what its own payload parses to, and leave exactly the bytes after them.  (A Rust byte vector
    never exceeds isize::MAX bytes.) *)
Theorem C37_frames : ∀ ps rest out, Forall (λ p, N.of_nat (length p) <= isize_max) ps →
  srun {| sd_in := concat (frame <$> ps) ++ rest; sd_out := out; sd_closed := false |} (replicate (length ps) Receive)
  = ((λ p, Got (reading p)) <$> ps, {| sd_in := rest; sd_out := out; sd_closed := false |}).
Proof. exact receive_frames. Qed.
Print Assumptions C37_frames.
(** Whatever else happens on the sender's side (messages it receives, closing), a reader of its
    output receives exactly the messages it sent, in order, and then the end of the connection. *)
Theorem C37_end_to_end : ∀ os inp rs s, srun (open_on inp) os = (rs, s) → Forall sendable (sent_ok os rs) →
  srun (open_on (sd_out s)) (replicate (S (length (sent_ok os rs))) Receive)
  = (((λ m, Got (RMsg (msg_seen_as m))) <$> sent_ok os rs) ++ [Got RClosed],
     {| sd_in := []; sd_out := []; sd_closed := true |}).
Proof. exact end_to_end. Qed.
Print Assumptions C37_end_to_end.
Example C37_example :
  let m := MsgResponse (success (IdNum 2) (JObj [(lit "content", JArr [])])) in
  sendable m ∧ sent_ok [Send m; Receive; Send m; Close; Send m] (srun (open_on [104; 10]) [Send m; Receive; Send m; Close; Send m]).1 = [m] ∧
  srun (open_on (frame (lit "Content-Length: 3") ++ frame (serialize_message m))) [Receive; Receive; Receive]
  = ([Got RInvalid; Got (RMsg m); Got RClosed], {| sd_in := []; sd_out := []; sd_closed := true |}).
Proof.
  cbn zeta. split; [|by vm_compute].
  split; [cbn; unfold good_response; cbn; unfold i64_min, i64_max; lia|].
  split; [done|]. split; [|by vm_compute].
  split; [cbn; lia|]. split; [|split; [|cbn; lia]].
  - cbn. repeat split; apply nodupb_NoDup; by vm_compute.
  - cbn. repeat split; repeat constructor; unfold scalar; lia.
Qed.

(** ** C80: closing is final *)
(** After close, or after the end of the input has been reported, every later call is refused and
    nothing more is written. *)
Theorem C80_closed : ∀ s os1 o os2 rs1 s1 r s2 rs2 s3,
  srun s os1 = (rs1, s1) → sstep s1 o = (r, s2) → r = ClosedOk ∨ r = Got RClosed →
  srun s2 os2 = (rs2, s3) → Forall refuses rs2 ∧ sd_out s3 = sd_out s2.
Proof. exact closed_for_good. Qed.
Print Assumptions C80_closed.
(** And it is closed by nothing else: not by malformed headers, bodies or a truncated frame. *)
Theorem C80_only : ∀ os inp rs s, srun (open_on inp) os = (rs, s) → (sd_closed s = true ↔ ClosedOk ∈ rs ∨ Got RClosed ∈ rs).
Proof. intros os inp rs s H. rewrite (closed_iff os _ _ _ H). cbn. naive_solver. Qed.
Print Assumptions C80_only.
Example C80_example :
  let m := MsgResponse (success (IdNum 2) JNull) in
  srun (open_on (lit "x")) [Receive; Receive; Send m] = ([Got RClosed; Got RClosed; SendClosed], {| sd_in := []; sd_out := []; sd_closed := true |}).
Proof. by vm_compute. Qed.

(** ** C81: no input makes receive panic *)
(** A panic needs a header that announces more than isize::MAX bytes … *)
Theorem C81_cause_partial : ∀ s s', receive s = (RPanic, s') →
  ∃ pre line post n, sd_in s = pre ++ line ++ post ∧ (pre = [] ∨ last pre = Some 10) ∧
    (∃ t, utf8_decode line = Some t ∧ parse_content_length (trim t) = Some n) ∧ isize_max < n.
Proof. exact panic_cause. Qed.
Print Assumptions C81_cause_partial.
(** … and every such header does it: a peer can crash the process with one line. *)
Theorem C81_no_panic_refuted : ∀ n r out, isize_max < n → n <= u64_max →
  (receive {| sd_in := header_name ++ show_N n ++ crlf2 ++ r; sd_out := out; sd_closed := false |}).1 = RPanic.
Proof. intros n r out H1 H2. by rewrite receive_panic. Qed.
Print Assumptions C81_no_panic_refuted.
Example C81_example : (receive (open_on (lit "Content-Length: 9223372036854775808" ++ crlf2))).1 = RPanic ∧
  (receive (open_on (lit "Content-Length: 9223372036854775807" ++ crlf2))).1 = RIo.
Proof. by vm_compute. Qed.

(** ** C193: header blocks of other programs *)
(** A block may have any lines: other headers are skipped, white space around the length does not
    matter, of several lengths the last one counts, and any line of white space ends the block. *)
Theorem C193_read : ∀ ts1 t ts2 b payload rest out,
  Forall header_line (ts1 ++ t :: ts2) → one_line b → blank b →
  states (N.of_nat (length payload)) t → Forall other_header ts2 → N.of_nat (length payload) <= isize_max →
  receive {| sd_in := concat (on_line <$> ts1 ++ t :: ts2) ++ on_line b ++ payload ++ rest; sd_out := out; sd_closed := false |}
  = (reading payload, {| sd_in := rest; sd_out := out; sd_closed := false |}).
Proof. exact block_read. Qed.
Print Assumptions C193_read.
(** A block without a length is an invalid message; reading goes on after it. *)
Theorem C193_missing : ∀ ts b rest out, Forall header_line ts → Forall other_header ts → one_line b → blank b →
  receive {| sd_in := concat (on_line <$> ts) ++ on_line b ++ rest; sd_out := out; sd_closed := false |}
  = (RInvalid, {| sd_in := rest; sd_out := out; sd_closed := false |}).
Proof. exact block_missing. Qed.
Print Assumptions C193_missing.
(** A line that is not UTF-8 is an I/O error; reading goes on after it. *)
Theorem C193_garbage : ∀ l rest out, Forall (λ b, b < 256) l → 10 ∉ l → (¬ ∃ t, Forall scalar t ∧ l = utf8 t) →
  receive {| sd_in := l ++ 10 :: rest; sd_out := out; sd_closed := false |} = (RIo, {| sd_in := rest; sd_out := out; sd_closed := false |}).
Proof. intros l rest out Hb Hl Hn. apply garbage_line; [done|]. by apply garbage_decode. Qed.
Print Assumptions C193_garbage.
(** A body that ends early is an I/O error, whatever it holds. *)
Theorem C193_truncated : ∀ ts1 t ts2 b body n out,
  Forall header_line (ts1 ++ t :: ts2) → one_line b → blank b → states n t → Forall other_header ts2 →
  n <= isize_max → N.of_nat (length body) < n →
  receive {| sd_in := concat (on_line <$> ts1 ++ t :: ts2) ++ on_line b ++ body; sd_out := out; sd_closed := false |}
  = (RIo, {| sd_in := []; sd_out := out; sd_closed := false |}).
Proof. exact short_body. Qed.
Print Assumptions C193_truncated.
Example C193_example :
  let m := MsgResponse (success (IdNum 2) JNull) in
  let t := [8195] ++ lit "Content-Length:   38 " ++ [13] in
  let u := lit "Content-Type: text" in
  states 38 t ∧ ¬ blank t ∧ ¬ blank u ∧ length (serialize_message m) = 38%nat ∧
  srun (open_on (on_line u ++ on_line t ++ on_line [13] ++ serialize_message m ++ [255; 10] ++ on_line u ++ on_line [])) [Receive; Receive; Receive; Receive]
  = ([Got (RMsg m); Got RIo; Got RInvalid; Got RClosed], {| sd_in := []; sd_out := []; sd_closed := true |}).
Proof.
  cbn zeta. split; [|split; [|split]].
  - exists [8195], (lit "  "), (lit " " ++ [13]). split; [by vm_compute|].
    assert (Hb : ∀ l, forallb is_white l = true → blank l).
    { intros l Hl c Hc. apply white_spec. apply (proj1 (forallb_forall _ _) Hl). by apply elem_of_list_In. }
    split; [|split]; apply Hb; by vm_compute.
  - intros H. assert (67 ∈ white_space) as Hw; [|by apply white_spec in Hw]. apply H. apply elem_of_list_In. vm_compute. tauto.
  - intros H. assert (67 ∈ white_space) as Hw; [|by apply white_spec in Hw]. apply H. apply elem_of_list_In. vm_compute. tauto.
  - by vm_compute.
Qed.
