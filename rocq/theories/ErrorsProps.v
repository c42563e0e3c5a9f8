(** Property C216: telling errors apart. *)
From stdpp Require Import gmap strings list.
From Verif Require Import TextLib JsonLib SerdeLib TypesModel RpcModel RpcSpec ManagersModel ServerModel ServerSpec ClientModel ClientSpec StdioModel StdioSpec StackModel StackSpec StackProps ErrorsModel ErrorsSpec.

(** Within a program the code of an error is the one it was made with, is_error_code and error_code agree, and
    the constructors for JSON-RPC errors give the codes of the standard. *)
Theorem C216_made : ∀ e c, (is_error_code e c = true ↔ error_code e = Some c) ∧ (error_code e = Some c ↔ ∃ m d, made_of e = Some (c, m, d)).
Proof.
  intros e c. split; destruct e; cbn; try done; try (split; [done|by intros (? & ? & ?)]).
  - rewrite Z.eqb_eq. split; [by intros ->|by intros [= ->]].
  - split; [intros [= ->]; by eexists _, _|by intros (m & d & [= -> _ _])].
Qed.
Print Assumptions C216_made.
(** An error is made with the code, the message and the data given. *)
Theorem C216_given : ∀ c m d, made_of (e_protocol c m) = Some (c, m, None) ∧ made_of (e_protocol_with_data c m d) = Some (c, m, Some d).
Proof. done. Qed.
Print Assumptions C216_given.
Theorem C216_standard : ∀ f c m, (f, c) ∈ jsonrpc_errors → is_error_code (f m) c = true ∧ ∃ m', made_of (f m) = Some (c, m', None) ∧ m `suffix_of` m'.
Proof.
  intros f c m H. repeat (apply elem_of_cons in H as [[= -> ->]|H]; [split; [done|]; eexists; split; [reflexivity|]; first [reflexivity|by apply suffix_app_r]|]). by apply elem_of_nil in H.
Qed.
Print Assumptions C216_standard.
Theorem C216_others : ∀ f c m, f ∈ other_errors → is_error_code (f m) c = false.
Proof. intros f c m H. repeat (apply elem_of_cons in H as [->|H]; [done|]). by apply elem_of_nil in H. Qed.
Print Assumptions C216_others.

(** Refuted between a server and a client: whatever error a handler fails with, the error its caller
    gets has the code INTERNAL_ERROR and no data. *)
Theorem C216_call_refuted : ∀ os cf behave key ops y rs k p id y' r kd h args e, build os = inl cf → never_panics behave → typed behave → scaps_ok (cf_caps cf) →
  session cf behave key stack_new ops = (y, rs) → cl_initialized (y_client y) = true → k ≠ CCreateMessage → allows (scaps_json (cf_caps cf)) k →
  call cf behave key y (OCall k p) id = (y', r) → travels y' → destination os (RClient k p) = Some (kd, h, args) → behave (sv_calls (y_server y')) = HErr e →
  ∃ x, r = CErr x ∧ (∀ c, is_error_code x c = true ↔ c = (-32603)%Z) ∧ ∃ m, made_of x = Some ((-32603)%Z, m, None).
Proof.
  intros os cf behave key ops y rs k p id y' r kd h args e H1 H2 H3 H4 H5 H6 H7 H8 H9 H10 H11 He.
  destruct (C197_result _ _ _ _ _ _ _ _ _ _ _ _ _ _ _ H1 H2 H3 H4 H5 H6 H7 H8 H9 H10 H11) as (i & _ & _ & _ & H). rewrite He in H. rewrite H. eexists. split; [reflexivity|].
  split; [|by eexists]. intros c. cbn [is_error_code]. rewrite Z.eqb_eq. split; by intros ->.
Qed.
Print Assumptions C216_call_refuted.

Lemma stop_dash m : JsonLib.stop (lit " - " ++ m).
Proof. split; [done|]. split; [done|]. split; done. Qed.
Lemma code_range c : i32_ok c → (- Z.of_N i64_min_abs <= c <= Z.of_N u64_max)%Z.
Proof. unfold i32_ok. change (Z.of_N i64_min_abs) with 9223372036854775808%Z. change (Z.of_N u64_max) with 18446744073709551615%Z. lia. Qed.
(** What does arrive is the text of the error; from the text of a protocol error its code and message – not its
    data – can be told. *)
Theorem C216_text_partial : ∀ c m d c' m' d', i32_ok c → i32_ok c' →
  error_display (EProtocol c m d) = error_display (EProtocol c' m' d') ↔ c = c' ∧ m = m'.
Proof.
  intros c m d c' m' d' Hc Hc'. split; [|by intros [-> ->]]. cbn [error_display]. intros H. apply app_inv_head in H.
  pose proof (parse_num_show c _ (code_range _ Hc) (stop_dash m)) as P. rewrite H, (parse_num_show c' _ (code_range _ Hc') (stop_dash m')) in P.
  apply Some_inj in P. apply pair_equal_spec in P as [P1 P2]. apply app_inv_head in P2. split; [|done]. congruence.
Qed.
Print Assumptions C216_text_partial.
(** So two handlers' protocol errors look the same to a caller exactly if they agree in code and message. *)
Theorem C216_told_partial : ∀ os cf behave key ops y rs k p id y' r kd h args c m d, build os = inl cf → never_panics behave → typed behave → scaps_ok (cf_caps cf) →
  session cf behave key stack_new ops = (y, rs) → cl_initialized (y_client y) = true → k ≠ CCreateMessage → allows (scaps_json (cf_caps cf)) k →
  call cf behave key y (OCall k p) id = (y', r) → travels y' → destination os (RClient k p) = Some (kd, h, args) → behave (sv_calls (y_server y')) = HErr (EProtocol c m d) → i32_ok c →
  ∃ shown, r = CErr (EProtocol (-32603) shown None) ∧ ∀ c' m' d', i32_ok c' → shown = error_display (EProtocol c' m' d') ↔ c' = c ∧ m' = m.
Proof.
  intros os cf behave key ops y rs k p id y' r kd h args c m d H1 H2 H3 H4 H5 H6 H7 H8 H9 H10 H11 He Hc.
  destruct (C197_result _ _ _ _ _ _ _ _ _ _ _ _ _ _ _ H1 H2 H3 H4 H5 H6 H7 H8 H9 H10 H11) as (i & _ & _ & _ & H). rewrite He in H. eexists. split; [exact H|].
  intros c' m' d' Hc'. rewrite C216_text_partial by done. naive_solver.
Qed.
Print Assumptions C216_told_partial.
(** Refuted: an error made with cancelled is not the error Cancelled but a validation error, and
    resource_not_found says so twice. *)
Theorem C216_cancelled_refuted : ∀ m, e_cancelled m ≠ ECancelled ∧ e_cancelled m = e_validation (lit "Operation cancelled: " ++ m).
Proof. done. Qed.
Print Assumptions C216_cancelled_refuted.
Theorem C216_twice_refuted : ∀ uri, error_display (e_resource_not_found uri) = lit "Resource not found: Resource not found: " ++ uri.
Proof. done. Qed.
Print Assumptions C216_twice_refuted.

(** A tool that fails with method_not_found. *)
Definition strict_tool (is : list invocation) : hresult := HErr (e_method_not_found (lit "m")).
Example C216_example :
  never_panics strict_tool ∧ typed strict_tool ∧ is_error_code (e_method_not_found (lit "m")) (-32601) = true ∧
  last (session demo_config strict_tool (λ _, EmptyString) stack_new (take 3 demo_ops)).2 = Some (CErr (EProtocol (-32603) (lit "Protocol error: -32601 - Method not found: m") None)).
Proof. split; [done|]. split; [done|]. split; [done|]. by vm_compute. Qed.
