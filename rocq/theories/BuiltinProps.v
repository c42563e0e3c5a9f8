(** Property C217: the middlewares that come with the library. *)
From stdpp Require Import strings list.
From Verif Require Import TextLib JsonLib SerdeLib TypesModel RpcModel LogModel ReconnectModel BuiltinModel BuiltinSpec.

Lemma loop_skips {M} (pick : middleware rpc_request rpc_response message api_error → M → M * option api_error) (c : list link) (m : M) :
  (∀ b m, pick (hooks b) m = (m, None)) →
  let '(seen, m1, r) := chain_loop (pick <$> (as_middleware <$> c)) m in chain_loop (pick <$> own c) m = (own_saw c seen, m1, r).
Proof.
  intros Hb. revert m. induction c as [|x c IH]; intros m; [done|]. cbn [fmap list_fmap chain_loop]. destruct x as [b|u].
  - cbn [as_middleware]. rewrite Hb. specialize (IH m). destruct (chain_loop (pick <$> (as_middleware <$> c)) m) as [[seen m1] r]. exact IH.
  - cbn [as_middleware own omap list_omap fmap list_fmap chain_loop]. destruct (pick u m) as [m' [e|]].
    + unfold own_saw. cbn. by destruct c.
    + specialize (IH m'). destruct (chain_loop (pick <$> (as_middleware <$> c)) m') as [[seen m1] r]. unfold own in IH. cbn in IH |- *. rewrite IH. done.
Qed.
(** The middlewares of the library are transparent: in any chain, wherever they stand in it, the user's own middlewares see
    the messages they would see without them, and the message left and the result are the same. *)
Theorem C217_transparent : ∀ c,
  (∀ q, let '(seen, q', r) := process_request (as_middleware <$> c) q in process_request (own c) q = (own_saw c seen, q', r)) ∧
  (∀ x, let '(seen, x', r) := process_response (as_middleware <$> c) x in process_response (own c) x = (own_saw c seen, x', r)) ∧
  (∀ m, let '(seen, m', r) := process_send (as_middleware <$> c) m in process_send (own c) m = (own_saw c seen, m', r)) ∧
  (∀ m, let '(seen, m', r) := process_receive (as_middleware <$> c) m in process_receive (own c) m = (own_saw c seen, m', r)).
Proof.
  intros c. split; [|split; [|split]]; intros m.
  - exact (loop_skips on_request c m (λ _ _, eq_refl)).
  - exact (loop_skips on_response c m (λ _ _, eq_refl)).
  - exact (loop_skips (λ x t, (t, on_send x t)) c m (λ _ _, eq_refl)).
  - exact (loop_skips (λ x t, (t, on_receive x t)) c m (λ _ _, eq_refl)).
Qed.
Print Assumptions C217_transparent.
(** Hence a chain of nothing else lets every message pass unchanged. *)
Lemma builtin_cons x c : all_builtin (x :: c) ↔ (∃ b, x = inl b) ∧ all_builtin c.
Proof. unfold all_builtin, own. destruct x as [b|u]; cbn; [split; [intros H; split; [by eexists|done]|by intros [_ H]]|split; [done|by intros [[b [=]] _]]]. Qed.
Lemma builtin_loop {M} (pick : middleware rpc_request rpc_response message api_error → M → M * option api_error) (c : list link) (m : M) :
  (∀ b m, pick (hooks b) m = (m, None)) → all_builtin c → chain_loop (pick <$> (as_middleware <$> c)) m = (replicate (length c) m, m, None).
Proof.
  intros Hb. induction c as [|x c IH]; [done|]. rewrite builtin_cons. intros [[b ->] Hc]. cbn [fmap list_fmap chain_loop as_middleware]. rewrite Hb. by rewrite IH.
Qed.
(** Refuted: that they do what they are for.  No chain of the library's middlewares changes a request – no
    token and no number of retries gets into it – and none repeats one. *)
Theorem C217_nothing_refuted : ∀ c q, all_builtin c → process_request (as_middleware <$> c) q = (replicate (length c) q, q, None).
Proof. intros c q H. exact (builtin_loop on_request c q (λ _ _, eq_refl) H). Qed.
Print Assumptions C217_nothing_refuted.

Lemma same_hooks c c' : same_but_tokens c c' → as_middleware <$> c = as_middleware <$> c'.
Proof.
  induction 1 as [|x x' c c' Hx _ IH]; [done|]. cbn [fmap list_fmap]. rewrite IH. f_equal. destruct x as [[]|], x' as [[]|]; try congruence; done.
Qed.
(** What is logged does not depend on the tokens, and neither does what becomes of a request. *)
Theorem C217_tokens : ∀ sq sr si c c', same_but_tokens c c' →
  (∀ q, request_log sq c q = request_log sq c' q ∧ process_request (as_middleware <$> c) q = process_request (as_middleware <$> c') q) ∧
  (∀ r, response_log sr si c r = response_log sr si c' r).
Proof.
  intros sq sr si c c' H. pose proof (same_hooks _ _ H) as E. split; [intros q; split; [|by rewrite E]|intros r].
  - unfold request_log. rewrite E. generalize (process_request (as_middleware <$> c') q).1.1 as l. clear E. induction H as [|x x' c c' Hx _ IH]; intros [|m l]; try done.
    cbn [zip zip_with omap list_omap fst snd]. rewrite IH. destruct x as [[]|], x' as [[]|]; try (injection Hx as ->); try discriminate Hx; done.
  - unfold response_log. rewrite E. generalize (process_response (as_middleware <$> c') r).1.1 as l. clear E. induction H as [|x x' c c' Hx _ IH]; intros [|m l]; try done.
    cbn [zip zip_with omap list_omap fst snd]. rewrite IH. destruct x as [[]|], x' as [[]|]; try (injection Hx as ->); try discriminate Hx; done.
Qed.
Print Assumptions C217_tokens.
(** Except at level TRACE, parameters and results do not get into the log: its lines are the same for
    requests of one method and for responses with one id. *)
Theorem C217_contents_partial : ∀ sq sr si c, all_builtin c → inl (BLogging Trace) ∉ c →
  (∀ q q', rq_method q = rq_method q' → request_log sq c q = request_log sq c q') ∧
  (∀ r r', rs_id r = rs_id r' → response_log sr si c r = response_log sr si c r').
Proof.
  intros sq sr si c Hb Ht. split; intros q q' Hq.
  - unfold request_log, process_request. rewrite !(builtin_loop on_request c) by done. cbn [fst]. revert Hb Ht. induction c as [|x c IH]; [done|]. rewrite builtin_cons, not_elem_of_cons. intros [[b ->] Hb] [Hx Ht].
    cbn [length replicate zip zip_with omap list_omap fst snd]. rewrite IH by done. assert (request_line sq b q = request_line sq b q') as ->; [|done]. destruct b as [[]| |]; cbn; congruence.
  - unfold response_log, process_response. rewrite !(builtin_loop on_response c) by done. cbn [fst]. revert Hb Ht. induction c as [|x c IH]; [done|]. rewrite builtin_cons, not_elem_of_cons. intros [[b ->] Hb] [Hx Ht].
    cbn [length replicate zip zip_with omap list_omap fst snd]. rewrite IH by done. assert (response_line sr si b q = response_line sr si b q') as ->; [|done]. destruct b as [[]| |]; cbn; congruence.
Qed.
Print Assumptions C217_contents_partial.
(** At level TRACE the whole request is written, parameters included. *)
Theorem C217_trace_refuted : ∀ sq c q, all_builtin c → inl (BLogging Trace) ∈ c → (Trace, lit "Sending request: " ++ sq q) ∈ request_log sq c q.
Proof.
  intros sq c q Hb Hin. unfold request_log, process_request. rewrite (builtin_loop on_request c) by done. cbn [fst].
  revert Hb Hin. induction c as [|x c IH]; [by intros _ ?%elem_of_nil|]. rewrite builtin_cons. intros [[b ->] Hb] Hin.
  cbn [length replicate zip zip_with omap list_omap fst snd]. apply elem_of_cons in Hin as [[= <-]|Hin]; [by left|]. right. by apply IH.
Qed.
Print Assumptions C217_trace_refuted.
Lemma mentions_end a m : mentions (a ++ m) m.
Proof. exists a, []. by rewrite app_nil_r. Qed.
Lemma mentions_mid a m b : mentions (a ++ m ++ b) m.
Proof. by exists a, b. Qed.
Lemma mentions_deep a b c m d : mentions (a ++ b ++ c ++ m ++ d) m.
Proof. exists (a ++ b ++ c), d. by rewrite <-!app_assoc. Qed.
(** Each of them writes one line for a request, in their order, at its level; it names the method (at level TRACE it is the whole
    request), and the number of retries.  For a response those that log write one line each, at their level. *)
Theorem C217_logged : ∀ sq sr si bs q r,
  (request_log sq (inl <$> bs) q).*1 = level_of <$> bs ∧ (response_log sr si (inl <$> bs) r).*1 = level_of <$> filter (λ b, is_logging b = true) bs ∧
  ∀ i b l t, bs !! i = Some b → request_log sq (inl <$> bs) q !! i = Some (l, t) → (b ≠ BLogging Trace → mentions t (rq_method q)) ∧ ∀ n d m, b = BRetry n d m → mentions t (show_N n).
Proof.
  intros sq sr si bs q r. assert (all_builtin (inl <$> bs)) as Hb by (induction bs as [|b bs IH]; [done|exact IH]).
  assert (request_log sq (inl <$> bs) q = (λ b, request_line sq b q) <$> bs) as Eq.
  { unfold request_log, process_request. rewrite (builtin_loop on_request _) by done. cbn [fst]. clear Hb. induction bs as [|b bs IH]; [done|]. rewrite !fmap_cons. cbn [length replicate zip zip_with omap list_omap fst snd]. by rewrite IH. }
  assert (response_log sr si (inl <$> bs) r = omap (λ b, response_line sr si b r) bs) as Er.
  { unfold response_log, process_response. rewrite (builtin_loop on_response _) by done. cbn [fst]. clear Hb Eq. induction bs as [|b bs IH]; [done|]. rewrite !fmap_cons. cbn [length replicate zip zip_with omap list_omap fst snd]. by rewrite IH. }
  rewrite Eq, Er. split; [|split].
  - rewrite <-list_fmap_compose. apply list_fmap_ext. intros _ b _. by destruct b as [[]| |].
  - clear. induction bs as [|b bs IH]; [done|]. destruct (is_logging b) eqn:E.
    + rewrite filter_cons_True by done. destruct b as [l| |]; [|done..]. assert (∃ t, response_line sr si (BLogging l) r = Some (l, t)) as [t Ht] by (destruct l; by eexists). cbn [omap list_omap]. rewrite Ht. rewrite !fmap_cons, IH. done.
    + rewrite filter_cons_False by congruence. destruct b; [done|exact IH..].
  - intros i b l t Hi Ht. rewrite list_lookup_fmap, Hi in Ht. cbn [fmap option_fmap option_map] in Ht. apply (inj Some) in Ht. split.
    + intros Hn. destruct b as [[]| |]; [by destruct Hn|..]; apply pair_equal_spec in Ht as [_ <-]; [apply mentions_end..|apply mentions_mid].
    + intros n d m ->. apply pair_equal_spec in Ht as [_ <-]. apply mentions_deep.
Qed.
Print Assumptions C217_logged.
Example C217_example :
  let q := new_request (IdNum 1) (lit "tools/call") (Some (JStr (lit "secret"))) in
  let user : middleware rpc_request rpc_response message api_error := MkMiddleware (λ q, (new_request (rq_id q) (lit "x") (rq_params q), None)) (λ r, (r, None)) (λ _, None) (λ _, None) in
  let c := [inl (BAuth (lit "t")); inr user; inl logging_default; inl retry_default] in
  own c = [user] ∧ (process_request (as_middleware <$> c) q).1.2 = new_request (IdNum 1) (lit "x") (Some (JStr (lit "secret"))) ∧
  request_log (λ _, lit "?") c q = [(Debug, lit "Adding authentication to request: tools/call"); (Debug, lit "Sending request: x"); (Debug, lit "Request x configured with max 3 retries")].
Proof. split; [done|]. split; by vm_compute. Qed.
