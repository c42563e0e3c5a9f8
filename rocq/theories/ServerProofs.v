(** Proofs about the server. *)
From stdpp Require Import gmap strings list.
From Verif Require Import ListLib TextLib JsonLib SerdeLib TypesModel RpcModel RpcSpec RpcProofs ManagersModel ServerModel ServerSpec.

Global Instance creq_eq_dec : EqDecision creq. Proof. solve_decision. Defined.

(** *** The builder *)
Lemma told_snoc {A} (f : bop → option A) os o : told f (os ++ [o]) = match f o with Some a => Some a | None => told f os end.
Proof. unfold told. rewrite omap_app. cbn. destruct (f o) as [a|]; [by rewrite last_snoc|by rewrite app_nil_r]. Qed.
Record b_inv (os : list bop) (b : builder) : Prop := {
  bi_tools : ∀ n, b_tools b !! n = told (tool_of n) os; bi_prompts : ∀ n, b_prompts b !! n = told (prompt_of n) os;
  bi_resources : b_resources b = told resources_of os; bi_sampling : b_sampling b = told sampling_of os;
  bi_name : b_name b = told name_of os; bi_version : b_version b = told version_of os }.
Lemma b_inv_run os : b_inv os (fold_left b_step os builder_new).
Proof.
  induction os as [|o os [H1 H2 H3 H4 H5 H6]] using rev_ind; [by split|]. rewrite fold_left_app. cbn [fold_left].
  split; intros; rewrite told_snoc; destruct o; cbn; rewrite ?H1, ?H2, ?H3, ?H4, ?H5, ?H6; try done.
  - destruct (decide (n = n0)) as [->|Hn]; [by rewrite lookup_insert, decide_True|]. rewrite lookup_insert_ne, decide_False by done. apply H1.
  - destruct (decide (n = n0)) as [->|Hn]; [by rewrite lookup_insert, decide_True|]. rewrite lookup_insert_ne, decide_False by done. apply H2.
Qed.
Record c_inv (os : list bop) (cf : config) : Prop := {
  ci_tools : ∀ n, cf_tools cf !! n = told (tool_of n) os; ci_prompts : ∀ n, cf_prompts cf !! n = told (prompt_of n) os;
  ci_resources : cf_resources cf = told resources_of os; ci_sampling : cf_sampling cf = told sampling_of os;
  ci_name : Some (cf_name cf) = told name_of os; ci_version : Some (cf_version cf) = told version_of os }.
Lemma built os cf : build os = inl cf → c_inv os cf.
Proof.
  unfold build. cbn zeta. destruct (b_inv_run os) as [H1 H2 H3 H4 H5 H6]. destruct (b_name _) as [n|]; [|done]. destruct (b_version _) as [v|]; [|done].
  intros [= <-]. by split.
Qed.
Lemma build_ok os : (∃ cf, build os = inl cf) ↔ is_Some (told name_of os) ∧ is_Some (told version_of os).
Proof.
  unfold build. cbn zeta. destruct (b_inv_run os) as [_ _ _ _ H5 H6]. rewrite <-H5, <-H6. destruct (b_name _) as [n|]; [destruct (b_version _) as [v|]|].
  - split; [intros _; eauto|intros _; by eexists].
  - split; [by intros [? ?]|by intros [_ [? ?]]].
  - split; [by intros [? ?]|by intros [[? ?] _]].
Qed.
Lemma caps_default os : Forall (λ o, match o with BCaps _ | BSampling _ => False | _ => True end) os → b_caps (fold_left b_step os builder_new) = scaps_default.
Proof.
  induction os as [|o os IH] using rev_ind; [done|]. rewrite Forall_app, Forall_singleton. intros [Hos Ho]. rewrite fold_left_app. cbn [fold_left]. destruct o; cbn; try done; by apply IH.
Qed.
Lemma caps_sampling os1 h os2 : Forall (λ o, match o with BCaps _ => False | _ => True end) os2 →
  is_Some (sc_sampling (b_caps (fold_left b_step (os1 ++ BSampling h :: os2) builder_new))).
Proof.
  intros H. rewrite fold_left_app. cbn [fold_left]. generalize (fold_left b_step os1 builder_new) as b. intros b.
  assert (Hb : is_Some (sc_sampling (b_caps (b_step b (BSampling h))))) by by eexists. revert Hb. generalize (b_step b (BSampling h)) as b'. clear b.
  induction H as [|o os2 Ho H IH]; intros b Hb; [done|]. cbn [fold_left]. apply IH. by destruct o.
Qed.

(** *** Shapes of parameters *)
Lemma call_shape p : is_of t_call_tool_request p → ∃ name args, p = call_params name args.
Proof.
  intros (out & rest & -> & Hl & Hr). cbn in Hl, Hr. subst rest. rewrite app_nil_r. destruct Hl as (v & l & -> & (n & ->) & Hl). destruct Hl as (w & l' & -> & _ & ->). by exists n, w.
Qed.
Lemma prompt_shape p : is_of t_get_prompt_request p → ∃ name args, p = call_params name args.
Proof.
  intros (out & rest & -> & Hl & Hr). cbn in Hl, Hr. subst rest. rewrite app_nil_r. destruct Hl as (v & l & -> & (n & ->) & Hl). destruct Hl as (w & l' & -> & _ & ->). by exists n, w.
Qed.
Lemma list_shape p : is_of t_list_request p → p = JObj [] ∨ ∃ c, p = JObj [(lit "cursor", JStr c)].
Proof.
  intros (out & rest & -> & Hl & Hr). cbn in Hl, Hr. subst rest. rewrite app_nil_r. destruct Hl as [->|(v & l & -> & _ & (c & ->) & ->)]; [by left|right; by exists c].
Qed.
Lemma uri_shape p : is_of t_uri_params p → ∃ u, p = JObj [(lit "uri", JStr u)].
Proof. intros (out & rest & -> & Hl & Hr). cbn in Hl, Hr. subst rest. rewrite app_nil_r. destruct Hl as (v & l & -> & (n & ->) & ->). by exists n. Qed.

(** *** The message loop *)
Section server.
  Context (cf : config) (behave : list invocation → hresult) (key : list N → string).
  Notation step := (v_step cf behave key).
  Notation run := (v_run cf behave key).
  Notation handle := (handle_request cf behave key).
  Lemma run_snoc es e : run (es ++ [e]) = step (run es) e.
  Proof. unfold v_run. by rewrite fold_left_app. Qed.
  Lemma run_app es1 es2 : run (es1 ++ es2) = fold_left step es2 (run es1).
  Proof. unfold v_run. by rewrite fold_left_app. Qed.

  (** What handling a request leaves alone. *)
  Definition same_rest (s s' : server) : Prop :=
    sv_canceller s' = sv_canceller s ∧ sv_subs s' = sv_subs s ∧ sv_sent s' = sv_sent s ∧ sv_listening s' = sv_listening s.
  Lemma invoke_rest k h args id wrap s s' r : invoke behave key k h args id wrap s = (s', r) → same_rest s s' ∧ sv_initialized s' = sv_initialized s ∧ sv_client s' = sv_client s.
  Proof. unfold invoke. intros [= <- <-]. done. Qed.
  Lemma process_rest id c p s s' r : process_client_request cf behave key id c p s = (s', r) →
    same_rest s s' ∧ sv_initialized s' = sv_initialized s ∧ sv_client s' = sv_client s.
  Proof.
    unfold process_client_request. destruct c; try (by intros [= <- <-]).
    - destruct (cf_tools cf !! _); [apply invoke_rest|by intros [= <- <-]].
    - destruct (cf_prompts cf !! _); [apply invoke_rest|by intros [= <- <-]].
    - destruct (cf_resources cf); [apply invoke_rest|by intros [= <- <-]].
    - destruct (cf_resources cf); [apply invoke_rest|by intros [= <- <-]].
    - destruct (cf_sampling cf); [apply invoke_rest|by intros [= <- <-]].
  Qed.
  Lemma handle_rest id r s s' o : handle id r s = (s', o) → same_rest s s'.
  Proof.
    destruct r as [c p|c p]; [|by intros [= <- <-]]. destruct c; cbn [handle_request]; try (destruct (process_client_request _ _ _ _ _ _ _) as [s0 r0] eqn:E; intros [= <- <-]; by apply process_rest in E as [? _]).
    by intros [= <- <-].
  Qed.
  Lemma handle_id id r s s' resp : handle id r s = (s', Some resp) → rs_id resp = id ∧ rs_jsonrpc resp = jsonrpc_version.
  Proof.
    destruct r as [c p|c p]; [|by intros [= <- <-]]. destruct c; cbn [handle_request]; try (by intros [= <- <-]);
      destruct (process_client_request _ _ _ _ _ _ _) as [s0 []]; intros [= <- <-]; done.
  Qed.
  Lemma handle_answers id r s : never_panics behave → is_Some (handle id r s).2.
  Proof.
    intros Hb. destruct r as [c p|c p]; [|by eexists].
    assert (∀ k h args wrap, (invoke behave key k h args id wrap s).2 ≠ Panicked) as Hi.
    { intros k h args wrap. unfold invoke. cbn. specialize (Hb (sv_calls s ++ [MkInvocation k h args (rid_show id) (get_token (sv_canceller s) (key (rid_show id)))])). by destruct (behave _). }
    assert (c = CInitialize ∨ (process_client_request cf behave key id c p s).2 ≠ Panicked) as [->|Hp].
    { destruct c; try (by left); right; cbn [process_client_request]; try done.
      - destruct (cf_tools cf !! _); [apply Hi|done].
      - destruct (cf_prompts cf !! _); [apply Hi|done].
      - destruct (cf_resources cf); [apply Hi|done].
      - destruct (cf_resources cf); [apply Hi|done].
      - destruct (cf_sampling cf); [apply Hi|done]. }
    - by eexists.
    - destruct (process_client_request cf behave key id c p s) as [s' r] eqn:E. cbn in Hp. destruct c; cbn [handle_request]; rewrite ?E; destruct r; try done; by eexists.
  Qed.
  (** A stopped server does nothing more. *)
  Lemma stopped_step s e : sv_listening s = false → sv_listening (step s e) = false ∧ sv_sent (step s e) = sv_sent s ∧ sv_calls (step s e) = sv_calls s.
  Proof.
    intros H. destruct e as [m ok| |id r|u c|u c]; cbn [v_step].
    - by rewrite H.
    - done.
    - by destruct (nonempty id).
    - by destruct (nonempty u && nonempty c).
    - by destruct (nonempty u && nonempty c).
  Qed.
  Lemma stopped es1 es2 : sv_listening (run es1) = false → sv_sent (run (es1 ++ es2)) = sv_sent (run es1) ∧ sv_calls (run (es1 ++ es2)) = sv_calls (run es1).
  Proof.
    intros H. rewrite run_app. revert H. generalize (run es1) as s. induction es2 as [|e es2 IH]; intros s H; [done|]. cbn [fold_left].
    destruct (stopped_step s e H) as (H1 & H2 & H3). destruct (IH _ H1) as [H4 H5]. by rewrite H4, H5.
  Qed.
  Lemma step_cases s e : sv_listening s = true →
    (sv_listening (step s e) = true ∧ (rs_id <$> sv_sent (step s e)) = (rs_id <$> sv_sent s) ++ (match request_id_of e with Some i => [i] | None => [] end)) ∨
    (sv_listening (step s e) = false ∧ sv_sent (step s e) = sv_sent s ∧
      match e with EReceiveError => True | EMessage (MsgRequest id r) ok => ok = false ∨ (handle id r s).2 = None | _ => False end).
  Proof.
    intros H. destruct e as [m ok| |id r|u c|u c]; cbn [v_step].
    - rewrite H. destruct m as [id r|r|n]; cbn [handle_message request_id_of]; [|left; by rewrite app_nil_r..].
      destruct (handle id r s) as [s' [resp|]] eqn:E; cbn.
      + destruct ok.
        * left. pose proof (handle_rest _ _ _ _ _ E) as (_ & _ & Hs & Hl). pose proof (handle_id _ _ _ _ _ E) as [Hid _]. split; [cbn; congruence|].
          cbn. rewrite fmap_app. cbn. by rewrite Hs, Hid.
        * right. pose proof (handle_rest _ _ _ _ _ E) as (_ & _ & Hs & Hl). split; [done|]. split; [done|by left].
      + right. pose proof (handle_rest _ _ _ _ _ E) as (_ & _ & Hs & Hl). split; [done|]. split; [done|by right].
    - by right.
    - left. cbn. rewrite app_nil_r. by destruct (nonempty id).
    - left. cbn. rewrite app_nil_r. by destruct (nonempty u && nonempty c).
    - left. cbn. rewrite app_nil_r. by destruct (nonempty u && nonempty c).
  Qed.
  Lemma ids_snoc es e : request_ids (es ++ [e]) = request_ids es ++ (match request_id_of e with Some i => [i] | None => [] end).
  Proof. unfold request_ids. rewrite omap_app. cbn. by destruct (request_id_of e). Qed.
  Lemma answered es : never_panics behave → no_failure es → sv_listening (run es) = true ∧ rs_id <$> sv_sent (run es) = request_ids es.
  Proof.
    intros Hb. unfold no_failure. induction es as [|e es IH] using rev_ind; [done|]. rewrite Forall_app, Forall_singleton. intros [Hes He]. destruct (IH Hes) as [Hl Hs].
    rewrite run_snoc, ids_snoc, <-Hs. destruct (step_cases (run es) e Hl) as [H|(_ & _ & H)]; [done|]. exfalso.
    destruct e as [[id r|r|n] ok| |id r|u c|u c]; try done. destruct H as [->|H]; [done|]. destruct (handle_answers id r (run es) Hb) as [x Hx]. congruence.
  Qed.
  Lemma answered_prefix es : rs_id <$> sv_sent (run es) `prefix_of` request_ids es ∧ (sv_listening (run es) = true → rs_id <$> sv_sent (run es) = request_ids es).
  Proof.
    induction es as [|e es [IH1 IH2]] using rev_ind; [done|]. rewrite run_snoc, ids_snoc. destruct (sv_listening (run es)) eqn:El.
    - destruct (step_cases (run es) e El) as [[H1 H2]|(H1 & H2 & _)].
      + rewrite H2, (IH2 eq_refl). done.
      + rewrite H1, H2. split; [|done]. by apply prefix_app_r.
    - destruct (stopped_step (run es) e El) as (H1 & H2 & _). rewrite H1, H2. split; [|done]. by apply prefix_app_r.
  Qed.
  Lemma answered_by es i resp : sv_sent (run es) !! i = Some resp →
    ∃ es1 id r es2, es = es1 ++ EMessage (MsgRequest id r) true :: es2 ∧ length (request_ids es1) = i ∧ sv_listening (run es1) = true ∧ (handle id r (run es1)).2 = Some resp.
  Proof.
    revert i resp. induction es as [|e es IH] using rev_ind; intros i resp Hi; [done|]. rewrite run_snoc in Hi.
    destruct (sv_sent (run es) !! i) as [x|] eqn:Ex.
    - assert (sv_sent (step (run es) e) !! i = Some x) as Hx.
      { destruct e as [m ok| |id r|u c|u c]; cbn [v_step].
        - destruct (sv_listening (run es)); [|done]. destruct m as [id r|r|n]; cbn [handle_message]; [|done..]. destruct (handle id r (run es)) as [s' [rp|]] eqn:E;
            pose proof (handle_rest _ _ _ _ _ E) as (_ & _ & Hs & _); [destruct ok|]; cbn; rewrite Hs; [by rewrite lookup_app_l by by eapply lookup_lt_Some|done..].
        - done.
        - by destruct (nonempty id).
        - by destruct (nonempty u && nonempty c).
        - by destruct (nonempty u && nonempty c). }
      simplify_eq. destruct (IH _ _ Ex) as (es1 & id & r & es2 & -> & Hlen & Hl & Hh). exists es1, id, r, (es2 ++ [e]). by rewrite <-app_assoc.
    - destruct (sv_listening (run es)) eqn:El.
      2:{ destruct (stopped_step (run es) e El) as (_ & H2 & _). rewrite H2 in Hi. congruence. }
      destruct e as [m ok| |id r|u c|u c]; cbn [v_step] in Hi; try (cbn in Hi; congruence).
      2:{ destruct (nonempty id); cbn in Hi; congruence. } 2,3: destruct (nonempty u && nonempty c); cbn in Hi; congruence.
      rewrite El in Hi. destruct m as [id r|r|n]; cbn [handle_message] in Hi; [|congruence..].
      destruct (handle id r (run es)) as [s' [rp|]] eqn:E; pose proof (handle_rest _ _ _ _ _ E) as (_ & _ & Hs & _); [destruct ok|]; cbn in Hi; rewrite Hs in Hi; [|congruence..].
      apply lookup_app_Some in Hi as [Hi|[Hle Hi]]; [congruence|]. apply list_lookup_singleton_Some in Hi as [Hz <-].
      exists es, id, r, []. split; [done|]. split; [|split; [done|by rewrite E]]. destruct (answered_prefix es) as [_ Hp]. specialize (Hp El).
      rewrite <-Hp, fmap_length. lia.
  Qed.
  Lemma panic_stops es id p name h args : sv_listening (run es) = true → p = call_params name args → cf_tools cf !! name = Some h →
    behave (sv_calls (run es) ++ [MkInvocation KTool h args (rid_show id) (get_token (sv_canceller (run es)) (key (rid_show id)))]) = HPanic →
    ∀ ok es2, sv_sent (run (es ++ EMessage (MsgRequest id (RClient CCallTool p)) ok :: es2)) = sv_sent (run es).
  Proof.
    intros Hl -> Hh Hb ok es2. assert (Hr : run (es ++ [EMessage (MsgRequest id (RClient CCallTool (call_params name args))) ok]) =
      stop (invoke behave key KTool h args id call_result (run es)).1).
    { rewrite run_snoc. cbn [v_step]. rewrite Hl. cbn [handle_message handle_request process_client_request].
      assert (field "name" (call_params name args) = JStr name) as -> by done. assert (field "arguments" (call_params name args) = args) as -> by done. cbn [text_of]. rewrite Hh.
      unfold invoke. cbn. by rewrite Hb. }
    rewrite cons_middle, app_assoc. rewrite (proj1 (stopped _ es2 ltac:(by rewrite Hr))), Hr. done.
  Qed.

  (** *** Routing *)
  Lemma routed os id r s : c_inv os cf →
    (match r with RClient c p => holds (creq_body c) p | RServer c p => True end) →
    invoked <$> sv_calls (handle id r s).1 = (invoked <$> sv_calls s) ++ (match destination os r with Some d => [d] | None => [] end).
  Proof.
    intros [H1 H2 H3 H4 _ _] Hp. destruct r as [c p|c p]; [|cbn; by rewrite app_nil_r].
    assert (∀ k h args wrap, invoked <$> sv_calls (invoke behave key k h args id wrap s).1 = (invoked <$> sv_calls s) ++ [(k, h, args)]) as Hi by (intros; unfold invoke; cbn; by rewrite fmap_app).
    assert (∀ c, c ≠ CInitialize → (handle id (RClient c p) s).1 = (process_client_request cf behave key id c p s).1) as Hh.
    { intros []; cbn [handle_request]; try done; by destruct (process_client_request _ _ _ _ _ _ _). }
    destruct c; try (cbn; by rewrite app_nil_r); rewrite Hh by done; cbn [process_client_request].
    - destruct (call_shape _ Hp) as (name & args & ->). cbn [destination call_params]. rewrite <-H1.
      assert (text_of (field "name" (call_params name args)) = name) as -> by done. destruct (cf_tools cf !! name); [apply Hi|cbn; by rewrite app_nil_r].
    - destruct (prompt_shape _ Hp) as (name & args & ->). cbn [destination call_params]. rewrite <-H2.
      assert (text_of (field "name" (call_params name args)) = name) as -> by done. destruct (cf_prompts cf !! name); [apply Hi|cbn; by rewrite app_nil_r].
    - destruct (list_shape _ Hp) as [->|(c & ->)]; cbn [destination]; rewrite <-H3; (destruct (cf_resources cf); [apply Hi|cbn; by rewrite app_nil_r]).
    - destruct (uri_shape _ Hp) as (u & ->); cbn [destination]; rewrite <-H3; (destruct (cf_resources cf); [apply Hi|cbn; by rewrite app_nil_r]).
    - cbn [destination]; rewrite <-H4. destruct (cf_sampling cf); [apply Hi|cbn; by rewrite app_nil_r].
  Qed.
End server.

Section more.
  Context (cf : config) (behave : list invocation → hresult) (key : list N → string).
  Notation step := (v_step cf behave key).
  Notation run := (v_run cf behave key).
  Notation handle := (handle_request cf behave key).
  Lemma handle_process id c p s : c ≠ CInitialize → handle id (RClient c p) s =
    let '(s, r) := process_client_request cf behave key id c p s in
    (s, match r with Ok v => Some (create_response id (inl v)) | Err e => Some (create_response id (inr e)) | Panicked => None end).
  Proof. by destruct c. Qed.

  (** *** Initialization *)
  Definition with_flag (b : bool) (s : server) : server :=
    MkServer (sv_client s) b (sv_canceller s) (sv_subs s) (sv_calls s) (sv_sent s) (sv_listening s).
  Lemma handle_flag id r b s : (handle id r (with_flag b s)).2 = (handle id r s).2 ∧ sv_calls (handle id r (with_flag b s)).1 = sv_calls (handle id r s).1.
  Proof.
    destruct r as [c p|c p]; [|done]. destruct (decide (c = CInitialize)) as [->|Hc]; [done|]. rewrite !handle_process by done.
    assert (process_client_request cf behave key id c p (with_flag b s) =
      let '(s', r) := process_client_request cf behave key id c p s in (with_flag b s', r)) as ->.
    { destruct c; cbn [process_client_request]; try done.
      - by destruct (cf_tools cf !! _).
      - by destruct (cf_prompts cf !! _).
      - by destruct (cf_resources cf).
      - by destruct (cf_resources cf).
      - by destruct (cf_sampling cf). }
    by destruct (process_client_request cf behave key id c p s).
  Qed.
  Lemma init_step s e : sv_listening s = true →
    sv_client (step s e) = match initialize_of e with Some c => Some c | None => sv_client s end ∧
    sv_initialized (step s e) = match initialize_of e with Some _ => true | None => sv_initialized s end.
  Proof.
    intros H. destruct e as [m ok| |id r|u c|u c]; cbn [v_step initialize_of].
    - rewrite H. destruct m as [id r|r|n]; cbn [handle_message]; [|done..]. destruct r as [c p|c p]; [|cbn [handle_request]; by destruct ok].
      destruct (decide (c = CInitialize)) as [->|Hc]; [cbn [handle_request]; by destruct ok|]. assert (match c with CInitialize => Some (field "capabilities" p) | _ => None end = None) as -> by by destruct c.
      rewrite handle_process by done. destruct (process_client_request cf behave key id c p s) as [s' r] eqn:E.
      apply process_rest in E as (_ & E1 & E2). rewrite <-E1, <-E2. by destruct r, ok.
    - done.
    - by destruct (nonempty id).
    - by destruct (nonempty u && nonempty c).
    - by destruct (nonempty u && nonempty c).
  Qed.
  Lemma init_run es : never_panics behave → no_failure es →
    sv_client (run es) = last (omap initialize_of es) ∧ (sv_initialized (run es) = true ↔ omap initialize_of es ≠ []).
  Proof.
    intros Hb. unfold no_failure. induction es as [|e es IH] using rev_ind; [done|]. rewrite Forall_app, Forall_singleton. intros [Hes He]. destruct (IH Hes) as [H1 H2].
    destruct (answered cf behave key es Hb Hes) as [Hl _]. destruct (init_step (run es) e Hl) as [H3 H4]. rewrite run_snoc, H3, H4, omap_app. cbn.
    destruct (initialize_of e) as [c|].
    - rewrite last_snoc. split; [done|]. split; [|done]. intros _. by destruct (omap initialize_of es).
    - by rewrite app_nil_r.
  Qed.

  (** *** Cancellation and subscriptions *)
  Lemma tokens_empty es : sv_canceller (run es) = canceller_new ∧ Forall (λ i, i_token i = None) (sv_calls (run es)).
  Proof.
    induction es as [|e es [IH1 IH2]] using rev_ind; [by split; [|constructor]|]. rewrite run_snoc. destruct e as [m ok| |id r|u c|u c]; cbn [v_step].
    - destruct (sv_listening (run es)); [|done]. destruct m as [id r|r|n]; cbn [handle_message]; [|done..].
      assert (Forall (λ i, i_token i = None) (sv_calls (handle id r (run es)).1)) as Hc.
      { destruct r as [c p|c p]; [|done]. destruct (decide (c = CInitialize)) as [->|Hn]; [done|]. rewrite handle_process by done.
        assert (∀ k h args wrap, Forall (λ i, i_token i = None) (sv_calls (invoke behave key k h args id wrap (run es)).1)) as Hi.
        { intros. unfold invoke. cbn. apply Forall_app. split; [done|]. apply Forall_singleton. cbn. by rewrite IH1. }
        assert (Forall (λ i, i_token i = None) (sv_calls (process_client_request cf behave key id c p (run es)).1)).
        { destruct c; cbn [process_client_request]; try done.
          - by destruct (cf_tools cf !! _).
          - by destruct (cf_prompts cf !! _).
          - by destruct (cf_resources cf).
          - by destruct (cf_resources cf).
          - by destruct (cf_sampling cf). }
        by destruct (process_client_request cf behave key id c p (run es)). }
      destruct (handle id r (run es)) as [s' [resp|]] eqn:E; pose proof (handle_rest _ _ _ _ _ _ _ _ E) as (Hk & _); [destruct ok|]; cbn; rewrite Hk; done.
    - done.
    - destruct (nonempty id); [|done]. rewrite IH1. done.
    - by destruct (nonempty u && nonempty c).
    - by destruct (nonempty u && nonempty c).
  Qed.
  Lemma cancel_nothing es id r : step (run es) (ECancel id r) = run es.
  Proof. cbn. destruct (tokens_empty es) as [-> _]. destruct (nonempty id); [|done]. destruct (tokens_empty es) as [H _]. unfold set_canceller. destruct (run es). cbn in *. by subst. Qed.
  Lemma subs_step s e : sv_subs (step s e) = match e with
    | ESubscribe u c => if nonempty u && nonempty c then subscribe (sv_subs s) u c else sv_subs s
    | EUnsubscribe u c => if nonempty u && nonempty c then unsubscribe (sv_subs s) u c else sv_subs s | _ => sv_subs s end.
  Proof.
    destruct e as [m ok| |id r|u c|u c]; cbn [v_step].
    - destruct (sv_listening s); [|done]. destruct m as [id r|r|n]; cbn [handle_message]; [|done..].
      destruct (handle id r s) as [s' [resp|]] eqn:E; pose proof (handle_rest _ _ _ _ _ _ _ _ E) as (_ & Hs & _); [destruct ok|]; done.
    - done.
    - by destruct (nonempty id).
    - by destruct (nonempty u && nonempty c).
    - by destruct (nonempty u && nonempty c).
  Qed.
  Lemma subs_messages es : sv_subs (run es) = sv_subs (run (filter (λ e, is_message e = false) es)).
  Proof.
    induction es as [|e es IH] using rev_ind; [done|]. rewrite filter_app, run_snoc, subs_step, filter_cons, filter_nil. destruct e; cbn [is_message]; try (rewrite decide_True by done; rewrite run_snoc, subs_step, IH; done).
    rewrite decide_False by done. by rewrite app_nil_r.
  Qed.
End more.

(** *** The two tasks *)
Section tasks.
  Context {M R P : Type} (needs : M → bool).
  Notation tasks := (@tasks M R P).
  Notation step := (@t_step M R P needs).
  Notation trun := (@t_run M R P needs).
  Definition waiting (s : tasks) : list P := (match t_notify s with NToSend n => [n] | NIdle => [] end) ++ t_channel s.
  Definition unsent (s : tasks) : list R := match t_message s with MToSend r => [r] | _ => [] end.
  Lemma run_cons s o os : trun s (o :: os) = trun (step s o) os. Proof. done. Qed.
  Lemma acquire_same t (s : tasks) : t_message (acquire t s) = t_message s ∧ t_notify (acquire t s) = t_notify s ∧ t_channel (acquire t s) = t_channel s ∧ t_wire (acquire t s) = t_wire s.
  Proof. unfold acquire. by destruct (t_holder s). Qed.
  (** Every accepted notification is sent, about to be sent or in the channel, in order. *)
  Lemma notes_step s o : notified (t_wire (step s o)) ++ waiting (step s o) =
    (notified (t_wire s) ++ waiting s) ++ (match o with TPost n => if decide (length (t_channel s) < channel_size)%nat then [n] else [] | _ => [] end).
  Proof.
    unfold t_step. destruct o as [n| |m|r| | |]; rewrite ?app_nil_r.
    - destruct (decide _); [|by rewrite app_nil_r]. unfold waiting, set_notify. cbn. by rewrite !app_assoc.
    - by destruct (t_message s), (t_holder s) as [[]|].
    - destruct (t_message s) eqn:E1, (t_holder s) as [[]|] eqn:E2; try done. destruct (needs m); [done|]. unfold waiting.
      destruct (acquire_same Messages (set_message MToReceive (release s))) as (_ & -> & -> & ->). done.
    - destruct (t_message s); try done. unfold waiting. destruct (acquire_same Messages (set_message (MToSend r) s)) as (_ & -> & -> & ->). done.
    - destruct (t_message s); try done. destruct (t_holder s) as [[]|] eqn:E2; try done. unfold waiting.
      destruct (acquire_same Messages (set_message MToReceive (release (put_wire (SResponse r) s)))) as (_ & -> & -> & ->). cbn. unfold notified. rewrite omap_app. cbn. by rewrite app_nil_r.
    - destruct (t_notify s) eqn:E; [|done]. destruct (t_channel s) as [|n c] eqn:Ec; [done|]. unfold waiting.
      destruct (acquire_same Notifications (set_notify (NToSend n) c s)) as (_ & -> & -> & ->). cbn. by rewrite E, Ec.
    - destruct (t_notify s) eqn:E; [done|]. destruct (t_holder s) as [[]|] eqn:E2; try done. unfold waiting. cbn. rewrite E. unfold notified. rewrite omap_app. cbn. by rewrite <-app_assoc.
  Qed.
  Lemma responses_step s o : responded (t_wire (step s o)) ++ unsent (step s o) =
    (responded (t_wire s) ++ unsent s) ++ (match o, t_message s with THandled r, MHandling _ => [r] | _, _ => [] end).
  Proof.
    unfold t_step. destruct o as [n| |m|r| | |]; rewrite ?app_nil_r.
    - destruct (decide _); done.
    - unfold unsent. by destruct (t_message s) eqn:E, (t_holder s) as [[]|]; cbn; rewrite ?E.
    - destruct (t_message s) eqn:E1, (t_holder s) as [[]|] eqn:E2; try done. destruct (needs m); unfold unsent.
      + cbn. by rewrite E1.
      + destruct (acquire_same Messages (set_message MToReceive (release s))) as (-> & _ & _ & ->). cbn. by rewrite E1.
    - destruct (t_message s) eqn:E; rewrite ?app_nil_r; try done. unfold unsent. destruct (acquire_same Messages (set_message (MToSend r) s)) as (-> & _ & _ & ->). cbn. by rewrite E, app_nil_r.
    - destruct (t_message s) eqn:E; try done. destruct (t_holder s) as [[]|] eqn:E2; try done. unfold unsent.
      destruct (acquire_same Messages (set_message MToReceive (release (put_wire (SResponse r) s)))) as (-> & _ & _ & ->). cbn. unfold responded. rewrite omap_app. cbn. by rewrite E, app_nil_r.
    - destruct (t_notify s) eqn:E; [|done]. destruct (t_channel s) as [|n c] eqn:Ec; [done|]. unfold unsent.
      by destruct (acquire_same Notifications (set_notify (NToSend n) c s)) as (-> & _ & _ & ->).
    - destruct (t_notify s) eqn:E; [done|]. destruct (t_holder s) as [[]|] eqn:E2; try done. unfold unsent. cbn. unfold responded. rewrite omap_app. cbn. by rewrite app_nil_r.
  Qed.
  Lemma notes_run s os : ∃ k, k `sublist_of` posts os ∧ notified (t_wire (trun s os)) ++ waiting (trun s os) = (notified (t_wire s) ++ waiting s) ++ k ∧
    ((length (t_channel s) + length (posts os) ≤ channel_size)%nat → k = posts os).
  Proof.
    revert s. induction os as [|o os IH]; intros s; [exists []; cbn; rewrite app_nil_r; done|]. rewrite run_cons.
    destruct (IH (step s o)) as (k & Hk & He & Hall). pose proof (notes_step s o) as Hs. rewrite He, Hs.
    assert (Hch : (length (t_channel (step s o)) ≤ length (t_channel s) + match o with TPost _ => 1 | _ => 0 end)%nat).
    { unfold t_step. destruct o as [n| |m|r| | |].
      - destruct (decide _); [|lia]. cbn. rewrite app_length. cbn. lia.
      - destruct (t_message s), (t_holder s) as [[]|]; cbn; lia.
      - destruct (t_message s), (t_holder s) as [[]|]; try lia. destruct (needs m); [cbn; lia|]. destruct (acquire_same Messages (set_message MToReceive (release s))) as (_ & _ & -> & _). cbn. lia.
      - destruct (t_message s); try lia. destruct (acquire_same Messages (set_message (MToSend r) s)) as (_ & _ & -> & _). cbn. lia.
      - destruct (t_message s); try lia. destruct (t_holder s) as [[]|]; try lia. destruct (acquire_same Messages (set_message MToReceive (release (put_wire (SResponse r) s)))) as (_ & _ & -> & _). cbn. lia.
      - destruct (t_notify s); [|lia]. destruct (t_channel s) as [|n c] eqn:Ec; [rewrite Ec; lia|]. destruct (acquire_same Notifications (set_notify (NToSend n) c s)) as (_ & _ & -> & _). cbn. lia.
      - destruct (t_notify s); [lia|]. destruct (t_holder s) as [[]|]; cbn; lia. }
    destruct o as [n| |m|r| | |]; cbn [posts omap list_omap]; fold (posts os);
      try (exists k; split; [done|]; split; [by rewrite app_nil_r|]; intros; apply Hall; lia).
    unfold posts in *. cbn [omap list_omap] in *. destruct (decide (length (t_channel s) < channel_size)%nat).
    - exists (n :: k). split; [by apply sublist_skip|]. split; [by rewrite <-app_assoc|]. cbn. intros. f_equal. apply Hall. lia.
    - exists k. split; [by apply sublist_cons|]. split; [by rewrite app_nil_r|]. cbn. lia.
  Qed.
  (** While the message task is receiving it has the lock, and nothing is sent. *)
  Lemma blocked s os : t_message s = MReceiving → t_holder s = Some Messages → silent os →
    t_wire (trun s os) = t_wire s ∧ t_message (trun s os) = MReceiving ∧ t_holder (trun s os) = Some Messages.
  Proof.
    intros Hm Hh Hs. revert s Hm Hh. induction Hs as [|o os Ho Hs IH]; intros s Hm Hh; [done|]. rewrite run_cons.
    assert (t_wire (step s o) = t_wire s ∧ t_message (step s o) = MReceiving ∧ t_holder (step s o) = Some Messages) as (H1 & H2 & H3).
    { unfold t_step. rewrite Hm, Hh. destruct o; try done.
      - by destruct (decide _).
      - destruct (t_notify s); [|done]. destruct (t_channel s); [done|]. unfold acquire, set_notify. cbn. rewrite Hh. done.
      - destruct (t_notify s); done. }
    rewrite <-H1. by apply IH.
  Qed.
  (** Lock discipline: who holds, who waits. *)
  Definition wants (s : tasks) (t : task) : Prop :=
    match t with Messages => (match t_message s with MHandling _ => False | _ => True end) | Notifications => t_notify s ≠ NIdle end.
  Record lock_inv (s : tasks) : Prop := {
    li_nodup : NoDup (option_list (t_holder s) ++ t_queue s);
    li_wants : ∀ t, t ∈ option_list (t_holder s) ++ t_queue s ↔ wants s t;
    li_free : t_holder s = None → t_queue s = [];
    li_receiving : t_message s = MReceiving → t_holder s = Some Messages }.
  Lemma two_tasks (l : list task) : NoDup l → Messages ∉ l → l = [] ∨ l = [Notifications].
  Proof.
    intros Hn Hm. assert (∀ x, x ∈ l → x = Notifications) as Hall by (intros [] Hx; done). destruct l as [|x l]; [by left|]. right.
    rewrite (Hall x) in * by left. f_equal. destruct l as [|y l]; [done|]. exfalso. apply NoDup_cons in Hn as [Hn _]. apply Hn.
    rewrite (Hall y) by (right; left). left.
  Qed.
  Lemma acquire_inv t (s : tasks) : NoDup (option_list (t_holder s) ++ t_queue s) → t ∉ option_list (t_holder s) ++ t_queue s → (t_holder s = None → t_queue s = []) →
    NoDup (option_list (t_holder (acquire t s)) ++ t_queue (acquire t s)) ∧
    (∀ u, u ∈ option_list (t_holder (acquire t s)) ++ t_queue (acquire t s) ↔ u = t ∨ u ∈ option_list (t_holder s) ++ t_queue s) ∧
    t_holder (acquire t s) ≠ None.
  Proof.
    intros Hn Ht Hf. unfold acquire. destruct (t_holder s) as [h|] eqn:Eh; cbn [t_holder t_queue].
    - cbn in *. rewrite app_comm_cons. split; [|split; [|done]].
      + apply NoDup_app. split; [done|]. split; [|apply NoDup_singleton]. intros x Hx Hx'. apply elem_of_list_singleton in Hx' as ->. done.
      + intros u. rewrite elem_of_app, elem_of_list_singleton. tauto.
    - rewrite (Hf eq_refl). cbn. split; [apply NoDup_singleton|]. split; [|done]. intros u. rewrite elem_of_list_singleton, elem_of_nil. tauto.
  Qed.
  Lemma release_inv (s : tasks) t : t_holder s = Some t → NoDup (option_list (t_holder s) ++ t_queue s) →
    NoDup (option_list (t_holder (release s)) ++ t_queue (release s)) ∧ t ∉ option_list (t_holder (release s)) ++ t_queue (release s) ∧
    (∀ u, u ∈ option_list (t_holder (release s)) ++ t_queue (release s) ↔ u ≠ t ∧ u ∈ option_list (t_holder s) ++ t_queue s) ∧
    (t_holder (release s) = None → t_queue (release s) = []).
  Proof.
    intros Ht Hn. rewrite Ht in *. cbn in Hn. apply NoDup_cons in Hn as [Hn Hd]. assert (option_list (t_holder (release s)) ++ t_queue (release s) = t_queue s) as Heq by (cbn; by destruct (t_queue s)).
    rewrite Heq. split; [done|]. split; [done|]. split.
    - intros u. cbn. rewrite elem_of_cons. split; [intros Hu; split; [by intros ->|by right]|intros [Hne [->|Hu]]; done].
    - cbn. by destruct (t_queue s).
  Qed.
  Lemma lock_step s o : lock_inv s → lock_inv (step s o).
  Proof.
    intros Hi. pose proof Hi as [Hn Hw Hf Hr]. unfold t_step. destruct o as [n| |m|r| | |].
    - destruct (decide _); [|done]. split; cbn; done.
    - destruct (t_message s) eqn:Em, (t_holder s) as [[]|] eqn:Eh; try done. split; cbn; rewrite ?Eh; try done. intros t. rewrite Hw. destruct t; cbn; [by rewrite Em|done].
    - destruct (t_message s) eqn:Em, (t_holder s) as [[]|] eqn:Eh; try done.
      destruct (release_inv s Messages Eh ltac:(by rewrite Eh)) as (R1 & R2 & R3 & R4). destruct (needs m).
      + split; cbn [set_message t_holder t_queue t_message]; try done. intros t. rewrite (R3 t), Eh, Hw. destruct t; cbn; [tauto|]. split; [tauto|done].
      + destruct (acquire_inv Messages (set_message MToReceive (release s)) R1 R2 R4) as (A1 & A2 & A3).
        destruct (acquire_same Messages (set_message MToReceive (release s))) as (S1 & S2 & _ & _). split; try done.
        * intros t. rewrite A2. unfold wants. rewrite S1, S2. cbn [set_message t_holder t_queue t_message t_notify]. rewrite (R3 t), Eh, Hw. destruct t; cbn; [tauto|]. naive_solver.
        * rewrite S1. done.
    - destruct (t_message s) eqn:Em; try done.
      assert (Messages ∉ option_list (t_holder s) ++ t_queue s) as Hnot by (intros Hx; apply Hw in Hx; cbn in Hx; by rewrite Em in Hx).
      destruct (acquire_inv Messages (set_message (MToSend r) s) Hn Hnot Hf) as (A1 & A2 & A3).
      destruct (acquire_same Messages (set_message (MToSend r) s)) as (S1 & S2 & _ & _). split; try done.
      + intros t. rewrite A2. unfold wants. rewrite S1, S2. cbn [set_message t_holder t_queue t_message t_notify]. rewrite Hw. destruct t; cbn; [tauto|]. naive_solver.
      + rewrite S1. done.
    - destruct (t_message s) eqn:Em; try done. destruct (t_holder s) as [[]|] eqn:Eh; try done.
      destruct (release_inv (put_wire (SResponse r) s) Messages Eh ltac:(cbn; by rewrite Eh)) as (R1 & R2 & R3 & R4).
      destruct (acquire_inv Messages (set_message MToReceive (release (put_wire (SResponse r) s))) R1 R2 R4) as (A1 & A2 & A3).
      destruct (acquire_same Messages (set_message MToReceive (release (put_wire (SResponse r) s)))) as (S1 & S2 & _ & _). split; try done.
      + intros t. rewrite A2. unfold wants. rewrite S1, S2. cbn [set_message t_holder t_queue t_message t_notify]. rewrite (R3 t). cbn [put_wire t_holder t_queue]. rewrite Eh, Hw. destruct t; cbn; [tauto|]. naive_solver.
      + rewrite S1. done.
    - destruct (t_notify s) eqn:En; [|done]. destruct (t_channel s) as [|n c]; [done|].
      assert (Notifications ∉ option_list (t_holder s) ++ t_queue s) as Hnot by (intros Hx; apply Hw in Hx; cbn in Hx; by rewrite En in Hx).
      destruct (acquire_inv Notifications (set_notify (NToSend n) c s) Hn Hnot Hf) as (A1 & A2 & A3).
      destruct (acquire_same Notifications (set_notify (NToSend n) c s)) as (S1 & S2 & _ & _). split; try done.
      + intros t. rewrite A2. unfold wants. rewrite S1, S2. cbn [set_notify t_holder t_queue t_message t_notify]. rewrite Hw. destruct t; cbn; [|naive_solver]. naive_solver.
      + rewrite S1. intros Hm. cbn in Hm. specialize (Hr Hm). unfold acquire. cbn. by rewrite Hr.
    - destruct (t_notify s) eqn:En; [done|]. destruct (t_holder s) as [[]|] eqn:Eh; try done.
      destruct (release_inv (put_wire (SNotification n) s) Notifications Eh ltac:(cbn; by rewrite Eh)) as (R1 & R2 & R3 & R4). split; cbn [set_notify t_holder t_queue t_message t_notify]; try done.
      + intros t. rewrite (R3 t). cbn [put_wire t_holder t_queue]. rewrite Eh, Hw. destruct t; cbn; naive_solver.
      + intros Hm. cbn in Hm. specialize (Hr Hm). congruence.
  Qed.
  Lemma lock_run os : lock_inv (trun tasks_new os).
  Proof.
    assert (H0 : lock_inv (@tasks_new M R P)).
    { split; cbn; try done; [apply NoDup_singleton|]. intros []; rewrite elem_of_list_singleton; cbn; naive_solver. }
    revert H0. generalize (@tasks_new M R P) as s. induction os as [|o os IH]; intros s H; [done|]. rewrite run_cons. by apply IH, lock_step.
  Qed.
  (** A notification that waits when a message arrives is the next thing sent. *)
  Lemma waiting_next os n m : let s := trun tasks_new os in t_message s = MReceiving → t_notify s = NToSend n →
    t_holder (step s (TArrive m)) = Some Notifications ∧ t_wire (step (step s (TArrive m)) TNotify) = t_wire s ++ [SNotification n].
  Proof.
    intros s Hm Hn. destruct (lock_run os) as [Hd Hw _ Hr]. fold s in Hd, Hw, Hr. specialize (Hr Hm).
    assert (t_queue s = [Notifications]) as Hq.
    { rewrite Hr in Hd, Hw. cbn in Hd. apply NoDup_cons in Hd as [Hd1 Hd2]. destruct (two_tasks _ Hd2 Hd1) as [Hq|Hq]; [|done].
      assert (Notifications ∈ option_list (Some Messages) ++ t_queue s) as Hin by (apply Hw; cbn; by rewrite Hn). rewrite Hq in Hin. cbn in Hin. by apply elem_of_list_singleton in Hin. }
    assert (t_holder (step s (TArrive m)) = Some Notifications) as Hh.
    { unfold t_step. rewrite Hm, Hr. destruct (needs m); unfold acquire; cbn; by rewrite Hq. }
    split; [done|]. assert (t_notify (step s (TArrive m)) = NToSend n ∧ t_wire (step s (TArrive m)) = t_wire s) as [Hn' Hw'].
    { unfold t_step. rewrite Hm, Hr. destruct (needs m); [done|]. by destruct (acquire_same Messages (set_message MToReceive (release s))) as (_ & -> & _ & ->). }
    set (s1 := step s (TArrive m)) in *. clearbody s1. unfold t_step. rewrite Hn', Hh. cbn. by rewrite Hw'.
  Qed.
End tasks.
