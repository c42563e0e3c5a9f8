(** C232, C233: clones of a client, and its options. *)
From stdpp Require Import list strings.
From Verif Require Import TextLib JsonLib SerdeLib TypesModel RpcModel ServerModel ClientModel ClientSpec ClientProofs ClientProps CloneModel CloneSpec.

Lemma joined_own o k : own_of (joined o k) = o.
Proof. by destruct o. Qed.
Lemma request_own id r ok ms c : own_of (send_request id r ok ms c).1 = own_of c.
Proof. unfold send_request. destruct ok; [|done]. cbn [cl_in deliver send track]. destruct (cl_in c ++ ms); done. Qed.
Lemma step_own c e : (cl_initialized c = true ∨ ∀ caps info, e_op e ≠ OInitialize caps info) → own_of (c_step c e).1 = own_of c.
Proof.
  intros H. unfold c_step. destruct (e_op e) as [caps info|k p| |id|p] eqn:E.
  - unfold initialize. destruct H as [->|H]; [done|by destruct (H caps info)].
  - destruct (is_method k); [|done]. destruct (refused k c); [done|]. pose proof (request_own (e_id e) (RClient k p) (e_ok e) (e_arrived e) c) as Hr. destruct (send_request _ _ _ _ _) as [c' r]. exact Hr.
  - destruct (cl_initialized c); [|done]. unfold send_notification. destruct (cl_caps c) as [caps|]; [|by destruct (e_nok e)]. destruct (has_key "roots" caps); [|by destruct (e_nok e)]. destruct (field _ _) as [|[]| | | | |]; try done. by destruct (e_nok e).
  - unfold send_notification. by destruct (e_nok e).
  - unfold send_notification. by destruct (e_nok e).
Qed.
Lemma n_snoc h o : n_run (h ++ [o]) = (n_step (n_run h) o).1.
Proof. unfold n_run. by rewrite fold_left_app. Qed.
Lemma n_run_cons h o os : n_run (h ++ o :: os) = fold_left (λ s o, (n_step s o).1) os (n_step (n_run h) o).1.
Proof. unfold n_run. by rewrite fold_left_app. Qed.
(** One operation keeps the own part of every client that is initialized, or not asked to initialize. *)
Lemma own_kept s o i w : ns_own s !! i = Some w → (o_initialized w = true ∨ no_handshake i o) → ns_own (n_step s o).1 !! i = Some w.
Proof.
  intros Hw H. destruct o as [j e|j]; cbn [n_step].
  - destruct (ns_own s !! j) as [w'|] eqn:Ej; [|done]. destruct (c_step _ e) as [c r] eqn:Ec. cbn [fst ns_own]. destruct (decide (j = i)) as [->|Hne]; [|by rewrite list_lookup_insert_ne].
    rewrite list_lookup_insert by (by eapply lookup_lt_Some). f_equal. rewrite Hw in Ej. injection Ej as <-. pose proof (step_own (joined w (ns_link s)) e) as Hs. rewrite Ec, joined_own in Hs. apply Hs.
    destruct H as [H|H]; [by left|right]. cbn in H. by apply H.
  - destruct (ns_own s !! j); [|done]. cbn [fst ns_own]. by rewrite lookup_app_l by (by eapply lookup_lt_Some).
Qed.
Lemma own_kept_all os s i w : ns_own s !! i = Some w → (o_initialized w = true ∨ Forall (no_handshake i) os) → ns_own (fold_left (λ s o, (n_step s o).1) os s) !! i = Some w.
Proof.
  revert s. induction os as [|o os IH]; intros s Hw H; [done|]. cbn [fold_left]. apply IH.
  - apply own_kept; [done|]. destruct H as [H|H]; [by left|right]. by apply Forall_cons in H as [H _].
  - destruct H as [H|H]; [by left|right]. by apply Forall_cons in H as [_ H].
Qed.

(** ** C232: a clone is as good as the original *)
(** If the original was initialized when it was cloned, then whatever is done with both and with other clones afterwards,
    every call on one gives and does what it would on the other. Missing: clones made before, refuted below. *)
Theorem C232_same_partial : ∀ h i os e, is_ready (n_run h) i →
  let j := length (ns_own (n_run h)) in let s := n_run (h ++ NClone i :: os) in n_step s (NCall i e) = n_step s (NCall j e).
Proof.
  intros h i os e (w & Hw & Hi) j s. assert (ns_own (n_run (h ++ [NClone i])) !! i = Some w ∧ ns_own (n_run (h ++ [NClone i])) !! j = Some w) as [H1 H2].
  { rewrite n_snoc. cbn [n_step]. rewrite Hw. cbn [fst ns_own]. split; [by rewrite lookup_app_l by (by eapply lookup_lt_Some)|]. rewrite lookup_app_r by (unfold j; lia). by rewrite Nat.sub_diag. }
  assert (s = fold_left (λ s o, (n_step s o).1) os (n_run (h ++ [NClone i]))) as Es by (unfold s; by rewrite n_run_cons, n_snoc).
  pose proof (own_kept_all os _ _ _ H1 (or_introl Hi)) as K1. pose proof (own_kept_all os _ _ _ H2 (or_introl Hi)) as K2. rewrite <-Es in K1, K2. cbn [n_step]. rewrite K1, K2.
  destruct (c_step _ e) as [c r] eqn:Ec. pose proof (step_own (joined w (ns_link s)) e (or_introl Hi)) as Ho. rewrite Ec, joined_own in Ho. cbn [fst] in Ho. rewrite Ho. by rewrite !list_insert_id.
Qed.
Print Assumptions C232_same_partial.
(** Cloning itself sends and takes nothing, and leaves every client as it was; there is one more, like the one cloned. *)
Theorem C232_clone : ∀ os i, i < length (ns_own (n_run os)) → let s := n_run os in let s' := n_run (os ++ [NClone i]) in
  ns_link s' = ns_link s ∧ length (ns_own s') = S (length (ns_own s)) ∧ ns_own s' !! length (ns_own s) = ns_own s !! i ∧ ∀ j, j < length (ns_own s) → ns_own s' !! j = ns_own s !! j.
Proof.
  intros os i Hi s s'. unfold s'. rewrite n_snoc. cbn [n_step]. destruct (lookup_lt_is_Some_2 _ _ Hi) as [w Hw]. fold s in Hw |- *. rewrite Hw. cbn [fst ns_link ns_own].
  split_and!; [done|rewrite app_length; cbn; lia|by rewrite lookup_app_r, Nat.sub_diag by lia|]. intros j Hj. by rewrite lookup_app_l.
Qed.
Print Assumptions C232_clone.
(** They have one connection: what a call on one sends is sent after what all the others sent. *)
Theorem C232_connection : ∀ os i e, ∃ l, k_sent (ns_link (n_step (n_run os) (NCall i e)).1) = k_sent (ns_link (n_run os)) ++ l ∧ l = sends (n_run os) i e.
Proof.
  intros os i e. unfold sends. cbn [n_step]. destruct (ns_own (n_run os) !! i) as [w|]; [|exists []; by rewrite app_nil_r, drop_all].
  destruct (c_step (joined w (ns_link (n_run os))) e) as [c r] eqn:Ec. cbn [fst ns_link]. assert (∃ l, cl_sent c = k_sent (ns_link (n_run os)) ++ l) as [l Hl].
  { change (k_sent (ns_link (n_run os))) with (cl_sent (joined w (ns_link (n_run os)))). replace c with (c_step (joined w (ns_link (n_run os))) e).1 by (by rewrite Ec). generalize (joined w (ns_link (n_run os))). clear. intros c.
    assert (∀ id r ok ms c, ∃ l, cl_sent (send_request id r ok ms c).1 = cl_sent c ++ l) as Hr.
    { intros id r ok ms x. unfold send_request. destruct ok; [|exists []; by rewrite app_nil_r]. cbn [cl_in deliver send track]. exists [MsgRequest id r]. by destruct (cl_in x ++ ms). }
    assert (∀ n nok c, ∃ l, cl_sent (send_notification n nok c).1 = cl_sent c ++ l) as Hn.
    { intros n nok x. unfold send_notification. destruct nok; [by eexists|]. exists []. by rewrite app_nil_r. }
    assert (∃ l, cl_sent c = cl_sent c ++ l) as H0 by (exists []; by rewrite app_nil_r).
    unfold c_step. destruct (e_op e) as [caps info|k p| |id|p].
    - unfold initialize. destruct (cl_initialized c); [done|]. destruct (Hr (e_id e) (RClient CInitialize (initialize_params caps info)) (e_ok e) (e_arrived e) (set_caps caps c)) as [l Hl]. cbn [cl_sent set_caps] in Hl.
      destruct (send_request _ _ _ _ _) as [c' [x|err]]; cbn [fst] in Hl; [|by exists l]. destruct (rs_payload x); [|by exists l]. destruct (decode _ _) as [v'|]; [|by exists l]. destruct (decide _); [|by exists l].
      destruct (e_nok e); cbn [fst cl_sent send set_server]; rewrite Hl; [|by exists l]. eexists. by rewrite <-app_assoc.
    - destruct (is_method k); [|done]. destruct (refused k c); [done|]. destruct (Hr (e_id e) (RClient k p) (e_ok e) (e_arrived e) c) as [l Hl]. destruct (send_request _ _ _ _ _) as [c' r]. by exists l.
    - destruct (cl_initialized c); [|done]. destruct (cl_caps c) as [caps|]; [|apply Hn]. destruct (has_key "roots" caps); [|apply Hn]. destruct (field _ _) as [|[]| | | | |]; first [done|apply Hn].
    - destruct (Hn (NCancelled (cancel_params id)) (e_nok e) c) as [l Hl]. destruct (send_notification _ _ _) as [c' [v|err]]; by exists l.
    - apply Hn. }
  exists l. cbn [k_sent link_of]. rewrite Hl. split; [done|]. by rewrite drop_app.
Qed.
Print Assumptions C232_connection.
(** False for a clone made before: whatever happens to the original and the others - it may be initialized, and used -
    every call on the clone is refused, and nothing is sent for it, until the clone is told to initialize itself. *)
Theorem C232_early_refuted : ∀ h i os e k p, not_ready (n_run h) i →
  let j := length (ns_own (n_run h)) in let s := n_run (h ++ NClone i :: os) in Forall (no_handshake j) os → e_op e = OCall k p →
  gives s j e = Some (CErr (EInvalidState (lit "Client not initialized"))) ∧ sends s j e = [].
Proof.
  intros h i os e k p (w & Hw & Hi) j s Hn He. assert (ns_own (n_run (h ++ [NClone i])) !! j = Some w) as H2.
  { rewrite n_snoc. cbn [n_step]. rewrite Hw. cbn [fst ns_own]. rewrite lookup_app_r by (unfold j; lia). by rewrite Nat.sub_diag. }
  assert (s = fold_left (λ s o, (n_step s o).1) os (n_run (h ++ [NClone i]))) as Es by (unfold s; by rewrite n_run_cons, n_snoc).
  pose proof (own_kept_all os _ _ _ H2 (or_intror Hn)) as K. rewrite <-Es in K. unfold gives, sends. cbn [n_step]. rewrite K. rewrite (C42_uninitialized (joined w (ns_link s)) e k p) by done.
  split; [done|]. cbn [fst ns_link link_of k_sent]. apply drop_all.
Qed.
Print Assumptions C232_early_refuted.
(** And telling it to sends a second initialize request over the connection. *)
Theorem C232_twice_refuted : ∀ s j e caps info, not_ready s j → e_op e = OInitialize caps info → e_ok e = true →
  ∃ l, sends s j e = MsgRequest (e_id e) (RClient CInitialize (initialize_params caps info)) :: l.
Proof.
  intros s j e caps info (w & Hw & Hi) He Hok. unfold sends. cbn [n_step]. rewrite Hw. unfold c_step. rewrite He. unfold initialize. cbn [cl_initialized joined]. rewrite Hi, Hok. unfold send_request. cbn [cl_in deliver send track set_caps joined].
  destruct (k_in (ns_link s) ++ e_arrived e) as [|m rest].
  - cbn [fst ns_link link_of k_sent cl_sent deliver send track set_caps joined]. exists []. by rewrite drop_app.
  - assert (∀ c : client, cl_sent c = k_sent (ns_link s) ++ [MsgRequest (e_id e) (RClient CInitialize (initialize_params caps info))] → ∀ c' l', cl_sent c' = cl_sent c ++ l' → ∃ l, drop (length (k_sent (ns_link s))) (cl_sent c') = MsgRequest (e_id e) (RClient CInitialize (initialize_params caps info)) :: l) as H.
    { intros c E c' l' ->. rewrite E, <-app_assoc, drop_app. by eexists. }
    set (c := untrack _ _). assert (cl_sent c = k_sent (ns_link s) ++ [MsgRequest (e_id e) (RClient CInitialize (initialize_params caps info))]) as Hc by done. clearbody c.
    destruct m as [id r|x|n]; try (cbn [fst ns_link link_of k_sent]; apply (H c Hc c []); by rewrite app_nil_r).
    destruct (rs_payload x); [|cbn [fst ns_link link_of k_sent]; apply (H c Hc c []); by rewrite app_nil_r]. destruct (decode _ _) as [v'|]; [|cbn [fst ns_link link_of k_sent]; apply (H c Hc c []); by rewrite app_nil_r].
    destruct (decide _); [|cbn [fst ns_link link_of k_sent]; apply (H c Hc c []); by rewrite app_nil_r]. destruct (e_nok e); cbn [fst ns_link link_of k_sent].
    + by apply (H c Hc _ [MsgNotification (NClient CInitialized JNull)]).
    + apply (H c Hc _ []). by rewrite app_nil_r.
Qed.
Print Assumptions C232_twice_refuted.
Definition list_tools (n : Z) : cevent := MkEvent (OCall CListTools (JObj [])) (IdNum n) true [MsgResponse (success (IdNum n) (JObj [(lit "tools", JArr [])]))] true.
Example C232_example :
  let h := [NClone 0; NCall 0 (hello tools_only (IdNum 1)); NClone 0] in
  is_ready (n_run h) 0 ∧ is_ready (n_run h) 2 ∧ not_ready (n_run []) 0 ∧ Forall (no_handshake 1) (drop 1 h) ∧
  gives (n_run h) 2 (list_tools 2) = Some (COk (JObj [(lit "tools", JArr [])])) ∧ gives (n_run h) 1 (list_tools 2) = Some (CErr (EInvalidState (lit "Client not initialized"))).
Proof.
  cbv zeta. split; [eexists; split; by vm_compute|]. split; [eexists; split; by vm_compute|]. split; [eexists; split; by vm_compute|].
  split; [cbn [drop]; apply Forall_cons; split; [by intros H|]; apply Forall_singleton; done|]. split; by vm_compute.
Qed.

(** ** C233: the options of a client *)
Theorem C233_kept : ∀ bs, let o := (build_client bs).1 in op_strict o = default false (last (omap strict_call bs)) ∧ op_debounced o = default [] (last (omap debounced_call bs)).
Proof.
  intros bs. cbn [build_client fst]. induction bs as [|b bs [IH1 IH2]] using rev_ind; [done|]. unfold build_options in *. rewrite fold_left_app. cbn [fold_left]. rewrite !omap_app.
  destruct b; cbn [b_step op_strict op_debounced omap list_omap strict_call debounced_call]; rewrite ?last_snoc, ?app_nil_r; done.
Qed.
Print Assumptions C233_kept.
(** False: although strict checking is off, or was never asked for, a call the server has not declared is refused. *)
Theorem C233_lenient_refuted : ∀ bs es c rs e k p, op_strict (build_client bs).1 = false → c_run (build_client bs).2 es = (c, rs) → e_op e = OCall k p →
  (∀ w, handshake c w → ¬ allows (field "capabilities" w) k) → ∃ err, c_step c e = (c, CErr err).
Proof. intros bs es c rs e k p _ Hr He Hw. by eapply C42_refused. Qed.
Print Assumptions C233_lenient_refuted.
(** False: every notification is sent at once, also those that are to be debounced. *)
Theorem C233_debounced_refuted : ∀ bs es es' c rs c' rs', c_run (build_client bs).2 es = (c, rs) → Forall (λ e, (∃ p, e_op e = OProgress p) ∧ e_nok e = true) es' →
  c_run c es' = (c', rs') → cl_sent c' = cl_sent c ++ omap (λ e, match e_op e with OProgress p => Some (MsgNotification (NProgress p)) | _ => None end) es'.
Proof.
  intros bs es es' c rs c' rs' _ Hf. revert c rs'. induction es' as [|e es' IH]; intros c rs' Hr; cbn [c_run] in Hr.
  - apply pair_equal_spec in Hr as [<- _]. by rewrite app_nil_r.
  - apply Forall_cons in Hf as [[(p & Hp) Hok] Hf]. unfold c_step in Hr. rewrite Hp, Hok in Hr. cbn [send_notification] in Hr. destruct (c_run _ es') as [c1 rs1] eqn:E. apply pair_equal_spec in Hr as [<- _].
    apply IH in E; [|done]. rewrite E. cbn [omap list_omap]. rewrite Hp. cbn [cl_sent send]. by rewrite <-app_assoc.
Qed.
Print Assumptions C233_debounced_refuted.
Example C233_example :
  let bs := [BStrict true; BDebounced [lit "notifications/progress"]; BStrict false] in
  (build_client bs).1 = MkOptions false [lit "notifications/progress"] ∧
  (c_run (build_client bs).2 [hello tools_only (IdNum 1); MkEvent (OCall CListPrompts (JObj [])) (IdNum 3) true [] true]).2 !! 1 =
    Some (CErr (EUnsupported (lit "Server does not support prompts (required for prompts/list)"))).
Proof. split; by vm_compute. Qed.
