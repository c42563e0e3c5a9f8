(** Theorems about capability presets and queries. *)
From stdpp Require Import gmap strings list.
From Verif Require Import TextLib JsonLib SerdeLib TypesModel RpcModel RpcSpec ManagersModel ServerModel ServerSpec ClientModel ClientSpec ClientProofs ClientProps
  StdioModel StdioSpec StackModel StackSpec StackProofs StackProofs2 StackProps CapsModel CapsSpec.

Lemma asked_scaps c :
  has_key "tools" (scaps_json c) = provides_tools c ∧ has_key "prompts" (scaps_json c) = provides_prompts c ∧ has_key "resources" (scaps_json c) = provides_resources c.
Proof.
  unfold provides_tools, provides_prompts, provides_resources. destruct c as [t p r l co s e]. cbn [sc_tools sc_prompts sc_resources].
  destruct t, p, r, l, co, s, e; split_and!; by vm_compute.
Qed.
Lemma resources_field c : field "resources" (scaps_json c) = default JNull (sc_resources c).
Proof. destruct c as [t p r l co s e]. cbn [sc_resources]. destruct t, p, r, l, co, s, e; by vm_compute. Qed.
Lemma question_allows c k q : question k = Some q → (allows (scaps_json c) k ↔ q c = true).
Proof.
  destruct (asked_scaps c) as (H1 & H2 & H3). unfold allows. destruct (decide (k = CSubscribe)) as [->|Hk].
  - intros [= <-]. cbn [wants]. rewrite resources_field. split.
    + intros [_ H]. by rewrite H.
    + intros H. split.
      * intros cap [= <-]. rewrite H3. unfold provides_resources. destruct (sc_resources c); [done|]. discriminate H.
      * intros _. repeat case_match; try discriminate H. by rewrite H.
  - destruct k; intros [= <-]; cbn [wants]; try done; (split; [intros [H _]; try done; try (rewrite <-?H1, <-?H2, <-?H3; by apply H)|intros H; split; [intros cap [= <-]; congruence|discriminate]]).
Qed.
Lemma question_facts k q : question k = Some q → is_method k = true ∧ k ≠ CCreateMessage.
Proof. by destruct k. Qed.

Lemma open_here k c caps : is_method k = true → k ≠ CCreateMessage → cl_initialized c = true → cl_server c = Some caps → allows caps k → open_to k c.
Proof.
  intros Hm Hk Hi Hs Ha. split; [|split; [done|by exists caps]]. intros H. repeat (apply elem_of_cons in H as [->|H]; [done|]). by apply elem_of_nil in H.
Qed.
Lemma client_caps_ok : ty_ok t_client_caps.
Proof. repeat constructor. Qed.

(** ** C212 *)
(** After the handshake of a session over stdio, what a call makes the client send, and whether the
    server gets it, is told by the query about the server's capabilities. *)
Theorem C212_queries : ∀ os cf behave key ops y rs k q p id y' r, build os = inl cf → never_panics behave → scaps_ok (cf_caps cf) →
  session cf behave key stack_new ops = (y, rs) → cl_initialized (y_client y) = true → question k = Some q →
  call cf behave key y (OCall k p) id = (y', r) → travels y' →
  news (y_client y) (y_client y') = (if q (cf_caps cf) then [MsgRequest id (RClient k p)] else []) ∧
  (q (cf_caps cf) = false → (∃ e, r = CErr e) ∧ y_server y' = y_server y).
Proof.
  intros os cf behave key ops y rs k q p id y' r Hb Hp Hok Hs Hi Hq Hc Ht. destruct (question_facts _ _ Hq) as [Hm Hk].
  destruct (q (cf_caps cf)) eqn:E.
  - split; [|done]. destruct (call_grows cf behave key _ _ _ _ _ Hc) as [G1 G2]. pose proof (travels_back _ _ G1 G2 Ht) as Hty0.
    pose proof (session_ready os cf behave key Hb Hp ops stack_new y rs (ready_new os) Hs Hty0) as Hr.
    assert (cl_server (y_client y) = Some (scaps_json (cf_caps cf))) as Hsv by (by eapply (session_caps os cf behave key Hb Hp ops stack_new y rs Hok (ready_new os))).
    pose proof (proj2 (question_allows (cf_caps cf) _ _ Hq) E) as Ha.
    destruct (call_ready os cf behave key Hb Hp _ _ _ _ _ Hr Hc Ht) as [_ H]. unfold opening in H. rewrite Hm, (allowed k _ _ Hm Hk Hi Hsv Ha) in H.
    destruct H as (s1 & x & _ & _ & _ & Hst & _).
    pose proof (C92_reachable_partial (y_client y) (MkEvent (OCall k p) id true [MsgResponse x] true) k p eq_refl (open_here k _ _ Hm Hk Hi Hsv Ha) eq_refl) as N.
    rewrite Hst in N. exact N.
  - assert (¬ allows (scaps_json (cf_caps cf)) k) as Hn by (rewrite (question_allows _ _ _ Hq); congruence).
    destruct (C197_refused _ _ _ _ _ _ _ _ _ _ _ _ Hb Hp Hok Hs (or_intror Hn) Hc Ht) as (He & H1 & H2). rewrite H2. unfold news. rewrite drop_all. done.
Qed.
Print Assumptions C212_queries.
(** A preset leaves open exactly the methods it is named after. *)
Theorem C212_presets : ∀ p k, k ∉ [CInitialize; CElicitResponse] → allows (scaps_json (preset_caps p)) k ↔ k ∈ open_methods p.
Proof.
  intros p k Hm. assert (is_method k = true) as Hm' by (destruct k; first [done|exfalso; apply Hm; apply (bool_decide_unpack _); by vm_compute]). clear Hm.
  destruct (k) eqn:K; try done; destruct p; unfold allows; cbn [wants];
    (split; [intros [H1 H2]; first [exfalso; (specialize (H1 _ eq_refl)); vm_compute in H1; discriminate H1|apply (bool_decide_unpack _); by vm_compute]
            |intros H; first [exfalso; revert H; apply (bool_decide_unpack _); by vm_compute|split; [intros cap [= <-]; by vm_compute|first [intros _; by vm_compute|discriminate]]]]).
Qed.
Print Assumptions C212_presets.
(** What the server knows of its client after the handshake is what the client said of itself. *)
Theorem C212_client : ∀ os cf behave key ops y rs cc info id y' r, build os = inl cf → never_panics behave → scaps_ok (cf_caps cf) → ccaps_ok cc →
  session cf behave key stack_new ops = (y, rs) → cl_initialized (y_client y) = false →
  call cf behave key y (OInitialize (ccaps_json cc) info) id = (y', r) → travels y' →
  sv_client (y_server y') ≫= ccaps_of = Some cc.
Proof.
  intros os cf behave key ops y rs cc info id y' r Hb Hp Hok Hcc Hs Hi Hc Ht.
  destruct (C197_handshake _ _ _ _ _ _ _ _ _ _ _ _ Hb Hp Hok Hs Hi Hc Ht) as (_ & _ & _ & ->). cbn [mbind option_bind].
  unfold ccaps_of. rewrite (decode_is_of t_client_caps); [|exact client_caps_ok|exact Hcc].
  unfold ccaps_json. destruct cc as [t p' r' l s ro e]. cbn [cc_tools cc_prompts cc_resources cc_logging cc_sampling cc_roots cc_experimental].
  destruct t, p', r', l, s, ro, e; by vm_compute.
Qed.
Print Assumptions C212_client.
(** Asked after the handshake, each query says whether the client declared the feature; a client with full capabilities
    declares every feature, with every flag set, and one with minimal capabilities declares nothing. *)
Theorem C212_declared : ∀ os cf behave key ops y rs cc info id y' r q n, build os = inl cf → never_panics behave → scaps_ok (cf_caps cf) → ccaps_ok cc →
  session cf behave key stack_new ops = (y, rs) → cl_initialized (y_client y) = false →
  call cf behave key y (OInitialize (ccaps_json cc) info) id = (y', r) → travels y' → (q, n) ∈ client_questions →
  q <$> (sv_client (y_server y') ≫= ccaps_of) = Some (has_key n (ccaps_json cc)).
Proof.
  intros os cf behave key ops y rs cc info id y' r q n Hb Hp Hok Hcc Hs Hi Hc Ht Hq.
  rewrite (C212_client _ _ _ _ _ _ _ _ _ _ _ _ Hb Hp Hok Hcc Hs Hi Hc Ht). cbn [fmap option_fmap option_map]. f_equal. clear -Hq.
  destruct cc as [t p' r' l s ro e]. unfold client_questions in Hq.
  repeat (apply elem_of_cons in Hq as [Hq|Hq]; [apply pair_equal_spec in Hq as [-> ->]; destruct t, p', r', l, s, ro, e; by vm_compute|]). by apply elem_of_nil in Hq.
Qed.
Print Assumptions C212_declared.
Theorem C212_extremes : (∀ n, n ∈ features → has_key n (ccaps_json client_full) = true) ∧ (∀ n, has_key n (ccaps_json client_minimal) = false) ∧
  (∀ n, n ∈ ["tools"; "prompts"; "resources"; "roots"] → field "listChanged" (field n (ccaps_json client_full)) = JBool true) ∧
  field "subscribe" (field "resources" (ccaps_json client_full)) = JBool true.
Proof.
  split_and!; [|done| |by vm_compute].
  - apply Forall_forall. repeat (apply Forall_cons; split); [by vm_compute..|by apply Forall_nil_2].
  - apply Forall_forall. repeat (apply Forall_cons; split); [by vm_compute..|by apply Forall_nil_2].
Qed.
Print Assumptions C212_extremes.

Lemma storable_keys v : storable v → keys_ok v.
Proof. by intros (_ & H & _). Qed.
(** The hypotheses are met: every preset is a value of its type, and so are the client's; a session of the demo client with a
    server that was built with resources_only. *)
Example C212_values : (∀ p, scaps_ok (preset_caps p)) ∧ ccaps_ok client_full ∧ ccaps_ok client_minimal.
Proof.
  split_and!.
  - intros p. apply (decode_sound t_server_caps) with (v := scaps_json (preset_caps p)); [repeat constructor| |destruct p; by vm_compute].
    destruct p; by (apply storable_keys; kept).
  - apply (decode_sound t_client_caps) with (v := ccaps_json client_full); [exact client_caps_ok|apply storable_keys; kept|by vm_compute].
  - apply (decode_sound t_client_caps) with (v := ccaps_json client_minimal); [exact client_caps_ok|apply storable_keys; kept|by vm_compute].
Qed.
Definition res_ops : list bop := [BName (lit "s"); BVersion (lit "1"); BCaps server_resources_only].
Definition res_config : config := MkConfig (lit "s") (lit "1") server_resources_only ∅ ∅ None None.
Definition res_calls : list (cop * rid) :=
  [(OInitialize (ccaps_json client_full) (JObj [(lit "name", JStr (lit "c")); (lit "version", JStr (lit "2"))]), IdNum 1);
   (OCall CListTools (JObj []), IdNum 2); (OCall CListResources (JObj []), IdNum 3)].
Example C212_example :
  build res_ops = inl res_config ∧
  let '(y, rs) := session res_config demo_tool (λ _, EmptyString) stack_new res_calls in
  length (requests (cl_sent (y_client y))) = 2%nat ∧ (sv_client (y_server y) ≫= ccaps_of) = Some client_full ∧
  drop 1 rs = [CErr (EUnsupported (lit "Server does not support tools (required for tools/list)")); COk (JObj [(lit "resources", JArr [])])].
Proof. split; [by vm_compute|]. by vm_compute. Qed.
