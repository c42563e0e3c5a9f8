(** C220: several clients and one server of this library connected over HTTP without sessions. *)
From stdpp Require Import gmap strings list sets.
From Verif Require Import ListLib TextLib JsonLib SerdeLib TypesModel ManagersModel SseModel SseSpec HttpModel HttpSpec HttpClientModel HttpClientSpec RpcModel RpcSpec RpcProofs ServerModel ServerSpec ClientModel ClientSpec HttpStackModel HttpStackSpec HttpStackProofs HttpStackProofs2 HttpStackProofs3 HttpCloudModel HttpCloudSpec HttpCloudProofs HttpCloudProofs2 HttpCloudProofs3 HttpCloudProps.
From Verif Require HttpClientProofs ServerProofs ClientProofs StackModel StackSpec StackProofs StackProofs2 StackProps HttpStackProps.

Lemma part_handled cf behave key log : (∀ b, part cf behave key b log `sublist_of` handled log) ∧ handled log ≡ₚ part cf behave key true log ++ part cf behave key false log.
Proof.
  rewrite (fates_all cf behave key [] log). unfold part. generalize (fates cf behave key [] log) as l. induction l as [|[[b s] x] l [IH1 IH2]]; [done|].
  assert (∀ b', omap (λ x : bool * option (list N) * (rid * request), if decide (x.1.1 = b') then Some x.2 else None) ((b, s, x) :: l) =
    (if decide (b = b') then [x] else []) ++ omap (λ x : bool * option (list N) * (rid * request), if decide (x.1.1 = b') then Some x.2 else None) l) as Hb by (intros b'; cbn; by case_decide).
  rewrite fmap_cons. split.
  - intros b'. rewrite Hb. destruct (decide (b = b')); cbn [app snd]; constructor; apply IH1.
  - rewrite !Hb. destruct b; cbn [decide decide_rel app snd]; [rewrite decide_True, decide_False by done|rewrite decide_False, decide_True by done]; cbn [app]; rewrite IH2; [done|]. apply Permutation_middle.
Qed.

(** a request that gets no answer has called a handler *)
Lemma panicked_called cf behave key id r s : (handle_request cf behave key id r s).2 = None → sv_calls (handle_request cf behave key id r s).1 ≠ sv_calls s.
Proof.
  destruct r as [k p|k p]; [|done]. destruct (decide (k = CInitialize)) as [->|Hk]; [done|]. rewrite StackProofs2.handle_other by done.
  assert (∀ kd h args wrap, sv_calls (invoke behave key kd h args id wrap s).1 ≠ sv_calls s) as Hi.
  { intros kd h args wrap E. unfold invoke in E. cbn [fst sv_calls] in E. apply (f_equal length) in E. rewrite app_length in E. cbn in E. lia. }
  assert ((process_client_request cf behave key id k p s).2 = Panicked → sv_calls (process_client_request cf behave key id k p s).1 ≠ sv_calls s) as H.
  { destruct k; cbn [process_client_request]; repeat case_match; first [done|by intros _; apply Hi]. }
  destruct (process_client_request cf behave key id k p s) as [s' [?|?|]]; [done..|]. intros _. by apply H.
Qed.

(** ** C220: an HTTP server without sessions *)
(** Handlers have come back exactly once for each request the clients sent and have an answer to, with the arguments of
    that request, and have panicked exactly once for each request whose call failed with a transport error.  Nothing is assumed
    about the ids the generator draws: none is used. *)
Theorem C220_once : ∀ os cf behave key tcf hcf n ds, build os = inl cf → scaps_ok (cf_caps cf) → (∀ i, no_clash (tcf i)) → hc_stateful hcf = false →
  Forall (usable_op tcf) ds → let y := d_run cf behave key tcf hcf n ds in all_travel cf behave key y →
  invoked <$> ended behave false [] (sv_calls (core cf behave key y)) ≡ₚ concat ((λ p, omap (destination os) (settled_asks p).*2) <$> cd_peers y) ∧
  invoked <$> ended behave true [] (sv_calls (core cf behave key y)) ≡ₚ concat ((λ i, omap (destination os) (lost_asks y i).*2) <$> seq 0 (length (cd_peers y))).
Proof.
  intros os cf behave key tcf hcf n ds Hb Hok Hcl Hst Hu y Ht.
  pose proof (crowd_run cf behave key tcf hcf Hcl Hst Hok n ds Hu Ht) as K. fold y in K. unfold core.
  assert (∀ {A} (f : A → list (rid * request)) (l : list A), omap (destination os) (concat (f <$> l)).*2 = concat ((λ a, omap (destination os) (f a).*2) <$> l)) as Hc.
  { intros A f l. induction l as [|a l IH]; [done|]. rewrite !fmap_cons. cbn [concat]. by rewrite fmap_app, omap_app, IH. }
  split; rewrite (mcp_ended cf behave key os _ _ Hb (cw_good _ _ _ _ K)); cbn [negb]; rewrite <-Hc.
  - by rewrite (cw_once _ _ _ _ K).
  - by rewrite (cw_lost _ _ _ _ K).
Qed.
Print Assumptions C220_once.
(** What the server has handled is what the clients sent – what was answered and what was not because the handler panicked – with
    each client's requests in the order it sent them.  No session is ever kept, on either side. *)
Theorem C220_order : ∀ os cf behave key tcf hcf n ds, build os = inl cf → scaps_ok (cf_caps cf) → (∀ i, no_clash (tcf i)) → hc_stateful hcf = false →
  Forall (usable_op tcf) ds → let y := d_run cf behave key tcf hcf n ds in all_travel cf behave key y →
  handled (sx_log (cd_http y)) ≡ₚ concat (settled_asks <$> cd_peers y) ++ concat (lost_asks y <$> seq 0 (length (cd_peers y))) ∧
  ∀ i p, cd_peers y !! i = Some p → settled_asks p `sublist_of` handled (sx_log (cd_http y)) ∧ lost_asks y i `sublist_of` handled (sx_log (cd_http y)) ∧ tp_session (pe_tp p) = None.
Proof.
  intros os cf behave key tcf hcf n ds Hb Hok Hcl Hst Hu y Ht.
  pose proof (crowd_run cf behave key tcf hcf Hcl Hst Hok n ds Hu Ht) as K. fold y in K. destruct (part_handled cf behave key (sx_log (cd_http y))) as [P1 P2]. split.
  - by rewrite P2, (cw_once _ _ _ _ K), (cw_lost _ _ _ _ K).
  - intros i p Hi. split; [etrans; [by eapply (cw_order _ _ _ _ K)|apply P1]|]. split; [etrans; [apply (cw_lost_order _ _ _ _ K)|apply P1]|].
    destruct (cw_peers _ _ _ _ K i p Hi) as [_ H]. destruct (pe_job p); [by apply H| |by apply H]. destruct H as (r & t0 & q & _ & _ & -> & _ & _ & _ & H). apply H.
Qed.
Print Assumptions C220_order.
(** What a call returns is what its own handler call returned. *)
Theorem C220_result : ∀ os cf behave key tcf hcf n ds, build os = inl cf → typed behave → scaps_ok (cf_caps cf) → (∀ i, no_clash (tcf i)) → hc_stateful hcf = false →
  Forall (usable_op tcf) ds → let y := d_run cf behave key tcf hcf n ds in all_travel cf behave key y →
  ∀ i k p id r kd h args, (i, OCall k p, id, r) ∈ cd_returned y → destination os (RClient k p) = Some (kd, h, args) →
  (refusal r ∧ (k ≠ CCreateMessage → allows (scaps_json (cf_caps cf)) k → r = CErr not_initialized)) ∨
  ∃ before inv after, sv_calls (core cf behave key y) = before ++ inv :: after ∧ invoked inv = (kd, h, args) ∧ i_request inv = rid_show id ∧
    match behave (before ++ [inv]) with
    | HOk v => r = COk (shown_as kd v)
    | HErr e => r = CErr (EProtocol (-32603) (error_display e) None)
    | HPanic => r = CErr (ETransport [])
    end.
Proof.
  intros os cf behave key tcf hcf n ds Hb Hty Hok Hcl Hst Hu y Ht i k p id r kd h args Hr Hds.
  pose proof (crowd_run cf behave key tcf hcf Hcl Hst Hok n ds Hu Ht) as K. fold y in K.
  eapply explained_result; [done..| |exact Hds]. exact (proj1 (Forall_forall _ _) (cw_returned _ _ _ _ K) _ Hr).
Qed.
Print Assumptions C220_result.
(** A request that waits can get the lock whatever else is waiting, and then its method returns – with a transport error if and
    only if its handler panicked just then – and nothing changes for the other clients. *)
Theorem C220_progress : ∀ os cf behave key tcf hcf n ds, build os = inl cf → scaps_ok (cf_caps cf) → (∀ i, no_clash (tcf i)) → hc_stateful hcf = false →
  Forall (usable_op tcf) ds → let y := d_run cf behave key tcf hcf n ds in all_travel cf behave key y →
  ∀ i c t o id f m, cd_peers y !! i = Some (MkPeer c t (JWaits o id f m)) →
  ∃ k, cd_waiting y !! k = Some i ∧ ∀ e1 e2 tok fresh, no_break e2 → 0%N ∉ e2 → authorized (tcf i) tok →
    let y1 := d_answer cf behave key tcf hcf k e1 e2 y in let y2 := d_return cf behave key tcf hcf i tok fresh y1 in all_travel cf behave key y1 →
    (∃ r, cd_returned y2 = cd_returned y ++ [(i, o, id, r)] ∧
      ((∃ k q, o = OCall k q) → r = CErr (ETransport []) ↔ ∃ inv, sv_calls (core cf behave key y1) = sv_calls (core cf behave key y) ++ [inv] ∧ behave (sv_calls (core cf behave key y) ++ [inv]) = HPanic)) ∧
    (∃ c' t', cd_peers y2 !! i = Some (MkPeer c' t' JIdle) ∧ cl_initialized c' = true) ∧
    cd_waiting y2 = delete k (cd_waiting y) ∧ ∀ j, j ≠ i → cd_peers y2 !! j = cd_peers y !! j.
Proof.
  intros os cf behave key tcf hcf n ds Hb Hok Hcl Hst Hu y Ht i c t o id f m Hi.
  pose proof (crowd_run cf behave key tcf hcf Hcl Hst Hok n ds Hu Ht) as K. fold y in K.
  pose proof (cw_busy _ _ _ _ K i _ _ _ _ _ _ Hi) as Hw. apply elem_of_list_lookup in Hw as [k Hk]. exists k. split; [done|]. intros e1 e2 tok fresh Hb2 Hz Ha y1 y2 Ht1.
  pose proof (free_answer_ok cf behave key tcf hcf Hok y k e1 e2 K Hb2 Hz Ht1) as K1. fold y1 in K1.
  destruct (queued_is cf behave key y k i K Hk) as (c0 & t0 & o0 & id0 & f0 & n0 & r & Hi' & Eo & Hpe). rewrite Hi in Hi'. injection Hi' as <- <- <- <- <- <-.
  destruct (free_answer_cases cf behave key tcf hcf Hok y k e1 e2 i c t o id f m r K Hk Hi Eo Hpe Hb2 Hz Ht1) as (v' & t' & Hg & Hin & Hset & Hq & E & L1 & L3 & Hcr & _). fold y1 in E.
  set (b := back cf behave key (sx_log (cd_http y)) id r) in *.
  set (got := if b then _ else _) in E. assert (cd_peers y1 !! i = Some (MkPeer c t' (JAnswered o id b got))) as Hi1.
  { rewrite E. cbn [put cd_peers]. apply list_lookup_insert. by eapply lookup_lt_Some. }
  destruct (free_return_cases cf behave key tcf hcf Hcl Hst Hok y1 i tok fresh _ _ _ _ _ _ K1 Hi1 Ha) as (c' & r' & t'' & E2 & Q2 & Hin' & Hset' & _ & _ & Hlc & U2 & U3). fold y2 in E2.
  assert (core cf behave key y1 = (handle_request cf behave key id r (core cf behave key y)).1) as Hcore. { unfold core. rewrite E. cbn [put cd_http]. by rewrite L1, mcp_snoc. }
  split.
  { exists r'. rewrite E2. cbn [give put cd_returned]. split; [by rewrite E|]. intros (k1 & q1 & ->).
    destruct (StackProofs2.opening_cases _ _ _ _ Eo) as [(? & Ex & Hno)|[(? & ? & Ex & _)|(k2 & q2 & Ex & Hm & _ & E3)]]; [by destruct (Hno k1 q1)|discriminate Ex|]. injection Ex as <- <-. injection E3 as ->.
    rewrite Hcore. split.
    - intros ->. destruct b eqn:Eb; [discriminate Hlc|]. pose proof (back_false _ _ _ _ _ _ Eb) as Hn. fold (core cf behave key y) in Hn.
      destruct (destination os (RClient k1 q1)) as [[[kd h] args]|] eqn:Hd.
      + destruct (one_call cf behave key os id _ (core cf behave key y) _ _ _ Hb Hg Hd) as (inv & H1 & _ & _ & H4). exists inv. split; [done|]. rewrite Hn in H4. by destruct (behave (sv_calls (core cf behave key y) ++ [inv])).
      + exfalso. apply (panicked_called cf behave key id _ _ Hn). by apply (no_call cf behave key os).
    - intros (inv & H1 & H2). destruct (panic_lost cf behave key os id _ _ inv Hb Hg H1 H2) as [Hn _]. assert (b = false) as Eb. { apply bool_decide_eq_false. unfold core in Hn. rewrite Hn. by intros [? ?]. }
      exact (U3 Eb). }
  rewrite E2. cbn [give put cd_peers cd_waiting]. split.
  { exists c', t''. split; [apply list_lookup_insert; by eapply lookup_lt_Some|]. apply U2. by eexists. }
  split; [by rewrite E|]. intros j Hj. rewrite list_lookup_insert_ne by done. rewrite E. cbn [put cd_peers]. by rewrite list_lookup_insert_ne.
Qed.
Print Assumptions C220_progress.

(** ** C221: the protocol version that was agreed on is kept *)
(** With sessions: whatever has happened, the version the transport of an initialized client reports, and sends along with its
    requests, is the one the initialize result named. *)
Theorem C221_kept_partial : ∀ os cf behave key tcf hcf n ds, build os = inl cf → scaps_ok (cf_caps cf) → (∀ i, no_clash (tcf i)) → hc_stateful hcf = true →
  Forall (usable_op tcf) ds → NoDup (drawn ds) → let y := d_run cf behave key tcf hcf n ds in all_travel cf behave key y →
  ∀ i p, cd_peers y !! i = Some p → cl_initialized (pe_client p) = true → ∃ v, field "protocolVersion" (initialize_result cf) = JStr v ∧ tp_version (pe_tp p) = Some v.
Proof.
  intros os cf behave key tcf hcf n ds Hb Hok Hcl Hst Hu Hd y Ht i p Hi Hini. pose proof (run_ok cf behave key tcf hcf Hcl Hst Hok n ds Hu Hd Ht) as K. fold y in K.
  exists V. split; [done|]. destruct (ck_peers _ _ _ _ _ K i p Hi) as [_ H].
  assert (∀ t, settled cf (cd_http y) (pe_client p) t → tp_version t = Some V) as Hs by (intros t [_ H2]; destruct (H2 Hini) as [_ (sid & [_ H3 _])]; done).
  destruct (pe_job p).
  - by apply Hs, H.
  - destruct H as (r & t0 & q & _ & _ & -> & _ & _ & _ & H). exact (Hs _ H).
  - destruct H as (_ & [[_ [(_ & _ & H)|(r & l1 & s & l2 & _ & _ & _ & _ & _ & _ & sid & [_ H _])]]|(_ & _ & H & _)]); [by apply Hs|done|by apply Hs].
Qed.
Print Assumptions C221_kept_partial.
(** Without sessions it is lost: whatever has happened before, the answer to a call makes the client's transport report
    another version than the initialize result named. *)
Theorem C221_lost_refuted : ∀ os cf behave key tcf hcf n ds, build os = inl cf → scaps_ok (cf_caps cf) → (∀ i, no_clash (tcf i)) → hc_stateful hcf = false →
  Forall (usable_op tcf) ds → let y := d_run cf behave key tcf hcf n ds in all_travel cf behave key y →
  ∀ k i c t kd q id f m e1 e2, cd_waiting y !! k = Some i → cd_peers y !! i = Some (MkPeer c t (JWaits (OCall kd q) id f m)) → no_break e2 → 0%N ∉ e2 →
  let y1 := d_answer cf behave key tcf hcf k e1 e2 y in all_travel cf behave key y1 →
  ∀ p, cd_peers y1 !! i = Some p → pe_job p ≠ JAnswered (OCall kd q) id false [] →
  tp_version (pe_tp p) = Some (lit "2025-03-26") ∧ field "protocolVersion" (initialize_result cf) = JStr (lit "2024-11-05").
Proof.
  intros os cf behave key tcf hcf n ds Hb Hok Hcl Hst Hu y Ht k i c t kd q id f m e1 e2 Hk Hi Hb2 Hz y1 Ht1 p Hp Hnp.
  pose proof (crowd_run cf behave key tcf hcf Hcl Hst Hok n ds Hu Ht) as K. fold y in K. split; [|done].
  destruct (queued_is cf behave key y k i K Hk) as (c0 & t0 & o0 & id0 & f0 & n0 & r & Hi' & Eo & Hpe). rewrite Hi in Hi'. injection Hi' as <- <- <- <- <- <-.
  destruct (free_answer_cases cf behave key tcf hcf Hok y k e1 e2 i c t _ id f m r K Hk Hi Eo Hpe Hb2 Hz Ht1) as (v' & t' & Hg & Hin & Hset & Hq & E & L1 & L3 & Hcr & Hv). fold y1 in E.
  rewrite E in Hp. cbn [put cd_peers] in Hp. rewrite list_lookup_insert in Hp by (by eapply lookup_lt_Some). injection Hp as <-. cbn [pe_job pe_tp] in *.
  destruct (back cf behave key (sx_log (cd_http y)) id r); [|done]. rewrite (Hv eq_refl).
  destruct (StackProofs2.opening_cases _ _ _ _ Eo) as [(? & Ex & Hno)|[(? & ? & Ex & _)|(k2 & q2 & Ex & Hm & _ & E3)]]; [by destruct (Hno kd q)|discriminate Ex|]. injection Ex as <- <-. injection E3 as ->.
  destruct kd; done.
Qed.
Print Assumptions C221_lost_refuted.

(** The two clients of C210_example and a server without sessions. *)
Definition free_demo (k : nat) (json store : bool) : cloud :=
  d_run StackProps.demo_config StackProps.demo_tool (λ _, EmptyString) (λ _, MkTConfig [(lit "x-a", lit "1")] true) (MkHConfig false json store) 2 (take k cloud_demo_ops).
Example C220_example :
  drop 2 (cd_returned (free_demo 14 false true)) =
    [(1, OCall CCallTool (call_params (lit "add") (JObj [(lit "x", JInt 4)])), IdStr (lit "b"), COk (shown_as KTool (JArr [JInt 1; JStr (lit "a""b")])));
     (1, OCall CListPrompts (JObj []), IdStr (lit "c"), CErr (EUnsupported (lit "Server does not support prompts (required for prompts/list)")));
     (0, OCall CCallTool (call_params (lit "add") (JObj [(lit "x", JInt 3)])), IdStr (lit "b"), CErr (EProtocol (-32603) (lit "Internal error: no") None))]%nat ∧
  (λ p, (tp_session (pe_tp p), tp_version (pe_tp p))) <$> cd_peers (free_demo 14 false true) = [(None, Some (lit "2025-03-26")); (None, Some (lit "2025-03-26"))] ∧
  invoked <$> sv_calls (core StackProps.demo_config StackProps.demo_tool (λ _, EmptyString) (free_demo 14 false true)) = [(KTool, 4%nat, JObj [(lit "x", JInt 4)]); (KTool, 4%nat, JObj [(lit "x", JInt 3)])] ∧
  cd_waiting (free_demo 8 false true) = [0; 1]%nat.
Proof. by vm_compute. Qed.
Example C220_travels : all_travel StackProps.demo_config StackProps.demo_tool (λ _, EmptyString) (free_demo 14 false true).
Proof.
  intros l1 sid id r l2 x E Hx.
  assert (Forall (λ x, sendable (MsgResponse x)) (answers_of StackProps.demo_config StackProps.demo_tool (λ _, EmptyString) [] (sx_log (cd_http (free_demo 14 false true))))) as H.
  2: { rewrite E, answers_of_app in H. cbn [answers_of app] in H. apply Forall_app in H as [_ H]. apply Forall_cons in H as [H _]. unfold answer in H. by rewrite Hx in H. }
  assert (answers_of StackProps.demo_config StackProps.demo_tool (λ _, EmptyString) [] (sx_log (cd_http (free_demo 14 false true))) =
    [success (IdStr (lit "a")) (initialize_result StackProps.demo_config); success (IdStr (lit "a")) (initialize_result StackProps.demo_config); success (IdStr (lit "b")) (shown_as KTool (JArr [JInt 1; JStr (lit "a""b")]));
     failure (IdStr (lit "b")) {| er_code := -32603; er_message := lit "Internal error: no"; er_data := None |}]) as -> by by vm_compute.
  repeat (apply Forall_cons; split); [..|by apply Forall_nil_2]; (split; [|kept]);
    (refine (conj I _); first [exact I|cbn [rs_payload failure]; split; [unfold i32_ok; cbn [er_code]; lia|cbn [er_data]; discriminate]]).
Qed.
(** A panicking handler: only its call fails. *)
Example C220_panic_example :
  let y k := d_run StackProps.demo_config shaky (λ _, EmptyString) (λ _, MkTConfig [(lit "x-a", lit "1")] true) (MkHConfig false false true) 2 (take k shaky_ops) in
  (λ x, x.2) <$> drop 2 (cd_returned (y 17)) =
    [CErr (ETransport []); CErr (EUnsupported (lit "Server does not support prompts (required for prompts/list)")); COk (shown_as KTool (JInt 2)); COk (shown_as KTool (JInt 3))] ∧
  (length (lost_asks (y 17) 0), length (lost_asks (y 17) 1)) = (0, 1)%nat.
Proof. by vm_compute. Qed.
Example C221_example :
  (λ p, (cl_initialized (pe_client p), tp_version (pe_tp p))) <$> cd_peers (free_demo 6 false true) = [(true, Some (lit "2024-11-05")); (true, Some (lit "2024-11-05"))] ∧
  (λ p, (cl_initialized (pe_client p), tp_version (pe_tp p))) <$> cd_peers (free_demo 9 false true) = [(true, Some (lit "2024-11-05")); (true, Some (lit "2025-03-26"))] ∧
  (λ p, (cl_initialized (pe_client p), tp_version (pe_tp p))) <$> cd_peers (cloud_demo 14 false true) = [(true, Some (lit "2024-11-05")); (true, Some (lit "2024-11-05"))].
Proof. by vm_compute. Qed.
