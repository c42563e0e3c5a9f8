(** Proofs about sessions of a client and a server connected over HTTP. *)
From stdpp Require Import gmap strings list sets.
From Verif Require Import ListLib TextLib JsonLib SerdeLib TypesModel ManagersModel SseModel SseSpec HttpModel HttpSpec HttpProofs HttpClientModel HttpClientSpec HttpClientProofs HttpClientProofs2 HttpClientProofs3 RpcModel RpcSpec RpcProofs ServerModel ServerSpec ClientModel ClientSpec HttpStackModel HttpStackSpec HttpStackProofs.
From Verif Require ServerProofs ClientProofs StackModel StackSpec StackProofs StackProofs2.
Notation opening := StackProofs.opening.
Notation requests := StackSpec.requests.

Lemma sendable_initialized : sendable (MsgNotification (NClient CInitialized JNull)).
Proof. split; [done|]. apply storable_check; [by vm_compute|vm_compute; lia]. Qed.
Lemma sendable_roots : sendable (MsgNotification (NClient CRootsListChanged JNull)).
Proof. split; [done|]. apply storable_check; [by vm_compute|vm_compute; lia]. Qed.

Section stack.
  Context (os : list bop) (cf : config) (behave : list invocation → hresult) (key : list N → string) (tcf : tconfig) (hcf : hconfig).
  Context (Hb : build os = inl cf) (Hp : never_panics behave) (Hclash : no_clash tcf) (Hst : hc_stateful hcf = true) (Hok : scaps_ok (cf_caps cf)).
  Notation answer := (answer cf behave key).
  Notation handle := (handle_request cf behave key).
  Notation mcp := (mcp cf behave key).
  Notation behind := (behind cf behave key).
  Notation hrun := (h_run hcf answer).
  Notation post := (post cf behave key tcf hcf).
  Notation trip := (trip cf behave key tcf hcf).
  Notation web_call := (web_call cf behave key tcf hcf).
  Notation web_session := (web_session cf behave key tcf hcf).
  Notation answers_travel := (answers_travel cf behave key).
  Notation open_on := (open_on cf behave key hcf).

  (** *** The log only grows *)
  Lemma step_log v o : sx_log v `prefix_of` sx_log (h_step hcf answer v o).1.
  Proof. destruct (log_grows hcf answer v o Hst) as (l & -> & _). by exists l. Qed.
  Lemma post_log m u y : sx_log (g_http y) `prefix_of` sx_log (g_http (post m u y).2).
  Proof.
    unfold HttpStackModel.post. destruct (tp_step tcf (g_tp y) _) as [t1 [r|]]; [done|]. destruct (last (tp_sent t1)) as [q|]; [|done].
    pose proof (step_log (g_http y) (HPost (seen_headers (cr_headers q)) (parsed (cr_body q)) (u_session u))) as H1. destruct (h_step _ _ _ _) as [v1 [x|]]; cbn [fst] in H1.
    - by destruct (tp_step tcf t1 _) as [t2 r].
    - pose proof (step_log v1 (HContinue (length (sx_pending (g_http y))) (u_stored u) (u_event u))) as H2. destruct (h_step _ _ v1 _) as [v2 [x|]]; cbn [fst] in H2.
      + destruct (tp_step tcf t1 _) as [t2 r]. cbn [snd g_http]. by etrans.
      + cbn [snd g_http]. by etrans.
  Qed.
  Lemma trip_log o u y : sx_log (g_http y) `prefix_of` sx_log (g_http (trip o u y).2).
  Proof.
    destruct o as [m|]; [|done]. unfold HttpStackModel.trip. pose proof (post_log m u y) as H. destruct (post m u y) as [ok y1]. by destruct (drain _ _ _) as [ms t].
  Qed.
  Lemma call_log y o id u1 u2 : let first := head (sends (g_client y) (c_step (g_client y) (MkEvent o id true [] true)).1) in
    sx_log (g_http (trip first u1 y).2) `prefix_of` sx_log (g_http (web_call y o id u1 u2).1).
  Proof.
    cbn zeta. unfold HttpStackModel.web_call. destruct (trip _ u1 y) as [[ok got] y1]. cbn [snd].
    match goal with |- context [trip ?a u2 y1] => pose proof (trip_log a u2 y1) as H; destruct (trip a u2 y1) as [[ok2 got2] y2] end.
    cbn [snd] in H. by destruct (c_step (g_client y) _) as [c' r].
  Qed.
  Lemma web_call_log y o id u1 u2 : sx_log (g_http y) `prefix_of` sx_log (g_http (web_call y o id u1 u2).1).
  Proof. etrans; [apply trip_log|apply call_log]. Qed.
  Lemma session_log ops y : sx_log (g_http y) `prefix_of` sx_log (g_http (web_session y ops).1).
  Proof.
    revert y. induction ops as [|[[o id] [u1 u2]] ops IH]; intros y; [done|]. cbn [HttpStackModel.web_session]. pose proof (web_call_log y o id u1 u2) as H. destruct (web_call y o id u1 u2) as [y1 r].
    specialize (IH y1). destruct (web_session y1 ops) as [y2 rs]. cbn [fst] in *. by etrans.
  Qed.
  Lemma travel_back y y' : sx_log (g_http y) `prefix_of` sx_log (g_http y') → answers_travel y' → answers_travel y.
  Proof. intros [l Hl] H l1 sid id r l2 E. apply (H l1 sid id r (l2 ++ l)). by rewrite Hl, E, <-app_assoc. Qed.
  Lemma travel_step y l0 sid id r : l0 ++ [LProcessed sid id r] `prefix_of` sx_log (g_http y) → answers_travel y → sendable (MsgResponse (answer l0 id r)).
  Proof. intros [l Hl] H. apply (H l0 sid id r l). by rewrite Hl, <-app_assoc. Qed.

  (** *** Requests reach the server whatever comes of the answer *)
  Lemma post_log_request c t v sid w u id r : open_on t v sid w → usable tcf u → ¬ init_request r → sendable (MsgRequest id r) →
    sx_log (g_http (post (MsgRequest id r) u (MkWeb c t v)).2) = sx_log v ++ [LProcessed (Some sid) id r].
  Proof.
    intros Ho (Ha & _) Hr Hm. pose proof (open_agrees _ _ _ _ _ _ _ _ Ho) as Hag. destruct Ho as [[hs ->] H1 H2 H3 H4 H5].
    destruct (HttpClientProofs3.posts tcf t (MsgRequest id r) (u_token u) Hclash Ha) as (q & E1 & Ev & Eh & Eb).
    assert (live sid (sx_log (hrun hs))) as Hl by (apply sessions_live; [done|]; by eexists).
    pose proof (agreed_post hcf answer hs (posted t) id r (u_session u) sid Hst (posted_ok t) Hr H1 Hag Hl) as Hpost.
    unfold HttpStackModel.post. cbn [g_tp g_http g_client]. rewrite E1. cbn [HttpClientModel.request tp_sent]. rewrite last_snoc. rewrite Eh, Eb, doc_back by done. rewrite Hpost, continue_new.
    pose proof (post_run_log hcf answer (Some sid) (Some sid) id r (u_stored u) (u_event u) (hrun hs)) as (L1 & _). destruct (post_run _ _ _ _ _ _ _ _ _) as [v' x]. cbn [fst] in L1.
    clear E1. destruct (tp_step tcf _ _) as [t2 rr]. exact L1.
  Qed.
  Lemma post_log_init c t v u id p : (∃ hs, v = hrun hs) → tp_session t = None → usable tcf u → sendable (MsgRequest id (RClient CInitialize p)) →
    sx_log (g_http (post (MsgRequest id (RClient CInitialize p)) u (MkWeb c t v)).2) = (sx_log v ++ [LOpened (u_session u)]) ++ [LProcessed (Some (u_session u)) id (RClient CInitialize p)].
  Proof.
    intros [hs ->] H1 (Ha & _) Hm. destruct (HttpClientProofs3.posts tcf t (MsgRequest id (RClient CInitialize p)) (u_token u) Hclash Ha) as (q & E1 & Ev & Eh & Eb).
    unfold HttpStackModel.post. cbn [g_tp g_http g_client]. rewrite E1. cbn [HttpClientModel.request tp_sent]. rewrite last_snoc. rewrite Eh, Eb, doc_back by done.
    rewrite init_post by (try apply posted_ok; done). set (s0 := note _ _). change (sx_pending (hrun hs)) with (sx_pending s0). rewrite continue_new.
    pose proof (post_run_log hcf answer None (Some (u_session u)) id (RClient CInitialize p) (u_stored u) (u_event u) s0) as (L1 & _). destruct (post_run _ _ _ _ _ _ _ _ _) as [v' x]. cbn [fst] in L1.
    clear E1. destruct (tp_step tcf _ _) as [t2 rr]. exact L1.
  Qed.
  Lemma trip_http m u y : g_http (trip (Some m) u y).2 = g_http (post m u y).2.
  Proof. unfold HttpStackModel.trip. destruct (post m u y) as [ok y1]. by destruct (drain _ _ _) as [ms t]. Qed.

  (** *** The server behind HTTP *)
  Lemma mcp_snoc log l : mcp (log ++ [l]) = mcp_step cf behave key (mcp log) l.
  Proof. unfold HttpStackModel.mcp. by rewrite fold_left_app. Qed.
  Lemma answer_is log id r : ∃ s1, handle id r (mcp log) = (s1, Some (answer log id r)) ∧ ∀ sid, mcp (log ++ [LProcessed sid id r]) = s1.
  Proof.
    destruct (ServerProofs.handle_answers cf behave key id r (mcp log) Hp) as [x Hx]. destruct (handle id r (mcp log)) as [s1 o] eqn:E. cbn in Hx. subst o. exists s1.
    unfold HttpStackModel.answer. rewrite E. split; [done|]. intros sid. rewrite mcp_snoc. cbn [mcp_step]. by rewrite E.
  Qed.

  (** *** Between calls *)
  Record web_ready (y : web) : Prop := {
    wr_in : cl_in (g_client y) = []; wr_queue : tp_queue (g_tp y) = [];
    wr_calls : invoked <$> sv_calls (behind y) = omap (destination os) (requests (cl_sent (g_client y)));
    wr_before : cl_initialized (g_client y) = false → (∃ hs, g_http y = hrun hs) ∧ tp_session (g_tp y) = None ∧ sx_streams (g_http y) = ∅;
    wr_after : cl_initialized (g_client y) = true → cl_server (g_client y) = Some (scaps_json (cf_caps cf)) ∧ ∃ sid w, open_on (g_tp y) (g_http y) sid w }.
  Lemma web_ready_new : web_ready web_new.
  Proof. split; [done..| |done]. intros _. split; [by exists []|]. done. Qed.
  Lemma trip_second c t v sid w u l : tp_queue t = [] → open_on t v sid w → usable tcf u → l = [] ∨ l = [MsgNotification (NClient CInitialized JNull)] →
    ∃ t', trip (head l) u (MkWeb c t v) = (true, [], MkWeb c t' v) ∧ tp_queue t' = [] ∧ open_on t' v sid w.
  Proof.
    intros Hq Ho Hu [->| ->]; [by exists t|]. by apply (trip_note cf behave key tcf hcf Hclash Hst); [..|apply sendable_initialized].
  Qed.
  Lemma first_opening c o id : head (sends c (c_step c (MkEvent o id true [] true)).1) = opening c o id.
  Proof.
    destruct (StackProofs.opened c o id []) as (l & E & _ & N). unfold sends. rewrite E, drop_app. destruct (opening c o id); [done|]. by rewrite (N eq_refl).
  Qed.
  Lemma second_opening c o id got : ∃ l, drop (length (option_list (opening c o id))) (sends c (c_step c (MkEvent o id true got true)).1) = l ∧
    (l = [] ∨ l = [MsgNotification (NClient CInitialized JNull)]) ∧ (opening c o id = None → l = []).
  Proof.
    destruct (StackProofs.opened c o id got) as (l & E & L & N). exists l. split; [|done]. unfold sends. by rewrite E, !drop_app.
  Qed.
  (** a call once its first exchange is known *)
  Lemma rest_of_call y o id u1 u2 got t v sid w : let c := g_client y in
    trip (opening c o id) u1 y = (true, got, MkWeb c t v) → tp_queue t = [] → open_on t v sid w → usable tcf u2 →
    ∃ c' r t', web_call y o id u1 u2 = (MkWeb c' t' v, r) ∧ c_step c (MkEvent o id true got true) = (c', r) ∧ tp_queue t' = [] ∧ open_on t' v sid w.
  Proof.
    cbn zeta. intros Ht Hq Ho Hu. unfold HttpStackModel.web_call. rewrite first_opening, Ht.
    destruct (second_opening (g_client y) o id got) as (l & -> & L & _). destruct (trip_second (g_client y) t v sid w u2 l Hq Ho Hu L) as (t' & -> & Hq' & Ho').
    assert (match head l with Some _ => true | None => true end = true) as -> by by destruct (head l).
    destruct (c_step (g_client y) (MkEvent o id true got true)) as [c' r]. rewrite StackProofs.deliver_nil. by exists c', r, t'.
  Qed.
  Lemma kept_ready y c' t' sid w o id r : web_ready y → cl_initialized (g_client y) = true → (opening (g_client y) o id = None ∨ ∃ n, opening (g_client y) o id = Some (MsgNotification n)) →
    c_step (g_client y) (MkEvent o id true [] true) = (c', r) → tp_queue t' = [] → open_on t' (g_http y) sid w → web_ready (MkWeb c' t' (g_http y)).
  Proof.
    intros [H1 H2 H3 H4 H5] Hi Ho Hc Hq Hop. destruct (StackProofs2.untouched _ _ _ Ho _ _ Hc) as [U1 U2]. destruct (ClientProofs.step_grows _ _ _ _ Hc) as (_ & _ & Hg). destruct (Hg Hi) as [Hi' Hs].
    split; cbn [g_client g_tp g_http]; [by rewrite U1|done|by rewrite U2| |].
    - intros E. congruence.
    - intros _. split; [|by eexists _, _]. rewrite Hs. by apply H5.
  Qed.
  Lemma web_call_ready y o id u1 u2 y' r : web_ready y → postable o id → usable tcf u1 → usable tcf u2 → web_call y o id u1 u2 = (y', r) → answers_travel y' → web_ready y' ∧
    match opening (g_client y) o id with
    | Some (MsgRequest i (RClient k p)) => ∃ s1 x, handle id (RClient k p) (behind y) = (s1, Some x) ∧ behind y' = s1 ∧ rs_id x = id ∧
        c_step (g_client y) (MkEvent o id true [MsgResponse x] true) = (g_client y', r) ∧ good_request (RClient k p)
    | _ => g_http y' = g_http y ∧ c_step (g_client y) (MkEvent o id true [] true) = (g_client y', r)
    end.
  Proof.
    intros Hr Hpo Hu1 Hu2 Hc Ht. pose proof Hr as [H1 H2 H3 H4 H5]. destruct y as [c t v]. cbn [g_client g_tp g_http] in *.
    destruct (opening c o id) as [m|] eqn:Eo.
    2: { unfold HttpStackModel.web_call in Hc. cbn [g_client] in Hc. rewrite first_opening, Eo in Hc. cbn [HttpStackModel.trip] in Hc.
      destruct (second_opening c o id []) as (l & El & _ & N). rewrite Eo in El, N. cbn [option_list length] in *. rewrite El, (N eq_refl) in Hc. cbn [head HttpStackModel.trip] in Hc.
      destruct (c_step c (MkEvent o id true [] true)) as [c' r'] eqn:Ec. rewrite StackProofs.deliver_nil in Hc. apply pair_equal_spec in Hc as [<- <-]. cbn [g_client g_http g_tp].
      split; [|done]. destruct (StackProofs2.untouched _ _ _ (or_introl Eo) _ _ Ec) as [U1 U2].
      destruct (cl_initialized c) eqn:Ei.
      - destruct (H5 eq_refl) as [Hs (sid & w & Ho)]. apply (kept_ready (MkWeb c t v) c' t sid w o id r' Hr Ei (or_introl Eo) Ec); done.
      - assert (c' = c) as ->; [|done]. unfold StackProofs.opening, c_step in Eo, Ec. cbn [e_op e_id e_ok e_arrived e_nok] in Ec. destruct o as [caps info|k p| |i|p]; [by rewrite Ei in Eo| | |done..].
        + destruct (is_method k); [|by injection Ec]. destruct (refused k c); [by injection Ec|done].
        + rewrite Ei in Ec. by injection Ec. }
    destruct (StackProofs2.opening_cases _ _ _ _ Eo) as [(n & -> & Hn)|[(caps & info & -> & Hi & ->)|(k & p & -> & Hm & Hk & ->)]].
    - (* a notification *)
      assert (o = ORootsChanged) as -> by (destruct o; [unfold StackProofs.opening in Eo; by destruct (cl_initialized c)|by destruct (Hn k p)|done..]).
      assert (cl_initialized c = true ∧ n = NClient CRootsListChanged JNull) as [Hi ->].
      { unfold StackProofs.opening, c_step, send_notification in Eo. cbn [e_op e_nok] in Eo. repeat (case_match; cbn [fst cl_sent ClientModel.send] in Eo; rewrite ?drop_all, ?drop_app in Eo; try discriminate Eo); cbn in Eo; by simplify_eq. }
      destruct (H5 Hi) as [Hs (sid & w & Ho)].
      destruct (trip_note cf behave key tcf hcf Hclash Hst c t v sid w u1 _ H2 Ho Hu1 sendable_roots) as (t1 & Ht1 & Hq1 & Ho1).
      destruct (rest_of_call (MkWeb c t v) ORootsChanged id u1 u2 [] t1 v sid w) as (c' & r' & t' & Hw & Hcs & Hq' & Ho'); cbn [g_client]; [rewrite Eo; exact Ht1|done..|].
      rewrite Hw in Hc. apply pair_equal_spec in Hc as [<- <-]. cbn [g_client g_http] in *. split; [|done].
      apply (kept_ready (MkWeb c t v) c' t' sid w ORootsChanged id r' Hr Hi); [right; by eexists|done..].
    - (* initialize *)
      destruct (H4 Hi) as (Hrun & Hs & Hstr). set (q := initialize_params caps info) in *. cbn [postable] in Hpo. fold q in Hpo.
      pose proof (call_log (MkWeb c t v) (OInitialize caps info) id u1 u2) as Hlog. cbn zeta in Hlog. rewrite first_opening in Hlog. cbn [g_client] in Hlog. rewrite Eo, trip_http, post_log_init, Hc in Hlog by done.
      pose proof (travel_step _ _ _ _ _ Hlog Ht) as Hresp.
      destruct (trip_init cf behave key tcf hcf Hclash Hst c t v u1 id q Hok H2 Hrun Hs Hstr Hu1 Hpo Hresp) as (t1 & v1 & Ht1 & Hl1 & Hq1 & sid & w & Ho1).
      destruct (rest_of_call (MkWeb c t v) (OInitialize caps info) id u1 u2 [MsgResponse (answer (sx_log v ++ [LOpened (u_session u1)]) id (RClient CInitialize q))] t1 v1 sid w) as (c' & r' & t' & Hw & Hcs & Hq' & Ho'); cbn [g_client]; [rewrite Eo; exact Ht1|done..|].
      rewrite Hw in Hc. apply pair_equal_spec in Hc as [<- <-]. cbn [g_client g_http g_tp] in *.
      destruct (answer_is (sx_log v ++ [LOpened (u_session u1)]) id (RClient CInitialize q)) as (s1 & Hh & Hmcp). assert (mcp (sx_log v ++ [LOpened (u_session u1)]) = mcp (sx_log v)) as Em by (by rewrite mcp_snoc). rewrite Em in Hh.
      assert (behind (MkWeb c' t' v1) = s1) as Hbe. { unfold HttpStackSpec.behind. cbn [g_http]. rewrite Hl1, <-(Hmcp (Some (u_session u1))). by rewrite <-app_assoc. }
      set (x := answer (sx_log v ++ [LOpened (u_session u1)]) id (RClient CInitialize q)) in *.
      destruct (StackProofs2.request_step _ _ _ _ _ _ _ _ Eo H1 Hcs) as [U1 U2].
      assert (good_request (RClient CInitialize q)) as Hg by apply Hpo.
      split.
      + split; cbn [g_client g_tp g_http]; [done|done| | |].
        * rewrite Hbe, U2, omap_app. pose proof (ServerProofs.routed cf behave key os id (RClient CInitialize q) (behind (MkWeb c t v)) (ServerProofs.built _ _ Hb) Hg) as Hro. unfold HttpStackSpec.behind in Hro at 1. cbn [g_http] in Hro. rewrite Hh in Hro. cbn [fst] in Hro. by rewrite Hro, H3.
        * destruct (ClientProofs.handshake_works cf behave key (mcp (sx_log v)) c (MkEvent (OInitialize caps info) id true [MsgResponse x] true) caps info) as (c2 & Hs' & Hi' & _); [done..|cbn [e_id e_arrived]; fold q; by rewrite Hh|].
          rewrite Hcs in Hs'. apply pair_equal_spec in Hs' as [-> _]. intros E. congruence.
        * intros _. destruct (ClientProofs.handshake_works cf behave key (mcp (sx_log v)) c (MkEvent (OInitialize caps info) id true [MsgResponse x] true) caps info) as (c2 & Hs' & _ & Hsv); [done..|cbn [e_id e_arrived]; fold q; by rewrite Hh|].
          rewrite Hcs in Hs'. apply pair_equal_spec in Hs' as [-> _]. split; [done|]. by exists sid, w.
      + exists s1, x. split; [done|]. split; [done|]. split; [|done]. by destruct (ServerProofs.handle_id _ _ _ _ _ _ _ _ Hh) as [? _].
    - (* a request *)
      assert (cl_initialized c = true) as Hi. { destruct (cl_initialized c) eqn:E; [done|]. by rewrite ClientProofs.not_initialized_refused in Hk. }
      destruct (H5 Hi) as [Hs (sid & w & Ho)]. assert (¬ init_request (RClient k p)) as Hni by (intros (? & [= -> _]); discriminate Hm).
      pose proof (call_log (MkWeb c t v) (OCall k p) id u1 u2) as Hlog. cbn zeta in Hlog. rewrite first_opening in Hlog. cbn [g_client] in Hlog. rewrite Eo, trip_http, (post_log_request c t v sid w), Hc in Hlog by done.
      pose proof (travel_step _ _ _ _ _ Hlog Ht) as Hresp.
      destruct (trip_request cf behave key tcf hcf Hclash Hst c t v sid w u1 id (RClient k p) H2 Ho Hu1 Hni Hpo Hresp) as (t1 & v1 & Ht1 & Hl1 & Hq1 & Ho1).
      destruct (rest_of_call (MkWeb c t v) (OCall k p) id u1 u2 [MsgResponse (answer (sx_log v) id (RClient k p))] t1 v1 sid w) as (c' & r' & t' & Hw & Hcs & Hq' & Ho'); cbn [g_client]; [rewrite Eo; exact Ht1|done..|].
      rewrite Hw in Hc. apply pair_equal_spec in Hc as [<- <-]. cbn [g_client g_http g_tp] in *.
      destruct (answer_is (sx_log v) id (RClient k p)) as (s1 & Hh & Hmcp).
      assert (behind (MkWeb c' t' v1) = s1) as Hbe. { unfold HttpStackSpec.behind. cbn [g_http]. by rewrite Hl1. }
      destruct (StackProofs2.request_step _ _ _ _ _ _ _ _ Eo H1 Hcs) as [U1 U2].
      assert (good_request (RClient k p)) as Hg by apply Hpo.
      destruct (ClientProofs.step_grows _ _ _ _ Hcs) as (_ & _ & Hgr). destruct (Hgr Hi) as [Hi' Hs'].
      split.
      + split; cbn [g_client g_tp g_http]; [done|done| | |].
        * rewrite Hbe, U2, omap_app. pose proof (ServerProofs.routed cf behave key os id (RClient k p) (behind (MkWeb c t v)) (ServerProofs.built _ _ Hb) Hg) as Hro. unfold HttpStackSpec.behind in Hro at 1. cbn [g_http] in Hro. rewrite Hh in Hro. cbn [fst] in Hro. by rewrite Hro, H3.
        * intros E. congruence.
        * intros _. split; [by rewrite Hs'|]. by exists sid, w.
      + eexists s1, _. split; [exact Hh|]. split; [done|]. split; [|done]. by destruct (ServerProofs.handle_id _ _ _ _ _ _ _ _ Hh) as [? _].
  Qed.
  Lemma web_session_ready ops y y' rs : Forall (usable_call tcf) ops → web_ready y → web_session y ops = (y', rs) → answers_travel y' → web_ready y'.
  Proof.
    revert y rs. induction ops as [|[[o id] [u1 u2]] ops IH]; intros y rs Hu Hr; cbn [HttpStackModel.web_session]; [by intros [= <- <-]|].
    apply Forall_cons in Hu as [(Hpo & Hu1 & Hu2) Hu]. cbn [fst snd] in *.
    destruct (web_call y o id u1 u2) as [y1 r] eqn:E1. pose proof (session_log ops y1) as Hl. destruct (web_session y1 ops) as [y2 rs2] eqn:E2. cbn [fst] in Hl. intros [= <- <-] Ht.
    apply (IH y1 rs2); [done| |done|done]. by apply (web_call_ready y o id u1 u2 y1 r Hr Hpo Hu1 Hu2 E1), (travel_back _ _ Hl).
  Qed.
End stack.
