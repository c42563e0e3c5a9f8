(** The streamable HTTP client and the library's server. *)
From stdpp Require Import strings list sets gmap.
From Coq Require Import ZifyBool.
From Verif Require Import ListLib TextLib Utf8Lib JsonLib SerdeLib TypesModel RpcModel RpcSpec RpcProofs SseModel SseSpec SseProofs HttpModel HttpSpec HttpProofs HttpClientModel HttpClientSpec HttpClientProofs HttpClientProofs2.

Lemma concat_one {A B} (f : A → list B) x : concat (f <$> [x]) = f x.
Proof. apply app_nil_r. Qed.
Section wire.
  Context (cf : tconfig).
  Definition posted (c : transport) : headers := MkHeaders (Some application_json) (Some accept_streamable) (tp_session c) (tp_version c) None.
  Lemma posted_ok c : json_post (posted c).
  Proof. exists application_json, accept_streamable. split; [done|]. split; [by exists [], []|]. split; [done|]. left. by exists [], (lit ", text/event-stream"). Qed.
  Lemma posts c m tok : no_clash cf → authorized cf tok → ∃ q, tp_step cf c (TSend m None tok) = (request q (XPost m) c, None) ∧ cr_verb q = Post ∧
    seen_headers (cr_headers q) = posted c ∧ cr_body q = Some (message_doc m).
  Proof.
    intros Hc Ha. cbn [tp_step begin_send]. destruct (build_request cf tok c) as [hs|] eqn:E.
    - eexists. split; [reflexivity|]. split; [done|]. split; [|done]. cbn [cr_headers]. unfold seen_headers, posted. set (l := [(CONTENT_TYPE, application_json); (ACCEPT, accept_streamable)]).
      assert (∀ n, n ∈ OWN → first_header n (hs ++ l) = match (if decide (n = SESSION) then tp_session c else if decide (n = VERSION) then tp_version c else None) with Some v => Some v | None => first_header n l end) as H.
      { intros n Hn. by rewrite first_header_app, (own_header cf tok c hs n). }
      rewrite !H by by apply (bool_decide_unpack _); vm_compute. f_equal; subst l.
      + by destruct (tp_session c).
      + by destruct (tp_version c).
    - exfalso. unfold build_request in E. unfold authorized in Ha. destruct (tc_auth cf); [|done]. destruct Ha as [t ->]; done.
  Qed.
  Lemma doc_back m : sendable m → parsed (Some (message_doc m)) = Some m.
  Proof. intros [Hc Hs]. unfold parsed. rewrite of_to_bytes by done. by apply sent_back. Qed.
  Lemma flight_new q m c : tp_flight (request q (XPost m) c) !! length (tp_flight c) = Some (Some (XPost m)).
  Proof. cbn [request tp_flight]. by rewrite lookup_app_r, Nat.sub_diag. Qed.
  Lemma doc_not_array m : carried m → ∀ l, message_doc m ≠ JArr l.
  Proof. destruct m as [i [c p|c p]|r|[c p|c p|p|p]]; try done; intros (l & r & -> & _) l'; cbn [message_doc]; discriminate. Qed.
  Lemma event_says eid m : sendable m → no_break eid → 0%N ∉ eid → writable (event_for eid m) ∧ reads_as (event_for eid m) (Some m).
  Proof.
    intros Hm He H0. split.
    - apply show_writable; [apply Hm|by intros ? [= <-]|]. intros t Ht. assert (t = lit "message") as -> by congruence. by apply (bool_decide_unpack _); vm_compute.
    - split; [|done]. split; [by right|done].
  Qed.
  (** the reply, and the body if it is a stream *)
  Lemma replies q m c x m' : sendable m' → (hr_body x = BJson m' ∨ ∃ eid, hr_body x = BEvent eid m' ∧ no_break eid ∧ 0%N ∉ eid) → hr_status x = 200%Z →
    let c2 := tp_step cf (request q (XPost m) c) (TReply (length (tp_flight c)) (Some (reply_of x)) None) in
    let c3 := (tp_step cf c2.1 (TBody (length (tp_streams c)) (stream_text x))).1 in
    c2.2 = Some TOk ∧ tp_queue c3 = tp_queue c ++ [m'] ∧ tp_got c3 = tp_got c ∧
    tp_session c3 = match hr_session x with Some v => Some v | None => tp_session c end ∧ tp_version c3 = match hr_version x with Some v => Some v | None => tp_version c end.
  Proof.
    intros Hm Hb Hst. cbn zeta. set (c1 := request q (XPost m) c). destruct Hb as [Hb|(eid & Hb & He & H0)].
    - destruct (json_arrives cf c1 (length (tp_flight c)) m (reply_of x) None (message_doc m') [m']) as [E1 E2].
      + unfold waiting. unfold c1. by rewrite flight_new.
      + unfold reply_of, ok_status. cbn [rp_status]. rewrite Hst. lia.
      + unfold reply_of. rewrite Hb. cbn [rp_type]. exists application_json. split; [done|]. by exists [], [].
      + unfold reply_of. by rewrite Hb.
      + apply Hm.
      + by apply Forall_singleton, Hm.
      + right. exists m'. split; [done|]. split; [done|]. apply doc_not_array, Hm.
      + split; [done|]. revert E2. cbn [tp_step]. unfold c1. rewrite flight_new. unfold end_send. rewrite process_headers_spec. unfold reply_of. rewrite Hst, Hb. cbn [rp_status rp_type rp_body rp_session rp_version].
        rewrite (eq_refl : is_success 200 = true). cbn [default]. change (id application_json) with application_json. assert (contains application_json application_json = true) as -> by by vm_compute.
        cbn [mbind option_bind]. destruct (json_messages (to_bytes (message_doc m'))) as [ms|]; cbn [fst push tp_queue answered request tp_streams tp_got tp_session tp_version]; intros E2;
        (assert (tp_streams c !! length (tp_streams c) = None) as -> by by apply lookup_ge_None); cbn [fst tp_queue tp_got tp_session tp_version]; done.
    - cbn [tp_step]. unfold c1. rewrite flight_new. unfold end_send. rewrite process_headers_spec. unfold stream_text, reply_of. rewrite Hst, Hb. cbn [rp_status rp_type rp_body rp_session rp_version].
      rewrite (eq_refl : is_success 200 = true). cbn [default]. change (id text_event_stream) with text_event_stream. assert (contains application_json text_event_stream = false) as -> by by vm_compute. assert (contains text_event_stream text_event_stream = true) as -> by by vm_compute.
      cbn [snd fst]. split; [done|]. set (c2 := open_stream _ _). assert (tp_streams c2 !! length (tp_streams c) = Some true) as Hr. { unfold c2. cbn [open_stream answered request tp_streams]. by rewrite lookup_app_r, Nat.sub_diag. }
      rewrite Hr. cbn [fst]. destruct (event_says eid m' Hm He H0) as [Hw Hrd].
      pose proof (stream_arrives cf c2 (length (tp_streams c)) [event_for eid m'] [Some m'] Hr) as Harr. cbn [tp_step] in Harr. rewrite Hr in Harr. cbn [fst] in Harr.
      rewrite concat_one in Harr.
      rewrite Harr; [|by apply Forall_singleton|by constructor]. destruct (take_body_spec (display (event_for eid m')) (close_stream (length (tp_streams c)) c2)) as (ms & ids & ->). done.
  Qed.
End wire.

Section both.
  Context (cf : tconfig) (hcf : hconfig) (answer : list logged → rid → RpcModel.request → rpc_response).
  Notation hrun := (h_run hcf answer).
  (** what the server answers *)
  Lemma post_run_resp hdr rsid id r e1 e2 s :
    (hc_json hcf = true ∨ ∀ sid, hdr = Some sid → sx_streams s !! sid = None) → ∃ s' x, post_run hcf answer hdr rsid id r e1 e2 s = (s', x) ∧ hr_status x = 200%Z ∧ hr_session x = rsid ∧
      (hr_body x = BJson (MsgResponse (answer (sx_log s) id r)) ∨ hr_body x = BEvent e2 (MsgResponse (answer (sx_log s) id r))) ∧
      (hr_version x = Some (if is_init (MsgRequest id r) then default default_version (negotiated (answer (sx_log s) id r)) else default default_version (rsid ≫= λ sid, sx_sessions s' !! sid ≫= ss_version))).
  Proof.
    intros H. unfold post_run. set (resp := answer (sx_log s) id r). set (s3 := match rsid with Some _ => _ | None => _ end).
    assert (sx_streams s3 = sx_streams s) as Es. { subst s3. destruct (is_init _); unfold update_session; destruct rsid as [sid|]; try done; [destruct (_ !! _)|]; by destruct (hc_store hcf). }
    clearbody s3. unfold build_response. destruct (hc_json hcf).
    - eexists _, _. split; [reflexivity|]. split; [done|]. split; [done|]. split; [by left|]. by destruct (is_init _).
    - destruct hdr as [sid|].
      + destruct H as [?|H]; [done|]. rewrite Es, (H sid) by done. eexists _, _. split; [reflexivity|]. split; [done|]. split; [done|]. split; [by right|]. by destruct (is_init _).
      + eexists _, _. split; [reflexivity|]. split; [done|]. split; [done|]. split; [by left|]. by destruct (is_init _).
  Qed.
  Lemma continue_new s p e1 e2 : h_step hcf answer (wait p s) (HContinue (length (sx_pending s)) e1 e2) =
    match p with PPost hdr rsid id r => let '(s', x) := post_run hcf answer hdr rsid id r e1 e2 s in (s', Some x) | PGet sid last => let '(s', x) := get_run hcf sid last s in (s', Some x) end.
  Proof.
    cbn [h_step wait sx_pending]. rewrite lookup_app_r, Nat.sub_diag by done. cbn [lookup list_lookup].
    assert (drop_pending (length (sx_pending s)) (MkHttp (sx_sessions s) (sx_streams s) (sx_opened s) (sx_store s) (sx_pending s ++ [p]) (sx_log s)) = s) as E; [|unfold wait; by destruct p; rewrite E].
    unfold drop_pending. cbn [sx_sessions sx_streams sx_opened sx_store sx_log sx_pending].
    assert (delete (length (sx_pending s)) (sx_pending s ++ [p]) = sx_pending s) as ->; [|by destruct s].
    rewrite delete_take_drop, take_app, drop_ge by (rewrite app_length; cbn; lia). apply app_nil_r.
  Qed.
  Lemma agreed_post os h id r f sid : hc_stateful hcf = true → json_post h → ¬ init_request r → h_session h = Some sid → version_agrees (hrun os) sid (h_version h) → live sid (sx_log (hrun os)) →
    h_step hcf answer (hrun os) (HPost h (Some (MsgRequest id r)) f) = (wait (PPost (Some sid) (Some sid) id r) (hrun os), None).
  Proof.
    intros Hst Hh Hr Hs Hv Hl. cbn [h_step]. unfold post_start. apply post_headers in Hh. rewrite Hh.
    assert (is_init (MsgRequest id r) = false) as ->. { apply is_init_false. intros (i & p & [= <- ->]). apply Hr. by exists p. }
    unfold validate_non_init_session. rewrite Hst, Hs. apply sessions_live in Hl as [x Hx]; [|done]. rewrite Hx. unfold validate_protocol_version.
    unfold version_agrees in Hv. destruct (h_version h) as [w|]; [|done]. destruct Hv as [Hw Hv]. rewrite decide_True by done. rewrite Hst. cbn [mbind option_bind]. rewrite Hx.
    destruct x as [b [w'|]]; [|done]. rewrite decide_True; [done|]. symmetry. by apply (Hv _ _ Hx).
  Qed.
  Lemma answered_exchange c os id r tok fresh e1 e2 sid : no_clash cf → authorized cf tok → hc_stateful hcf = true → tp_session c = Some sid → live sid (sx_log (hrun os)) → version_agrees (hrun os) sid (tp_version c) →
    ¬ init_request r → sendable (MsgRequest id r) → sendable (MsgResponse (answer (sx_log (hrun os)) id r)) → no_break e2 → 0%N ∉ e2 → (hc_json hcf = true ∨ sx_streams (hrun os) !! sid = None) →
    ∃ c' sv' x, exchanged cf hcf answer c (hrun os) (MsgRequest id r) tok fresh e1 e2 c' sv' x ∧ sx_log sv' = sx_log (hrun os) ++ [LProcessed (Some sid) id r] ∧
      tp_queue c' = tp_queue c ++ [MsgResponse (answer (sx_log (hrun os)) id r)] ∧ tp_got c' = tp_got c ∧ tp_session c' = Some sid.
  Proof.
    intros Hc Ha Hst Hs Hl Hv Hr Hm Hresp Hb H0 Hstream. destruct (posts cf c (MsgRequest id r) tok Hc Ha) as (q & E1 & Ev & Eh & Eb).
    destruct (post_run_resp (Some sid) (Some sid) id r e1 e2 (hrun os)) as (sv' & x & Ep & Hx1 & Hx2 & Hx3 & Hx4). { destruct Hstream as [?|?]; [by left|right]. by intros ? [= <-]. }
    destruct (replies cf q (MsgRequest id r) c x (MsgResponse (answer (sx_log (hrun os)) id r))) as (R1 & R2 & R3 & R4 & R5); [done|destruct Hx3 as [?|?]; [by left|right; eauto]|done|].
    eexists _, sv', x. split; [|split; [|split; [exact R2|split; [exact R3|]]]].
    - eexists q, _, (tp_step cf (request q (XPost (MsgRequest id r)) c) (TReply (length (tp_flight c)) (Some (reply_of x)) None)).1, _. split; [exact E1|]. split; [done|]. split; [done|]. rewrite Eh, Eb, doc_back by done. split; [by apply agreed_post with (sid := sid); [|apply posted_ok| | | |]|].
      split; [rewrite continue_new, Ep; reflexivity|]. split; [|reflexivity]. rewrite <- R1. apply surjective_pairing.
    - pose proof (post_run_log hcf answer (Some sid) (Some sid) id r e1 e2 (hrun os)) as (El & _). by rewrite Ep in El.
    - rewrite R4, Hx2. done.
  Qed.
  Lemma init_exchange c os id p tok fresh e1 e2 : no_clash cf → authorized cf tok → hc_stateful hcf = true → tp_session c = None → sendable (MsgRequest id (RClient CInitialize p)) →
    sendable (MsgResponse (answer (sx_log (hrun os) ++ [LOpened fresh]) id (RClient CInitialize p))) → no_break e2 → 0%N ∉ e2 →
    ∃ c' sv' x, exchanged cf hcf answer c (hrun os) (MsgRequest id (RClient CInitialize p)) tok fresh e1 e2 c' sv' x ∧
      tp_queue c' = tp_queue c ++ [MsgResponse (answer (sx_log (hrun os) ++ [LOpened fresh]) id (RClient CInitialize p))] ∧ tp_session c' = Some fresh ∧ live fresh (sx_log sv') ∧
      ∃ w, tp_version c' = Some w ∧ sx_sessions sv' !! fresh = Some (MkSession true (Some w)) ∧ w = default default_version (negotiated (answer (sx_log (hrun os) ++ [LOpened fresh]) id (RClient CInitialize p))).
  Proof.
    intros Hc Ha Hst Hs Hm Hresp Hb H0. set (r := RClient CInitialize p) in *. destruct (posts cf c (MsgRequest id r) tok Hc Ha) as (q & E1 & Ev & Eh & Eb).
    set (sv1 := note (LOpened fresh) (HttpModel.set_session fresh (MkSession false (h_version (posted c))) (hrun os))).
    destruct (post_run_resp None (Some fresh) id r e1 e2 sv1) as (sv' & x & Ep & Hx1 & Hx2 & Hx3 & Hx4); [by right|].
    destruct (replies cf q (MsgRequest id r) c x (MsgResponse (answer (sx_log (hrun os) ++ [LOpened fresh]) id r))) as (R1 & R2 & R3 & R4 & R5); [done|destruct Hx3 as [?|?]; [by left|right; eauto]|done|].
    eexists _, sv', x. split; [|split; [exact R2|split; [rewrite R4, Hx2; done|]]].
    - eexists q, _, (tp_step cf (request q (XPost (MsgRequest id r)) c) (TReply (length (tp_flight c)) (Some (reply_of x)) None)).1, _. split; [exact E1|]. split; [done|]. split; [done|]. rewrite Eh, Eb, doc_back by done. split; [by apply init_post; [|apply posted_ok|]|].
      change (sx_pending (hrun os)) with (sx_pending sv1). split; [rewrite continue_new; fold r; fold sv1; rewrite Ep; reflexivity|]. split; [|reflexivity]. rewrite <- R1. apply surjective_pairing.
    - pose proof (post_run_log hcf answer None (Some fresh) id r e1 e2 sv1) as (El & _). rewrite Ep in El. cbn [fst] in El. rewrite El. split.
      + exists (sx_log (hrun os)), [LProcessed (Some fresh) id r]. change (sx_log sv1) with (sx_log (hrun os) ++ [LOpened fresh]). split; [by rewrite <- app_assoc|]. by intros ?%elem_of_list_singleton.
      + eexists. split; [rewrite R5, Hx4; done|]. split; [|done]. revert Ep. unfold post_run. assert (is_init (MsgRequest id r) = true) as -> by done. unfold update_session. 
        assert (sx_sessions (note (LProcessed (Some fresh) id r) sv1) !! fresh = Some (MkSession false (h_version (posted c)))) as -> by (cbn; by rewrite lookup_insert).
        intros Ep. change (sx_log sv1) with (sx_log (hrun os) ++ [LOpened fresh]) in *. set (w := default default_version _) in *. clearbody w.
        assert (∀ b s3 y, build_response hcf None b e2 s3 = y → sx_sessions y.1 = sx_sessions s3) as Hbr. { intros b s3 y <-. unfold build_response. by destruct (hc_json hcf). }
        destruct (hc_store hcf); (destruct (build_response _ _ _ _ _) as [s4 [z bd]] eqn:Ebr; apply Hbr in Ebr; cbn [fst] in Ebr; assert (sv' = s4) as -> by congruence; rewrite Ebr; cbn; by rewrite lookup_insert).
  Qed.
  (** a session that is gone *)
  Lemma dead_exchange c os id p tok fresh e1 e2 sid : no_clash cf → authorized cf tok → hc_stateful hcf = true → tp_session c = Some sid → ¬ live sid (sx_log (hrun os)) → sx_streams (hrun os) !! sid = None →
    sendable (MsgRequest id (RClient CInitialize p)) → sendable (MsgResponse (answer (sx_log (hrun os)) id (RClient CInitialize p))) → no_break e2 → 0%N ∉ e2 →
    ∃ c' sv' x, exchanged cf hcf answer c (hrun os) (MsgRequest id (RClient CInitialize p)) tok fresh e1 e2 c' sv' x ∧
      tp_queue c' = tp_queue c ++ [MsgResponse (answer (sx_log (hrun os)) id (RClient CInitialize p))] ∧ tp_session c' = Some sid ∧ ¬ live sid (sx_log sv').
  Proof.
    intros Hc Ha Hst Hs Hl Hstr Hm Hresp Hb H0. set (r := RClient CInitialize p) in *. destruct (posts cf c (MsgRequest id r) tok Hc Ha) as (q & E1 & Ev & Eh & Eb).
    destruct (post_run_resp (Some sid) (Some sid) id r e1 e2 (hrun os)) as (sv' & x & Ep & Hx1 & Hx2 & Hx3 & Hx4). { right. by intros ? [= <-]. }
    destruct (replies cf q (MsgRequest id r) c x (MsgResponse (answer (sx_log (hrun os)) id r))) as (R1 & R2 & R3 & R4 & R5); [done|destruct Hx3 as [?|?]; [by left|right; eauto]|done|].
    eexists _, sv', x. split; [|split; [exact R2|split; [rewrite R4, Hx2; done|]]].
    - eexists q, _, (tp_step cf (request q (XPost (MsgRequest id r)) c) (TReply (length (tp_flight c)) (Some (reply_of x)) None)).1, _. split; [exact E1|]. split; [done|]. split; [done|]. rewrite Eh, Eb, doc_back by done. split; [by apply supplied_post; [|apply posted_ok| |]|].
      split; [rewrite continue_new; fold r; rewrite Ep; reflexivity|]. split; [|reflexivity]. rewrite <- R1. apply surjective_pairing.
    - pose proof (post_run_log hcf answer (Some sid) (Some sid) id r e1 e2 (hrun os)) as (El & _). rewrite Ep in El. cbn [fst] in El. rewrite El. rewrite live_snoc. intros [?|[_ ?]]; done.
  Qed.
  (** a stream is open: the answer goes there *)
  Lemma stream_exchange c os id r tok fresh e1 e2 sid n : no_clash cf → authorized cf tok → hc_stateful hcf = true → tp_session c = Some sid → live sid (sx_log (hrun os)) → version_agrees (hrun os) sid (tp_version c) →
    ¬ init_request r → sendable (MsgRequest id r) → hc_json hcf = false → sx_streams (hrun os) !! sid = Some n →
    ∃ c' sv' x, exchanged cf hcf answer c (hrun os) (MsgRequest id r) tok fresh e1 e2 c' sv' x ∧ hr_status x = 202%Z ∧ hr_body x = BNone ∧
      tp_queue c' = tp_queue c ∧ tp_got c' = tp_got c ∧ sx_log sv' = sx_log (hrun os) ++ [LProcessed (Some sid) id r].
  Proof.
    intros Hc Ha Hst Hs Hl Hv Hr Hm Hj Hstr. destruct (posts cf c (MsgRequest id r) tok Hc Ha) as (q & E1 & Ev & Eh & Eb).
    assert (∃ sv' w, post_run hcf answer (Some sid) (Some sid) id r e1 e2 (hrun os) = (sv', MkResp 202 (Some sid) w BNone)) as (sv' & w & Ep).
    { unfold post_run. set (s3 := if hc_store hcf then _ else _). assert (sx_streams s3 = sx_streams (hrun os)) as Es. { subst s3. destruct (hc_store hcf), (is_init (MsgRequest id r)); unfold update_session; repeat case_match; done. }
      clearbody s3. unfold build_response. rewrite Hj, Es, Hstr. eauto. }
    eexists _, sv', (MkResp 202 (Some sid) w BNone). split; [|split; [reflexivity|split; [reflexivity|]]].
    - eexists q, _, _, _. split; [exact E1|]. split; [done|]. split; [done|]. rewrite Eh, Eb, doc_back by done. split; [by apply agreed_post with (sid := sid); [|apply posted_ok| | | |]|].
      split; [rewrite continue_new, Ep; reflexivity|]. split; [|reflexivity]. cbn [tp_step]. rewrite flight_new. unfold end_send. rewrite process_headers_spec. cbn [reply_of hr_status hr_session hr_version hr_body rp_status rp_session rp_version rp_type rp_body].
      rewrite (eq_refl : is_success 202 = true). cbn [default]. assert (contains application_json [] = false) as -> by by vm_compute. assert (contains text_event_stream [] = false) as -> by by vm_compute. rewrite (eq_refl : (202 =? 202)%Z = true). reflexivity.
    - cbn [tp_step tp_streams answered request]. assert (tp_streams c !! length (tp_streams c) = None) as -> by by apply lookup_ge_None.
      cbn [fst tp_queue tp_got]. split; [done|]. split; [done|]. pose proof (post_run_log hcf answer (Some sid) (Some sid) id r e1 e2 (hrun os)) as (El & _). by rewrite Ep in El.
  Qed.
End both.
