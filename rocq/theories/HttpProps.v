(** Properties of the streamable HTTP server. *)
From stdpp Require Import gmap strings list.
From Verif Require Import ListLib TextLib JsonLib SerdeLib TypesModel RpcModel RpcSpec RpcProofs ServerModel HttpModel HttpSpec HttpProofs HttpProofs2.

Definition jhdr (sid ver : option text) : headers := MkHeaders (Some (lit "application/json")) (Some (lit "application/json, text/event-stream")) sid ver None.
Definition ghdr (sid last : option text) : headers := MkHeaders None (Some (lit "text/event-stream")) sid None last.
Definition ping (z : Z) : message := MsgRequest (IdNum z) (RClient CPing JNull).
Definition hello (z : Z) : message := MsgRequest (IdNum z) (RClient CInitialize JNull).
Definition pong (l : list logged) (id : rid) (r : request) : rpc_response := success id JNull.
Definition stateful : hconfig := MkHConfig true false true.
Lemma jhdr_ok sid ver : json_post (jhdr sid ver).
Proof. apply post_headers. by vm_compute. Qed.
Lemma ping_not z : ¬ initializes (ping z).
Proof. by intros (? & ? & ?). Qed.

(** ** C44: HTTP session lifecycle *)
(** In stateful mode a request other than initialize gets past the checks only with the id of a session
    that is live at that moment. *)
Theorem C44_admitted : ∀ cf answer os h m f s', hc_stateful cf = true → ¬ initializes m →
  h_step cf answer (h_run cf answer os) (HPost h (Some m) f) = (s', None) →
  ∃ sid, h_session h = Some sid ∧ live sid (sx_log (h_run cf answer os)).
Proof.
  intros cf answer os h m f s' Hst Hm H. destruct (post_admitted cf answer _ _ _ _ _ H Hm Hst) as (sid & id & r & Hs & Hl & _). exists sid. split; [done|]. by apply (sessions_live cf answer).
Qed.
Print Assumptions C44_admitted.
(** Every request the MCP server processed belonged to a session; unless it was initialize, that
    session had been live before, in every interleaving. *)
Theorem C44_processed_partial : ∀ cf answer os l1 rsid id r l2, hc_stateful cf = true → sx_log (h_run cf answer os) = l1 ++ LProcessed rsid id r :: l2 →
  ∃ sid, rsid = Some sid ∧ (¬ init_request r → ∃ l0, l0 `prefix_of` l1 ∧ live sid l0).
Proof. intros cf answer os l1 rsid id r l2 Hst. exact (proj2 (owners_run cf answer os Hst) l1 rsid id r l2). Qed.
Print Assumptions C44_processed_partial.
(** Without other requests in between it is live when the request is processed. *)
Theorem C44_processed_now : ∀ cf answer os h id r f e1 e2, hc_stateful cf = true → sx_pending (h_run cf answer os) = [] → ¬ init_request r →
  sx_log (h_run cf answer (os ++ post_now h (MsgRequest id r) f e1 e2)) ≠ sx_log (h_run cf answer os) →
  ∃ sid, h_session h = Some sid ∧ live sid (sx_log (h_run cf answer os)) ∧
    sx_log (h_run cf answer (os ++ post_now h (MsgRequest id r) f e1 e2)) = sx_log (h_run cf answer os) ++ [LProcessed (Some sid) id r].
Proof.
  intros cf answer os h id r f e1 e2 Hst Hp Hr. rewrite run_app. unfold post_now. cbn [fold_left]. set (s := h_run cf answer os) in *.
  assert (¬ initializes (MsgRequest id r)) as Hm. { intros (i & p & [= -> ->]). apply Hr. by exists p. }
  destruct (h_step cf answer s (HPost h (Some (MsgRequest id r)) f)) as [s' [x|]] eqn:E.
  - intros Hl. exfalso. apply Hl. cbn [fst]. cbn [h_step] in E. unfold post_start in E. apply is_init_false in Hm. rewrite Hm in E.
    assert (s' = s) as ->. { destruct (validate_headers h Post); [congruence|]. destruct (validate_non_init_session cf (h_session h) s); [|congruence]. destruct (validate_protocol_version cf _ _ s); congruence. }
    cbn [h_step]. by rewrite Hp.
  - intros _. destruct (post_admitted cf answer _ _ _ _ _ E Hm Hst) as (sid & i' & r' & Hs & Hl & [= <- <-] & ->). exists sid. split; [done|]. split; [by apply (sessions_live cf answer)|].
    cbn [fst h_step wait sx_pending]. rewrite Hp. cbn [app lookup list_lookup].
    pose proof (post_run_log cf answer (Some sid) (Some sid) id r e1 e2 (drop_pending 0 (wait (PPost (Some sid) (Some sid) id r) s))) as (H & _).
    destruct (post_run _ _ _ _ _ _ _ _ _) as [s2 x]. exact H.
Qed.
Print Assumptions C44_processed_now.
(** Refuted in general: a request that waits for the MCP server while its session is deleted is
    processed for the deleted session. *)
Theorem C44_race_refuted : ∀ cf answer os h hd id r f e1 e2 sid, hc_stateful cf = true → json_post h → ¬ init_request r → h_session h = Some sid → h_version h = None → h_session hd = Some sid →
  sx_pending (h_run cf answer os) = [] → live sid (sx_log (h_run cf answer os)) →
  sx_log (h_run cf answer (os ++ [HPost h (Some (MsgRequest id r)) f; HDelete hd; HContinue 0 e1 e2])) = sx_log (h_run cf answer os) ++ [LClosed sid; LProcessed (Some sid) id r].
Proof.
  intros cf answer os h hd id r f e1 e2 sid Hst Hh Hr Hs Hv Hd Hp Hl. rewrite run_app. cbn [fold_left]. rewrite (live_post cf answer os h id r f sid) by done. apply (sessions_live cf answer os Hst) in Hl.
  set (s := h_run cf answer os) in *. cbn [fst]. assert (h_step cf answer (wait (PPost (Some sid) (Some sid) id r) s) (HDelete hd) = (note (LClosed sid) (MkHttp (delete sid (sx_sessions s)) (delete sid (sx_streams s)) (sx_opened s) (sx_store s) (sx_pending s ++ [PPost (Some sid) (Some sid) id r]) (sx_log s)), Some (MkResp 200 None None BOk))) as ->.
  { cbn [h_step]. unfold delete_session. rewrite Hd, Hst. cbn [wait sx_sessions]. rewrite bool_decide_eq_true_2 by done. done. }
  cbn [fst h_step note sx_pending]. rewrite Hp. cbn [app lookup list_lookup].
  match goal with |- context [post_run cf answer _ _ _ _ _ _ ?t] => pose proof (post_run_log cf answer (Some sid) (Some sid) id r e1 e2 t) as (H & _) end.
  destruct (post_run _ _ _ _ _ _ _ _ _) as [s2 x]. cbn [fst] in H |- *. rewrite H. cbn. by rewrite <- app_assoc.
Qed.
Print Assumptions C44_race_refuted.
(** initialize without a session id: the answer carries the id the generator gave, and that session is
    live. *)
Theorem C44_issued : ∀ cf answer os h id p f e1 e2, hc_stateful cf = true → json_post h → h_session h = None → sx_pending (h_run cf answer os) = [] →
  (∃ x, (h_step cf answer (h_run cf answer (os ++ [HPost h (Some (MsgRequest id (RClient CInitialize p))) f])) (HContinue 0 e1 e2)).2 = Some x ∧ hr_status x = 200%Z ∧ hr_session x = Some f) ∧
  live f (sx_log (h_run cf answer (os ++ post_now h (MsgRequest id (RClient CInitialize p)) f e1 e2))).
Proof.
  intros cf answer os h id p f e1 e2 Hst Hh Hs Hp.
  assert (sx_log (h_run cf answer (os ++ post_now h (MsgRequest id (RClient CInitialize p)) f e1 e2)) = (sx_log (h_run cf answer os) ++ [LOpened f]) ++ [LProcessed (Some f) id (RClient CInitialize p)]) as ->.
  { rewrite run_app. unfold post_now. cbn [fold_left]. rewrite init_post by done. set (s := h_run cf answer os) in *. cbn [fst h_step wait note set_session sx_pending]. rewrite Hp. cbn [app lookup list_lookup].
    match goal with |- context [post_run cf answer _ _ _ _ _ _ ?t] => pose proof (post_run_log cf answer None (Some f) id (RClient CInitialize p) e1 e2 t) as (H & _) end.
    destruct (post_run _ _ _ _ _ _ _ _ _) as [s2 x]. exact H. }
  split.
  - rewrite run_app. cbn [fold_left]. rewrite init_post by done. set (s := h_run cf answer os) in *. cbn [fst h_step wait note set_session sx_pending]. rewrite Hp. cbn [app lookup list_lookup].
    unfold post_run. cbn [is_init]. destruct (build_response _ _ _ _ _) as [s2 [z b]] eqn:E. eexists. split; [done|]. cbn [hr_status hr_session]. split; [|done].
    unfold build_response in E. destruct (hc_json cf); by injection E as <- <- <-.
  - apply live_snoc. right. split; [done|]. apply live_snoc. by left.
Qed.
Print Assumptions C44_issued.
(** A live session stays live until it is deleted, and its requests are admitted. *)
Theorem C44_until_delete : ∀ cf answer os os' sid, hc_stateful cf = true → live sid (sx_log (h_run cf answer os)) → Forall (λ o, ∀ h, o = HDelete h → h_session h ≠ Some sid) os' →
  live sid (sx_log (h_run cf answer (os ++ os'))) ∧
  ∀ h id r f, json_post h → ¬ init_request r → h_session h = Some sid → h_version h = None → (h_step cf answer (h_run cf answer (os ++ os')) (HPost h (Some (MsgRequest id r)) f)).2 = None.
Proof.
  intros cf answer os os' sid Hst Hl Ho. assert (live sid (sx_log (h_run cf answer (os ++ os')))) as H by by apply stays_live. split; [done|].
  intros h id r f Hh Hr Hs Hv. by rewrite (live_post cf answer _ h id r f sid).
Qed.
Print Assumptions C44_until_delete.
(** DELETE closes the session: from then on – unless the generator hands out the same id again – every
    request with it, other than initialize, gets 404 and changes nothing. *)
Theorem C44_deleted_partial : ∀ cf answer os os' hd sid, hc_stateful cf = true → h_session hd = Some sid → live sid (sx_log (h_run cf answer os)) → sid ∉ os' ≫= generated →
  (h_step cf answer (h_run cf answer os) (HDelete hd)).2 = Some (MkResp 200 None None BOk) ∧
  let s := h_run cf answer (os ++ HDelete hd :: os') in
  ∀ h, h_session h = Some sid →
    (∀ m f, json_post h → ¬ initializes m → h_step cf answer s (HPost h (Some m) f) = (s, Some (refuse 404))) ∧
    (∀ f, sse_get h → h_step cf answer s (HGet h f) = (s, Some (refuse 404))) ∧
    h_step cf answer s (HDelete h) = (s, Some (refuse 404)).
Proof.
  intros cf answer os os' hd sid Hst Hd Hl Hg. destruct (live_delete cf answer os hd sid Hst Hd Hl) as [H1 H2]. split; [done|].
  assert (¬ live sid (sx_log (h_run cf answer (os ++ HDelete hd :: os')))) as Hn.
  { change (HDelete hd :: os') with ([HDelete hd] ++ os'). rewrite app_assoc. apply stays_dead; [done| |done]. rewrite run_snoc, H2, live_snoc. naive_solver. }
  intros s h Hs. repeat split; intros; [by apply (dead_post cf answer _ h m f sid)|by apply (dead_get cf answer _ h f sid)|by apply (dead_delete cf answer _ h sid)].
Qed.
Print Assumptions C44_deleted_partial.
(** Refuted: initialize with the id of a session that is not live (never opened, or deleted) is
    answered 200 (or 202) with that id, yet the session is not live: the next request gets 404. *)
Theorem C44_supplied_refuted : ∀ cf answer os h id p f e1 e2 sid, hc_stateful cf = true → json_post h → h_session h = Some sid → sx_pending (h_run cf answer os) = [] → ¬ live sid (sx_log (h_run cf answer os)) →
  (∃ x, (h_step cf answer (h_run cf answer (os ++ [HPost h (Some (MsgRequest id (RClient CInitialize p))) f])) (HContinue 0 e1 e2)).2 = Some x ∧ (hr_status x = 200%Z ∨ hr_status x = 202%Z) ∧ hr_session x = Some sid) ∧
  ∀ h2 m f2, json_post h2 → ¬ initializes m → h_session h2 = Some sid →
    (h_step cf answer (h_run cf answer (os ++ post_now h (MsgRequest id (RClient CInitialize p)) f e1 e2)) (HPost h2 (Some m) f2)).2 = Some (refuse 404).
Proof.
  intros cf answer os h id p f e1 e2 sid Hst Hh Hs Hp Hl. split.
  - rewrite run_app. cbn [fold_left]. rewrite (supplied_post cf answer os h id p f sid) by done. set (s := h_run cf answer os) in *. cbn [fst h_step wait sx_pending]. rewrite Hp. cbn [app lookup list_lookup].
    unfold post_run. cbn [is_init]. destruct (build_response _ _ _ _ _) as [s2 [z b]] eqn:E. eexists. split; [done|]. cbn [hr_status hr_session]. split; [|done].
    unfold build_response in E. destruct (hc_json cf); [left; by injection E as <- <- <-|]. destruct (sx_streams _ !! sid); [right|left]; by injection E as <- <- <-.
  - intros h2 m f2 Hh2 Hm Hs2. rewrite (dead_post cf answer _ h2 m f2 sid); try done.
    assert (sx_log (h_run cf answer (os ++ post_now h (MsgRequest id (RClient CInitialize p)) f e1 e2)) = sx_log (h_run cf answer os) ++ [LProcessed (Some sid) id (RClient CInitialize p)]) as ->.
    { rewrite run_app. unfold post_now. cbn [fold_left]. rewrite (supplied_post cf answer os h id p f sid) by done. set (s := h_run cf answer os) in *. cbn [fst h_step wait sx_pending]. rewrite Hp. cbn [app lookup list_lookup].
      match goal with |- context [post_run cf answer _ _ _ _ _ _ ?t] => pose proof (post_run_log cf answer (Some sid) (Some sid) id (RClient CInitialize p) e1 e2 t) as (H & _) end.
      destruct (post_run _ _ _ _ _ _ _ _ _) as [s2 x]. exact H. }
    rewrite live_snoc. naive_solver.
Qed.
Print Assumptions C44_supplied_refuted.
Example C44_example :
  let run := h_run stateful pong in
  let os := post_now (jhdr None None) (hello 1) (lit "s1") (lit "e1") (lit "e2") in
  sx_log (run os) = [LOpened (lit "s1"); LProcessed (Some (lit "s1")) (IdNum 1) (RClient CInitialize JNull)] ∧ sx_pending (run os) = [] ∧
  live (lit "s1") (sx_log (run os)) ∧
  option_map hr_status (h_step stateful pong (run (os ++ [HPost (jhdr (Some (lit "s1")) None) (Some (ping 2)) (lit "s2")])) (HContinue 0 (lit "e3") (lit "e4"))).2 = Some 200%Z ∧
  option_map hr_status (h_step stateful pong (run (os ++ [HDelete (jhdr (Some (lit "s1")) None)])) (HPost (jhdr (Some (lit "s1")) None) (Some (ping 2)) (lit "s2"))).2 = Some 404%Z ∧
  json_post (jhdr (Some (lit "s1")) None) ∧ ¬ initializes (ping 2).
Proof.
  repeat split; try (by vm_compute); [|apply jhdr_ok|apply ping_not]. exists [], [LProcessed (Some (lit "s1")) (IdNum 1) (RClient CInitialize JNull)]. split; [by vm_compute|].
  by intros ?%elem_of_list_singleton.
Qed.

(** ** C45: event replay never crosses sessions *)
(** [filled l] is the store after storing [l], a list of (session, event id, message); every history's
    store is one.  The new stream of a GET with Last-Event-ID x starts with exactly the messages stored
    after x – of every session. *)
Theorem C45_replay_partial : ∀ cf answer os i sid x e1 e2 l1 own m l2, hc_store cf = true →
  let s := h_run cf answer os in
  sx_pending s !! i = Some (PGet sid (Some x)) → sx_store s = filled (l1 ++ (own, x, m) :: l2) → NoDup (eids (l1 ++ (own, x, m) :: l2)) →
  ∃ n, (h_step cf answer s (HContinue i e1 e2)).2 = Some (MkResp 200 (Some sid) None (BStream n)) ∧
    sx_opened (h_step cf answer s (HContinue i e1 e2)).1 !! n = Some (MkStream sid l2.*2 [] true).
Proof.
  intros cf answer os i sid x e1 e2 l1 own m l2 Hc s Hp Hf Hn. cbn [h_step]. rewrite Hp. cbn [get_run fst snd]. rewrite Hc. cbn [sx_store drop_pending sx_opened].
  eexists. split; [done|]. rewrite lookup_app_r by done. rewrite Nat.sub_diag. cbn. rewrite Hf, replay_after by done. rewrite <- list_fmap_compose. done.
Qed.
Print Assumptions C45_replay_partial.
Theorem C45_stored : ∀ cf answer os, ∃ l, sx_store (h_run cf answer os) = filled l.
Proof. exact run_filled. Qed.
Print Assumptions C45_stored.
(** Refuted: a message stored after x for another session is replayed too. *)
Theorem C45_cross_refuted : ∀ cf answer os i sid x e1 e2 l1 own m l2 other e m', hc_store cf = true →
  let s := h_run cf answer os in
  sx_pending s !! i = Some (PGet sid (Some x)) → sx_store s = filled (l1 ++ (own, x, m) :: l2) → NoDup (eids (l1 ++ (own, x, m) :: l2)) →
  (other, e, m') ∈ l2 → other ≠ sid →
  ∃ n y, sx_opened (h_step cf answer s (HContinue i e1 e2)).1 !! n = Some y ∧ st_session y = sid ∧ m' ∈ st_queue y.
Proof.
  intros cf answer os i sid x e1 e2 l1 own m l2 other e m' Hc s Hp Hf Hn Hin Ho. destruct (C45_replay_partial cf answer os i sid x e1 e2 l1 own m l2 Hc Hp Hf Hn) as (n & _ & H).
  eexists n, _. split; [exact H|]. split; [done|]. cbn. by apply (elem_of_list_fmap_1 snd) in Hin.
Qed.
Print Assumptions C45_cross_refuted.
(** Refuted: with an id that was never stored – and without any session of one's own – everything ever
    stored for anyone is replayed. *)
Theorem C45_unknown_refuted : ∀ cf answer os h f e1 e2 x l, hc_stateful cf = true → hc_store cf = true → sse_get h → h_session h = None → h_last h = Some x →
  sx_pending (h_run cf answer os) = [] → sx_streams (h_run cf answer os) !! f = None →
  sx_store (h_run cf answer os) = filled l → NoDup (eids l) → x ∉ eids l →
  ∃ n, sx_opened (h_run cf answer (os ++ [HGet h f; HContinue 0 e1 e2])) !! n = Some (MkStream f l.*2 [] true).
Proof.
  intros cf answer os h f e1 e2 x l Hst Hc Hh Hs Hx Hp Hf Hl Hn Hi. rewrite run_app. set (s := h_run cf answer os) in *. cbn [fold_left]. 
  assert (h_step cf answer s (HGet h f) = (wait (PGet f (Some x)) (note (LOpened f) (set_session f (MkSession true None) s)), None)) as ->.
  { cbn [h_step]. unfold get_start. apply get_headers in Hh. rewrite Hh, Hs, Hst. cbn [note set_session sx_streams]. by rewrite Hf, Hx. }
  cbn [fst h_step wait note set_session sx_pending]. rewrite Hp. cbn [app lookup list_lookup get_run fst drop_pending sx_opened sx_store wait note set_session]. rewrite Hc, Hl, replay_unknown by done.
  eexists. rewrite lookup_app_r by done. rewrite Nat.sub_diag. cbn. rewrite <- list_fmap_compose. done.
Qed.
Print Assumptions C45_unknown_refuted.
(** Refuted: the id sent with the event that answers a POST is not the id it is stored under: resuming
    from it replays that very answer. *)
Theorem C45_ids_refuted : ∀ cf answer os i sid id r e1 e2 l, hc_store cf = true → hc_json cf = false →
  let s := h_run cf answer os in
  sx_pending s !! i = Some (PPost (Some sid) (Some sid) id r) → sx_streams s !! sid = None → sx_store s = filled l → NoDup (eids l ++ [e1; e2]) →
  let m := MsgResponse (answer (sx_log s) id r) in
  (∃ x, (h_step cf answer s (HContinue i e1 e2)).2 = Some x ∧ hr_body x = BEvent e2 m) ∧
  (e1, m) ∈ replay_events_after e2 (sx_store (h_step cf answer s (HContinue i e1 e2)).1).
Proof.
  intros cf answer os i sid id r e1 e2 l Hc Hj s Hp Hs Hl Hn m. cbn [h_step]. rewrite Hp. unfold post_run.
  set (s1 := note _ (drop_pending i s)). set (resp := answer _ id r). set (s2 := if is_init _ then _ else _). rewrite Hc. unfold build_response. rewrite Hj.
  assert (sx_streams s2 !! sid = None ∧ sx_store s2 = filled l) as [H1 H2].
  { subst s2. destruct (is_init _); [|done]. cbn [update_session]. by destruct (sx_sessions s1 !! sid). }
  clearbody s2. cbn [keep sx_streams]. rewrite H1. cbn [fst snd sx_store keep]. split; [by eexists|]. rewrite H2.
  change (store_event sid e1 (MsgResponse resp) (filled l)) with (store_event (sid, e1, MsgResponse resp).1.1 (sid, e1, MsgResponse resp).1.2 (sid, e1, MsgResponse resp).2 (filled l)).
  rewrite <- filled_snoc. apply NoDup_app in Hn as (Hn1 & Hn2 & Hn3).
  assert (eids (l ++ [(sid, e1, MsgResponse resp)]) = eids l ++ [e1]) as He by (unfold eids; by rewrite fmap_app).
  rewrite replay_unknown.
  - rewrite fmap_app. apply elem_of_app. right. apply elem_of_list_singleton. done.
  - rewrite He. apply NoDup_app. split; [done|]. split; [|apply NoDup_singleton]. intros y Hy ->%elem_of_list_singleton. apply (Hn2 _ Hy). by left.
  - rewrite He, elem_of_app. intros [H|H%elem_of_list_singleton].
    + apply (Hn2 _ H). right. by left.
    + subst. apply NoDup_cons in Hn3 as [Hn3 _]. apply Hn3. by left.
Qed.
Print Assumptions C45_ids_refuted.
(** Refuted: a message that is replayed is stored once more, so that the next replay repeats it. *)
Theorem C45_duplicates_refuted : ∀ cf answer os i sid x e1 e2 e l1 own m l2 m', hc_store cf = true →
  let s := h_run cf answer os in
  sx_pending s !! i = Some (PGet sid (Some x)) → sx_store s = filled (l1 ++ (own, x, m) :: m' :: l2) → NoDup (eids (l1 ++ (own, x, m) :: m' :: l2)) →
  ∃ n, sx_store (h_run cf answer (os ++ [HContinue i e1 e2; HEmit n e])) = filled ((l1 ++ (own, x, m) :: m' :: l2) ++ [(sid, e, m'.2)]).
Proof.
  intros cf answer os i sid x e1 e2 e l1 own m l2 m' Hc s Hp Hf Hn. destruct (C45_replay_partial cf answer os i sid x e1 e2 l1 own m (m' :: l2) Hc Hp Hf Hn) as (n & Hr & H). exists n.
  rewrite run_app. assert (sx_store (h_step cf answer s (HContinue i e1 e2)).1 = sx_store s) as Hs. { cbn [h_step]. by rewrite Hp. }
  fold s. cbn [fold_left]. fold s in H. set (s' := (h_step cf answer s (HContinue i e1 e2)).1) in *. clearbody s'. cbn [h_step fst]. unfold emit. rewrite H. cbn [fmap list_fmap]. rewrite Hc. cbn [keep sx_store at_stream]. rewrite Hs, Hf.
  by rewrite filled_snoc.
Qed.
Print Assumptions C45_duplicates_refuted.
Example C45_example :
  let os := post_now (jhdr None None) (hello 1) (lit "a") (lit "1") (lit "2") ++ post_now (jhdr None None) (hello 2) (lit "b") (lit "3") (lit "4") ++ [HGet (ghdr (Some (lit "b")) (Some (lit "1"))) (lit "c")] in
  let s := h_run stateful pong os in
  let m z := MsgResponse (success (IdNum z) JNull) in
  es_order (sx_store s) = [lit "1"; lit "3"] ∧ sx_pending s = [PGet (lit "b") (Some (lit "1"))] ∧
  st_queue <$> sx_opened (h_step stateful pong s (HContinue 0 (lit "5") (lit "6"))).1 !! 0 = Some [m 2%Z] ∧
  st_queue <$> sx_opened (h_run stateful pong (os ++ [HContinue 0 (lit "5") (lit "6"); HGet (ghdr None (Some (lit "none"))) (lit "d"); HContinue 0 (lit "7") (lit "8")])) !! 1 = Some [m 1%Z; m 2%Z].
Proof. repeat split; by vm_compute. Qed.

(** ** C46: HTTP negotiation is enforced *)
Theorem C46_post_headers : ∀ cf answer s h body f, ¬ json_post h → ∃ z, h_step cf answer s (HPost h body f) = (s, Some (refuse z)) ∧ (z = 415%Z ∨ z = 406%Z).
Proof.
  intros cf answer s h body f H. cbn [h_step]. unfold post_start. destruct (validate_headers h Post) as [z|] eqn:E; [|by apply post_headers in E]. exists z. split; [done|]. by apply (post_status h).
Qed.
Print Assumptions C46_post_headers.
Theorem C46_get_headers : ∀ cf answer s h f, ¬ sse_get h → h_step cf answer s (HGet h f) = (s, Some (refuse 406)).
Proof.
  intros cf answer s h f H. cbn [h_step]. unfold get_start. destruct (validate_headers h Get) as [z|] eqn:E; [|by apply get_headers in E]. by rewrite (get_status h z E).
Qed.
Print Assumptions C46_get_headers.
(** Everything but initialize: an unsupported version is refused. *)
Theorem C46_unsupported_partial : ∀ cf answer s h m f v, ¬ initializes m → h_version h = Some v → v ∉ supported →
  ∃ z, h_step cf answer s (HPost h (Some m) f) = (s, Some (refuse z)) ∧ (z = 415 ∨ z = 406 ∨ z = 400 ∨ z = 404)%Z.
Proof.
  intros cf answer s h m f v Hm Hv Hn. cbn [h_step]. unfold post_start. apply is_init_false in Hm. rewrite Hm. destruct (validate_headers h Post) as [z|] eqn:E.
  - exists z. split; [done|]. destruct (post_status h z E); auto.
  - unfold validate_non_init_session, validate_protocol_version. rewrite Hv. rewrite decide_False by done.
    destruct (hc_stateful cf); [|by eauto 6]. destruct (h_session h) as [sid|]; [|by eauto 6]. destruct (sx_sessions s !! sid); by eauto 8.
Qed.
Print Assumptions C46_unsupported_partial.
Lemma negotiated_after cf answer os h id p f e1 e2 w d os' : hc_stateful cf = true → json_post h → h_session h = None → sx_pending (h_run cf answer os) = [] →
  rs_payload (answer (sx_log (h_run cf answer os) ++ [LOpened f]) id (RClient CInitialize p)) = PResult d → option_map (λ x, text_of (field "protocolVersion" x)) (decode t_initialize_result d) = Some w →
  Forall (spares f) os' → negotiated_as f w (h_run cf answer (os ++ post_now h (MsgRequest id (RClient CInitialize p)) f e1 e2 ++ os')).
Proof.
  intros Hst Hh Hs Hp Hd Hw Ho.
  rewrite app_assoc. apply negotiated_run; [done| |done]. rewrite run_app. unfold post_now. cbn [fold_left]. rewrite init_post by done. set (s := h_run cf answer os) in *.
    cbn [fst h_step wait note set_session sx_pending]. rewrite Hp. cbn [app lookup list_lookup].
    match goal with |- context [post_run cf answer _ _ _ _ _ _ ?t] => set (s1 := t) end.
    assert (sx_log s1 = sx_log s ++ [LOpened f]) as Hlog by done. assert (is_Some (sx_sessions s1 !! f)) as Hse by (cbn; rewrite lookup_insert; by eexists). assert (sx_pending s1 = []) as Hpe by (subst s1; cbn; by rewrite Hp).
    pose proof (post_run_log cf answer None (Some f) id (RClient CInitialize p) e1 e2 s1) as (_ & _ & _ & Hq).
    assert (sx_sessions (post_run cf answer None (Some f) id (RClient CInitialize p) e1 e2 s1).1 !! f = Some (MkSession true (Some w))) as Hx.
    { clear Hq. unfold post_run. rewrite Hlog. cbn [is_init]. destruct Hse as [y Hse]. unfold update_session. cbn [note sx_sessions]. rewrite Hse. 
      assert (negotiated (answer (sx_log s ++ [LOpened f]) id (RClient CInitialize p)) = Some w) as ->. { unfold negotiated. rewrite Hd. by destruct (decode t_initialize_result d). }
      unfold build_response. destruct (hc_store cf), (hc_json cf); cbn; by rewrite lookup_insert. }
    destruct (post_run _ _ _ _ _ _ _ _ _) as [s2 x]. cbn [fst] in *. split; [done|]. intros hdr i q. rewrite Hq, Hpe. by intros ?%elem_of_nil.
Qed.
(** After an initialize answered with version w, in every later state until the session is deleted, a
    request of that session with another version is refused with 400; with version w, or none, it is
    admitted. *)
Theorem C46_negotiated : ∀ cf answer os h id p f e1 e2 w d os', hc_stateful cf = true → json_post h → h_session h = None → sx_pending (h_run cf answer os) = [] →
  rs_payload (answer (sx_log (h_run cf answer os) ++ [LOpened f]) id (RClient CInitialize p)) = PResult d → option_map (λ x, text_of (field "protocolVersion" x)) (decode t_initialize_result d) = Some w →
  Forall (spares f) os' →
  let s := h_run cf answer (os ++ post_now h (MsgRequest id (RClient CInitialize p)) f e1 e2 ++ os') in
  ∀ h2 id2 r2 g, json_post h2 → h_session h2 = Some f → ¬ init_request r2 →
    (∀ v, h_version h2 = Some v → v ≠ w → h_step cf answer s (HPost h2 (Some (MsgRequest id2 r2)) g) = (s, Some (refuse 400))) ∧
    (h_version h2 = None ∨ (h_version h2 = Some w ∧ w ∈ supported) → (h_step cf answer s (HPost h2 (Some (MsgRequest id2 r2)) g)).2 = None).
Proof.
  intros cf answer os h id p f e1 e2 w d os' Hst Hh Hs Hp Hd Hw Ho s h2 id2 r2 g Hh2 Hs2 Hr2.
  pose proof (negotiated_after cf answer os h id p f e1 e2 w d os' Hst Hh Hs Hp Hd Hw Ho) as [Hn _]. fold s in Hn.
  cbn [h_step]. unfold post_start. apply post_headers in Hh2. rewrite Hh2.
  assert (is_init (MsgRequest id2 r2) = false) as ->. { apply is_init_false. intros (i & q & [= <- ->]). apply Hr2. by exists q. }
  unfold validate_non_init_session, validate_protocol_version. rewrite Hst, Hs2, Hn. split.
  - intros v -> Hv. cbn [mbind option_bind]. rewrite Hn. destruct (decide (v ∈ supported)); [|done]. by rewrite decide_False.
  - cbn [mbind option_bind]. rewrite Hn. intros [->|[-> Hw']]; [done|]. rewrite decide_True by done. by rewrite decide_True.
Qed.
Print Assumptions C46_negotiated.
(** ** C44, continued *)
(** Initializing that session again is refused with 400 and changes nothing. *)
Theorem C44_again : ∀ cf answer os h id p f e1 e2 w d os', hc_stateful cf = true → json_post h → h_session h = None → sx_pending (h_run cf answer os) = [] →
  rs_payload (answer (sx_log (h_run cf answer os) ++ [LOpened f]) id (RClient CInitialize p)) = PResult d → option_map (λ x, text_of (field "protocolVersion" x)) (decode t_initialize_result d) = Some w →
  Forall (spares f) os' →
  let s := h_run cf answer (os ++ post_now h (MsgRequest id (RClient CInitialize p)) f e1 e2 ++ os') in
  ∀ h2 m g, json_post h2 → h_session h2 = Some f → initializes m → h_step cf answer s (HPost h2 (Some m) g) = (s, Some (refuse 400)).
Proof.
  intros cf answer os h id p f e1 e2 w d os' Hst Hh Hs Hp Hd Hw Ho s h2 m g Hh2 Hs2 (id2 & p2 & ->).
  pose proof (negotiated_after cf answer os h id p f e1 e2 w d os' Hst Hh Hs Hp Hd Hw Ho) as [Hn _]. fold s in Hn.
  cbn [h_step]. unfold post_start. apply post_headers in Hh2. rewrite Hh2. cbn [is_init]. unfold process_init_session. by rewrite Hst, Hs2, Hn.
Qed.
Print Assumptions C44_again.

(** ** C46, continued *)
(** Refuted: any content type that merely contains "application/json", e.g. application/jsonp, passes. *)
Theorem C46_substring_refuted : ∀ cf answer s a b h m f, h_content_type h = Some (a ++ lit "application/json" ++ b) → h_accept h = Some (lit "text/event-stream") → h_version h = None → ¬ initializes m →
  (∃ sid, h_session h = Some sid ∧ is_Some (sx_sessions s !! sid)) →
  match (h_step cf answer s (HPost h (Some m) f)).2 with Some x => hr_status x = 202%Z | None => True end.
Proof.
  intros cf answer s a b h m f Hc Ha Hv Hm (sid & Hs & Hl). assert (json_post h) as Hh. { eexists _, _. split; [done|]. split; [by eexists _, _|]. split; [done|]. right. by exists [], []. }
  cbn [h_step]. unfold post_start. apply post_headers in Hh. apply is_init_false in Hm. rewrite Hh, Hm. unfold validate_non_init_session, validate_protocol_version. rewrite Hs, Hv. destruct Hl as [y ->].
  destruct (hc_stateful cf); by destruct m.
Qed.
Print Assumptions C46_substring_refuted.
(** Refuted: the version sent with initialize is not looked at. *)
Theorem C46_initialize_refuted : ∀ cf answer os h id p f, hc_stateful cf = true → json_post h → h_session h = None →
  (h_step cf answer (h_run cf answer os) (HPost h (Some (MsgRequest id (RClient CInitialize p))) f)).2 = None.
Proof. intros cf answer os h id p f Hst Hh Hs. by rewrite init_post. Qed.
Print Assumptions C46_initialize_refuted.
Definition versioned (l : list logged) (id : rid) (r : request) : rpc_response :=
  success id (JObj [(lit "protocolVersion", JStr (lit "2024-11-05")); (lit "capabilities", JObj []); (lit "serverInfo", JObj [(lit "name", JStr []); (lit "version", JStr [])])]).
Example C46_example :
  let os := post_now (jhdr None None) (hello 1) (lit "a") (lit "1") (lit "2") in
  let s := h_run stateful versioned os in
  let st v := option_map hr_status (h_step stateful versioned s (HPost (jhdr (Some (lit "a")) v) (Some (ping 2)) (lit "x"))).2 in
  st None = None ∧ st (Some (lit "2024-11-05")) = None ∧ st (Some (lit "2025-03-26")) = Some 400%Z ∧ st (Some (lit "x")) = Some 400%Z ∧
  option_map hr_status (h_step stateful versioned s (HPost (MkHeaders (Some (lit "text/plain")) None None None None) None [])).2 = Some 415%Z ∧
  option_map hr_status (h_step stateful versioned s (HGet (MkHeaders None None None None None) [])).2 = Some 406%Z ∧
  h_step stateful versioned s (HPost (MkHeaders (Some (lit "text/plain;application/jsonp")) (Some (lit "text/event-stream")) (Some (lit "a")) None None) (Some (ping 2)) (lit "x")) = (wait (PPost (Some (lit "a")) (Some (lit "a")) (IdNum 2) (RClient CPing JNull)) s, None).
Proof. repeat split; try (by vm_compute). Qed.

(** ** C97: requests only after initialize *)
(** A session opened by a POST is opened by an initialize request. *)
Theorem C97_opened_partial : ∀ cf answer s h body f sid, sx_log (h_step cf answer s (HPost h body f)).1 = sx_log s ++ [LOpened sid] → ∃ m, body = Some m ∧ initializes m ∧ sid = f.
Proof.
  intros cf answer s h body f sid. cbn [h_step]. unfold post_start. assert (∀ l : list logged, l ≠ l ++ [LOpened sid]) as W. { intros l H. apply (f_equal length) in H. rewrite app_length in H. cbn in H. lia. }
  destruct (validate_headers h Post); [by intros ?%W|]. destruct body as [m|]; [|by intros ?%W]. intros H. exists m. split; [done|]. destruct (is_init m) eqn:Em.
  - split; [by apply is_init_spec|]. unfold process_init_session in H. apply is_init_spec in Em as (i & p & ->).
    destruct (hc_stateful cf); [|by apply W in H]. destruct (h_session h) as [y|].
    + destruct (sx_sessions s !! y) as [[[] ?]|]; by apply W in H.
    + cbn in H. apply app_inv_head in H. by injection H.
  - exfalso. destruct (validate_non_init_session cf (h_session h) s); [|by apply W in H]. destruct (validate_protocol_version cf _ _ s); [by apply W in H|]. destruct m; by apply W in H.
Qed.
Print Assumptions C97_opened_partial.
(** Refuted: a GET without a session opens one, and every request is processed in it without any
    initialize. *)
Theorem C97_get_refuted : ∀ cf answer os hg h id r f g e1 e2, hc_stateful cf = true → sse_get hg → h_session hg = None → sx_pending (h_run cf answer os) = [] → sx_streams (h_run cf answer os) !! f = None →
  json_post h → h_session h = Some f → h_version h = None → ¬ init_request r →
  sx_log (h_run cf answer (os ++ [HGet hg f; HContinue 0 e1 e2] ++ post_now h (MsgRequest id r) g e1 e2)) = sx_log (h_run cf answer os) ++ [LOpened f; LProcessed (Some f) id r].
Proof.
  intros cf answer os hg h id r f g e1 e2 Hst Hg Hsg Hp Hf Hh Hs Hv Hr.
  assert (h_run cf answer (os ++ [HGet hg f; HContinue 0 e1 e2]) = (h_step cf answer (wait (PGet f (h_last hg)) (note (LOpened f) (set_session f (MkSession true None) (h_run cf answer os)))) (HContinue 0 e1 e2)).1) as H1.
  { rewrite run_app. cbn [fold_left]. cbn [h_step]. unfold get_start. apply get_headers in Hg. rewrite Hg, Hsg, Hst. cbn [note set_session sx_streams fst]. by rewrite Hf. }
  cbn [h_step wait note set_session sx_pending] in H1. rewrite Hp in H1. cbn [app lookup list_lookup fst get_run drop_pending] in H1.
  rewrite app_assoc. assert (sx_log (h_run cf answer (os ++ [HGet hg f; HContinue 0 e1 e2])) = sx_log (h_run cf answer os) ++ [LOpened f]) as H2 by by rewrite H1.
  assert (sx_pending (h_run cf answer (os ++ [HGet hg f; HContinue 0 e1 e2])) = []) as H3 by (rewrite H1; cbn; by rewrite Hp). clear H1. set (os1 := os ++ _) in *.
  assert (live f (sx_log (h_run cf answer os1))) as Hl. { rewrite H2. apply live_snoc. by left. }
  rewrite run_app. unfold post_now. cbn [fold_left]. rewrite (live_post cf answer _ h id r g f) by done. cbn [fst h_step wait sx_pending]. rewrite H3. cbn [app lookup list_lookup].
  match goal with |- context [post_run cf answer _ _ _ _ _ _ ?t] => pose proof (post_run_log cf answer (Some f) (Some f) id r e1 e2 t) as (H & _) end.
  destruct (post_run _ _ _ _ _ _ _ _ _) as [s2 x]. cbn [fst] in H |- *. rewrite H. cbn [drop_pending wait sx_log]. rewrite H2. by rewrite <- app_assoc.
Qed.
Print Assumptions C97_get_refuted.
Example C97_example :
  sx_log (h_run stateful pong ([HGet (ghdr None None) (lit "a"); HContinue 0 (lit "1") (lit "2")] ++ post_now (jhdr (Some (lit "a")) None) (ping 1) (lit "b") (lit "3") (lit "4")))
    = [LOpened (lit "a"); LProcessed (Some (lit "a")) (IdNum 1) (RClient CPing JNull)] ∧
  sx_log (h_run stateful pong (post_now (jhdr None None) (ping 1) (lit "b") (lit "3") (lit "4"))) = [].
Proof. repeat split; by vm_compute. Qed.

(** ** C98: one event stream per session, and a new one after it broke *)
(** While a session has a stream, another GET is refused and changes nothing. *)
Theorem C98_one_partial : ∀ cf answer s h f sid, sse_get h → h_session h = Some sid → is_Some (sx_streams s !! sid) → ∃ z, h_step cf answer s (HGet h f) = (s, Some (refuse z)) ∧ (z = 409%Z ∨ z = 404%Z).
Proof. exact conflict. Qed.
Print Assumptions C98_one_partial.
(** Refuted: two GETs that arrive together both get a stream. *)
Theorem C98_two_refuted : ∀ cf answer os h f g e1 e2 e3 e4 sid, hc_stateful cf = true → sse_get h → h_session h = Some sid → sx_pending (h_run cf answer os) = [] → live sid (sx_log (h_run cf answer os)) → sx_streams (h_run cf answer os) !! sid = None →
  let s := h_run cf answer (os ++ [HGet h f; HGet h g]) in
  ∃ n1 n2, (h_step cf answer s (HContinue 0 e1 e2)).2 = Some (MkResp 200 (Some sid) None (BStream n1)) ∧
    (h_step cf answer (h_step cf answer s (HContinue 0 e1 e2)).1 (HContinue 0 e3 e4)).2 = Some (MkResp 200 (Some sid) None (BStream n2)) ∧ n1 ≠ n2.
Proof.
  intros cf answer os h f g e1 e2 e3 e4 sid Hst Hh Hs Hp Hl Hn. apply (sessions_live cf answer os Hst) in Hl as [y Hl]. apply get_headers in Hh. rewrite run_app. set (s0 := h_run cf answer os) in *.
  cbn [fold_left]. assert (∀ s f, sx_sessions s !! sid = Some y → sx_streams s !! sid = None → h_step cf answer s (HGet h f) = (wait (PGet sid (h_last h)) s, None)) as W.
  { intros s f' H1 H2. cbn [h_step]. unfold get_start. by rewrite Hh, Hs, Hst, H1, H2. }
  rewrite (W s0 f) by done. cbn [fst]. rewrite (W _ g) by done. cbn [fst].
  assert (∀ s last rest a b, sx_pending s = PGet sid last :: rest → ∃ s', h_step cf answer s (HContinue 0 a b) = (s', Some (MkResp 200 (Some sid) None (BStream (length (sx_opened s))))) ∧ sx_pending s' = rest ∧ length (sx_opened s') = S (length (sx_opened s))) as V.
  { intros s last rest a b H. cbn [h_step]. rewrite H. cbn [lookup list_lookup get_run]. eexists. split; [done|]. cbn. rewrite H. split; [done|]. rewrite app_length. cbn. lia. }
  edestruct (V (wait (PGet sid (h_last h)) (wait (PGet sid (h_last h)) s0))) as (s1 & E1 & Hp1 & Hn1); [cbn; rewrite Hp; done|]. rewrite E1. cbn [fst snd].
  edestruct (V s1) as (s2 & E2 & _); [done|]. rewrite E2. eexists _, _. split; [done|]. split; [done|]. lia.
Qed.
Print Assumptions C98_two_refuted.
(** Refuted: when its stream broke, the session never gets another one: every later GET is refused,
    in every history until the session is deleted. *)
Theorem C98_reconnect_refuted : ∀ cf answer os n os' h f sid, is_Some (sx_streams (h_run cf answer os) !! sid) → Forall (λ o, ∀ h, o = HDelete h → h_session h ≠ Some sid) os' →
  sse_get h → h_session h = Some sid →
  ∃ z, (h_step cf answer (h_run cf answer (os ++ HDisconnect n :: os')) (HGet h f)).2 = Some (refuse z) ∧ (z = 409%Z ∨ z = 404%Z).
Proof.
  intros cf answer os n os' h f sid Hs Ho Hh Hx. destruct (conflict cf answer (h_run cf answer (os ++ HDisconnect n :: os')) h f sid Hh Hx) as (z & -> & Hz); [|by exists z].
  apply stream_run; [done|]. constructor; [done|done].
Qed.
Print Assumptions C98_reconnect_refuted.
Example C98_example :
  let os := post_now (jhdr None None) (hello 1) (lit "a") (lit "1") (lit "2") ++ [HGet (ghdr (Some (lit "a")) None) []; HContinue 0 [] []] in
  let st os := option_map hr_status (h_step stateful pong (h_run stateful pong os) (HGet (ghdr (Some (lit "a")) None) [])).2 in
  sx_streams (h_run stateful pong os) !! lit "a" = Some 0%nat ∧ st os = Some 409%Z ∧ st (os ++ [HDisconnect 0]) = Some 409%Z ∧ st (os ++ [HDelete (jhdr (Some (lit "a")) None)]) = Some 404%Z.
Proof. repeat split; by vm_compute. Qed.

(** ** C99: the answer to a request reaches its sender *)
(** The answer is in the POST's response, or waits in the session's stream if that is still read. *)
Theorem C99_answered_partial : ∀ cf answer s i hdr rsid id r e1 e2, sx_pending s !! i = Some (PPost hdr rsid id r) →
  let m := MsgResponse (answer (sx_log s) id r) in
  ∃ s' x, h_step cf answer s (HContinue i e1 e2) = (s', Some x) ∧
    (hr_body x = BJson m ∨ hr_body x = BEvent e2 m ∨
     hr_status x = 202%Z ∧ ∃ sid n, hdr = Some sid ∧ sx_streams s !! sid = Some n ∧ ∀ y, sx_opened s !! n = Some y → st_open y = true → ∃ y', sx_opened s' !! n = Some y' ∧ st_queue y' = st_queue y ++ [m]).
Proof.
  intros cf answer s i hdr rsid id r e1 e2 Hp m. cbn [h_step]. rewrite Hp. unfold post_run. cbn [drop_pending sx_log].
  set (resp := answer (sx_log s) id r). set (s2 := if is_init _ then _ else _). set (s3 := match rsid with Some _ => _ | None => _ end).
  assert (sx_streams s3 = sx_streams s ∧ sx_opened s3 = sx_opened s) as [H1 H2].
  { assert (sx_streams s2 = sx_streams s ∧ sx_opened s2 = sx_opened s) as [<- <-].
    { subst s2. destruct (is_init _); [|done]. unfold update_session. destruct rsid; [|done]. by destruct (sx_sessions _ !! _). }
    subst s3. destruct rsid; [|done]. by destruct (hc_store cf). }
  clearbody s3. unfold build_response. destruct (hc_json cf); [eexists _, _; split; [done|]; by left|]. destruct hdr as [sid|]; [|eexists _, _; split; [done|]; by left].
  destruct (sx_streams s3 !! sid) as [n|] eqn:E; [|eexists _, _; split; [done|]; right; by left]. eexists _, _. split; [done|]. right. right. split; [done|]. exists sid, n. split; [done|]. rewrite <- H1. split; [done|].
  intros y Hy Ho. rewrite <- H2 in Hy. cbn. rewrite list_lookup_alter, Hy. cbn. eexists. split; [done|]. unfold queue. by rewrite Ho.
Qed.
Print Assumptions C99_answered_partial.
(** Refuted: if the client of the stream has gone away, the answer is nowhere: the POST is accepted
    with 202, without a body, and no stream changes. *)
Theorem C99_lost_refuted : ∀ cf answer s i sid rsid id r e1 e2 n y, hc_json cf = false → sx_pending s !! i = Some (PPost (Some sid) rsid id r) → sx_streams s !! sid = Some n → sx_opened s !! n = Some y → st_open y = false →
  ∃ s' x, h_step cf answer s (HContinue i e1 e2) = (s', Some x) ∧ hr_status x = 202%Z ∧ hr_body x = BNone ∧ sx_opened s' = sx_opened s.
Proof.
  intros cf answer s i sid rsid id r e1 e2 n y Hj Hp Hs Hy Ho. cbn [h_step]. rewrite Hp. unfold post_run. cbn [drop_pending sx_log].
  set (resp := answer (sx_log s) id r). set (s2 := if is_init _ then _ else _). set (s3 := match rsid with Some _ => _ | None => _ end).
  assert (sx_streams s3 = sx_streams s ∧ sx_opened s3 = sx_opened s) as [H1 H2].
  { assert (sx_streams s2 = sx_streams s ∧ sx_opened s2 = sx_opened s) as [<- <-].
    { subst s2. destruct (is_init _); [|done]. unfold update_session. destruct rsid; [|done]. by destruct (sx_sessions _ !! _). }
    subst s3. destruct rsid; [|done]. by destruct (hc_store cf). }
  clearbody s3. unfold build_response. rewrite Hj, H1, Hs. eexists _, _. split; [done|]. split; [done|]. split; [done|]. cbn. rewrite H2. apply list_eq. intros k.
  destruct (decide (n = k)) as [->|Hn]; [|by rewrite list_lookup_alter_ne]. rewrite list_lookup_alter, Hy. cbn. unfold queue. by rewrite Ho.
Qed.
Print Assumptions C99_lost_refuted.
Example C99_example :
  let os := post_now (jhdr None None) (hello 1) (lit "a") (lit "1") (lit "2") ++ [HGet (ghdr (Some (lit "a")) None) []; HContinue 0 [] []] in
  let s os := h_run stateful pong (os ++ post_now (jhdr (Some (lit "a")) None) (ping 7) (lit "x") (lit "3") (lit "4")) in
  st_queue <$> sx_opened (s os) !! 0%nat = Some [MsgResponse (success (IdNum 7) JNull)] ∧
  st_queue <$> sx_opened (s (os ++ [HDisconnect 0])) !! 0%nat = Some [].
Proof. repeat split; by vm_compute. Qed.

(** ** C100: event streams carry the session's own answers only *)
(** Without replays: whatever was written to, or waits in, a session's stream is the answer to a
    request processed for that session. *)
Theorem C100_isolation_partial : ∀ cf answer os n x m, hc_stateful cf = true → no_replay os → sx_opened (h_run cf answer os) !! n = Some x → m ∈ contents x →
  answer_in answer (sx_log (h_run cf answer os)) (st_session x) m.
Proof.
  intros cf answer os n x m Hst Hn Hx Hm. destruct (streams_run cf answer os Hst Hn) as (_ & _ & _ & H). specialize (H n x Hx). rewrite Forall_forall in H. by apply H.
Qed.
Print Assumptions C100_isolation_partial.
(** False with replays: an answer to someone else that was stored after the given event is put on the stream. *)
Theorem C100_replay_refuted : ∀ cf answer os i sid x e1 e2 l1 own m l2 other e m', hc_store cf = true →
  let s := h_run cf answer os in
  sx_pending s !! i = Some (PGet sid (Some x)) → sx_store s = filled (l1 ++ (own, x, m) :: l2) → NoDup (eids (l1 ++ (own, x, m) :: l2)) →
  (other, e, m') ∈ l2 → ¬ answer_in answer (sx_log s) sid m' →
  let s' := h_run cf answer (os ++ [HContinue i e1 e2]) in
  ∃ n y, sx_opened s' !! n = Some y ∧ st_session y = sid ∧ m' ∈ contents y ∧ ¬ answer_in answer (sx_log s') sid m'.
Proof.
  intros cf answer os i sid x e1 e2 l1 own m l2 other e m' Hc s Hp Hf Hn Hin Ho s'. assert (s' = (h_step cf answer s (HContinue i e1 e2)).1) as E by (unfold s'; by rewrite run_app).
  destruct (C45_replay_partial cf answer os i sid x e1 e2 l1 own m l2 Hc Hp Hf Hn) as (n & _ & H). fold s in H. rewrite <-E in H.
  eexists n, _. split; [exact H|]. split; [done|]. split; [unfold contents; cbn; by apply (elem_of_list_fmap_1 snd) in Hin|].
  rewrite E. cbn [h_step]. rewrite Hp. cbn [get_run fst sx_log drop_pending]. exact Ho.
Qed.
Print Assumptions C100_replay_refuted.
Example C100_example :
  let os := post_now (jhdr None None) (hello 1) (lit "a") (lit "1") (lit "2") ++ [HGet (ghdr (Some (lit "a")) None) []; HContinue 0 [] []] ++ post_now (jhdr (Some (lit "a")) None) (ping 7) (lit "x") (lit "3") (lit "4") ++ [HEmit 0 (lit "5")] in
  no_replay os ∧ contents <$> sx_opened (h_run stateful pong os) !! 0%nat = Some [MsgResponse (success (IdNum 7) JNull)].
Proof. split; [repeat constructor|by vm_compute]. Qed.

(** ** C101: the body of a POST is a JSON-RPC message *)
(** Responses, the clients' notifications, and requests in the library's own wrapping are understood
    as what they are. *)
Theorem C101_responses_partial : ∀ x, good_response x → message_of_doc (message_json (MsgResponse x)) = Some (MsgResponse x).
Proof. exact own_response. Qed.
Print Assumptions C101_responses_partial.
Theorem C101_notifications_partial : ∀ c p, good_notification (NClient c p) → message_of_doc (message_json (MsgNotification (NClient c p))) = Some (MsgNotification (NClient c p)).
Proof. exact standard_notification. Qed.
Print Assumptions C101_notifications_partial.
Theorem C101_wrapped_partial : ∀ id c p, good_message (MsgRequest id (RClient c p)) → message_of_doc (message_doc (MsgRequest id (RClient c p))) = Some (MsgRequest id (RClient c p)).
Proof. intros id c p [H1 H2]. by apply own_request. Qed.
Print Assumptions C101_wrapped_partial.
(** Refuted: no JSON-RPC request is understood – whatever its id and parameters, the body does not
    parse, and the POST is refused with 400. *)
Theorem C101_request_refuted : ∀ cf answer s h id r f, json_post h → message_of_doc (message_json (MsgRequest id r)) = None ∧
  h_step cf answer s (HPost h (message_of_doc (message_json (MsgRequest id r))) f) = (s, Some (refuse 400)).
Proof.
  intros cf answer s h id r f Hh. rewrite standard_request. split; [done|]. cbn [h_step]. unfold post_start. apply post_headers in Hh. by rewrite Hh.
Qed.
Print Assumptions C101_request_refuted.
Example C101_example :
  message_of_doc (JObj [(lit "jsonrpc", JStr (lit "2.0")); (lit "id", JInt 1); (lit "method", JStr (lit "ping"))]) = None ∧
  message_of_doc (JObj [(lit "id", JInt 1); (lit "request", JObj [(lit "method", JStr (lit "ping"))])]) = Some (ping 1) ∧
  message_of_doc (JObj [(lit "jsonrpc", JStr (lit "2.0")); (lit "id", JInt 1); (lit "result", JNull)]) = Some (MsgResponse (success (IdNum 1) JNull)) ∧
  good_message (ping 1) ∧ good_notification (NClient CInitialized JNull).
Proof. repeat split; by vm_compute. Qed.

(** ** C192: an event stream carries what is put on it, in order and once *)
(** A GET that is accepted opens a new stream, on which nothing has been written and which its client
    reads. *)
Theorem C192_opens : ∀ cf answer s i sid last e1 e2, sx_pending s !! i = Some (PGet sid last) →
  ∃ n x, (h_step cf answer s (HContinue i e1 e2)).2 = Some (MkResp 200 (Some sid) None (BStream n)) ∧ sx_opened s !! n = None ∧
  sx_opened (h_step cf answer s (HContinue i e1 e2)).1 !! n = Some x ∧ st_session x = sid ∧ st_open x = true ∧ st_events x = [] ∧ (last = None → st_queue x = []) ∧
  sx_streams (h_step cf answer s (HContinue i e1 e2)).1 !! sid = Some n.
Proof.
  intros cf answer s i sid last e1 e2 Hp. cbn [h_step]. rewrite Hp. unfold get_run. cbn [fst snd drop_pending sx_opened sx_streams].
  eexists (length (sx_opened s)), _. split; [done|]. split; [by apply lookup_ge_None|]. split; [by apply list_lookup_middle|]. split; [done|]. split; [done|]. split; [done|]. split; [by intros ->|]. apply lookup_insert.
Qed.
Print Assumptions C192_opens.
(** As long as its client reads, what was written on a stream and what still waits are, in this order,
    what was there before and the answers put on it since; what was written stays as it was. *)
Theorem C192_order : ∀ cf answer s os n x, sx_opened s !! n = Some x → st_open x = true → HDisconnect n ∉ os →
  ∃ x', sx_opened (fold_left (λ s o, (h_step cf answer s o).1) os s) !! n = Some x' ∧ st_open x' = true ∧ st_session x' = st_session x ∧
    contents x' = contents x ++ omap (routed cf answer n) (h_trace cf answer s os) ∧ ∃ l, st_events x' = st_events x ++ l.
Proof. intros cf answer s os n x. apply stream_carries. Qed.
Print Assumptions C192_order.
(** The stream's task writes all that waits, in order, each message once. *)
Theorem C192_written : ∀ cf answer s es n x, sx_opened s !! n = Some x → st_open x = true → length es = length (st_queue x) →
  ∃ x', sx_opened (fold_left (λ s o, (h_step cf answer s o).1) (HEmit n <$> es) s) !! n = Some x' ∧ st_queue x' = [] ∧ st_events x' = st_events x ++ zip es (st_queue x).
Proof. intros cf answer s es n x. apply stream_written. Qed.
Print Assumptions C192_written.
(** Once its client has gone, nothing more is written. *)
Theorem C192_gone : ∀ cf answer s os n x, sx_opened s !! n = Some x →
  ∃ x', sx_opened (fold_left (λ s o, (h_step cf answer s o).1) (HDisconnect n :: os) s) !! n = Some x' ∧ st_open x' = false ∧ st_events x' = st_events x.
Proof.
  intros cf answer s os n x Hx. cbn [fold_left]. edestruct (stream_gone cf answer os (h_step cf answer s (HDisconnect n)).1 n) as (x' & H1 & H2 & H3).
  - cbn. by rewrite list_lookup_alter, Hx.
  - done.
  - exists x'. done.
Qed.
Print Assumptions C192_gone.
Example C192_example :
  let os := post_now (jhdr None None) (hello 1) (lit "a") (lit "1") (lit "2") ++ [HGet (ghdr (Some (lit "a")) None) []] in
  let p k := post_now (jhdr (Some (lit "a")) None) (ping k) (lit "x") (lit "3") (lit "4") in
  sx_pending (h_run stateful pong os) = [PGet (lit "a") None] ∧
  (st_events <$> sx_opened (h_run stateful pong (os ++ [HContinue 0 [] []] ++ p 7%Z ++ p 8%Z ++ [HEmit 0 (lit "5"); HEmit 0 (lit "6")])) !! 0%nat) =
    Some [(lit "5", MsgResponse (success (IdNum 7) JNull)); (lit "6", MsgResponse (success (IdNum 8) JNull))].
Proof. split; by vm_compute. Qed.
