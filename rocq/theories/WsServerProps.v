(** C226: a server on a WebSocket connection. *)
From stdpp Require Import gmap strings list.
From Verif Require Import TextLib JsonLib SerdeLib TypesModel RpcModel RpcSpec ManagersModel ServerModel ServerSpec WsModel WsSpec WsServerModel WsServerSpec WsServerProofs.
From Verif Require ServerProofs StackProps RpcProofs StdioServerProofs.

(** ** C226 *)
(** At every moment of every history, the text frames the peer has been sent are, in order, the first of the answers
    the server gives to the messages in the peer's frames, one after the other; and its handlers have been called
    as for the first of these messages. *)
Theorem C226_answers : ∀ cf behave key os, let x := w_run cf behave key os in let ms := said (frames_read cf behave key wserver_new os) in
  texts_written x `prefix_of` ((λ r, serialize_message (MsgResponse r)) <$> sv_sent (after_all cf behave key ms)) ∧
  ∃ ms', ms' `prefix_of` ms ∧ sv_calls (wv_server x) = sv_calls (after_all cf behave key ms').
Proof. exact w_answers. Qed.
Print Assumptions C226_answers.
(** When there is nothing left to be done, as long as the socket takes what is written and no handler panics, every
    request has been answered, with its id, in order, and its handler called. *)
Theorem C226_all : ∀ cf behave key os, let x := w_run cf behave key os in let ms := said (frames_read cf behave key wserver_new os) in
  settled cf behave key x → writable x → sv_listening (after_all cf behave key ms) = true →
  texts_written x = (λ r, serialize_message (MsgResponse r)) <$> sv_sent (after_all cf behave key ms) ∧
  sv_calls (wv_server x) = sv_calls (after_all cf behave key ms) ∧
  rs_id <$> sv_sent (after_all cf behave key ms) = omap (λ m, match m with MsgRequest id _ => Some id | _ => None end) ms.
Proof.
  intros cf behave key os x ms Hs Hw Hl. destruct (settled_all cf behave key os Hs Hw Hl) as [H1 H2]. split; [done|]. split; [done|].
  destruct (ServerProofs.answered_prefix cf behave key ((λ m, EMessage m true) <$> ms)) as [_ H]. fold (after_all cf behave key ms) in H. rewrite H by done.
  clear. induction ms as [|m ms IH]; [done|]. rewrite fmap_cons. unfold ServerSpec.request_ids in *. cbn [omap list_omap]. rewrite IH. by destruct m.
Qed.
Print Assumptions C226_all.
(** And it comes to that: whatever has happened, after finitely many rounds of the tasks nothing is left to be done,
    without the peer's help. *)
Theorem C226_settles : ∀ cf behave key os, writable (w_run cf behave key os) →
  ∃ os', Forall (λ o, (∃ p, o = WWrite p true) ∨ o = WAgain ∨ o = WLoop) os' ∧
  settled cf behave key (w_run cf behave key (os ++ os')) ∧ writable (w_run cf behave key (os ++ os')) ∧
  frames_read cf behave key wserver_new (os ++ os') = frames_read cf behave key wserver_new os.
Proof. exact comes_to_rest. Qed.
Print Assumptions C226_settles.
(** And then the next frame is read, unless the peer has ended the connection: no frame is skipped, and none that is
    not a message stops the server. *)
Theorem C226_reads : ∀ cf behave key os f, let x := w_run cf behave key os in let fs := frames_read cf behave key wserver_new os in
  settled cf behave key x → writable x → sv_listening (after_all cf behave key (said fs)) = true →
  (∀ g, g ∈ fs → g ≠ FClose ∧ g ≠ FError ∧ g ≠ FEnd) →
  frames_read cf behave key wserver_new (os ++ [WRead f]) = fs ++ [f].
Proof. exact reads_on. Qed.
Print Assumptions C226_reads.
(** False: one handler's panic ends the message task for good: nothing the peer sends afterwards reaches a handler or is
    answered, although the connection stays open. *)
Theorem C226_panic_refuted : ∀ cf behave key os os', sv_listening (wv_server (w_run cf behave key os)) = false →
  sv_calls (wv_server (w_run cf behave key (os ++ os'))) = sv_calls (wv_server (w_run cf behave key os)) ∧
  texts_written (w_run cf behave key (os ++ os')) `prefix_of` ((λ r, serialize_message (MsgResponse r)) <$> sv_sent (wv_server (w_run cf behave key os))).
Proof.
  intros cf behave key os os' Hl. assert (wv_server (w_run cf behave key (os ++ os')) = wv_server (w_run cf behave key os)) as E.
  { induction os' as [|o os' IH] using rev_ind; [by rewrite app_nil_r|]. rewrite app_assoc. unfold w_run in *. rewrite fold_left_app. cbn [fold_left]. rewrite <-IH. destruct o; try done. cbn [w_step]. unfold w_loop. by rewrite IH, Hl. }
  split; [by rewrite E|]. rewrite <-E. destruct (wok_run cf behave key (os ++ os')) as (ops & c & Et & Hcur & Hc & _ & HS & _). unfold texts_written. rewrite Hc. rewrite Et in Hcur, Hc.
  destruct (conn_facts ops c Hcur Hc) as (_ & _ & _ & _ & H & _). etransitivity; [exact H|]. by rewrite HS, <-list_fmap_compose.
Qed.
Print Assumptions C226_panic_refuted.
(** False: a request with a method the server does not know, or without its parameters, is as if it had not been sent: it
    gets no answer, not even an error. *)
Theorem C226_unanswered_refuted : ∀ cf behave key os1 q os2,
  rid_ok (rq_id q) → rq_params q ≠ Some JNull → storable (request_json q) →
  rq_method q ∉ (creq_tag <$> creqs) ++ (sreq_tag <$> sreqs) ∨ (∃ c ty, rq_method q = creq_tag c ∧ creq_body c = BTy ty ∧ q = new_request (rq_id q) (creq_tag c) None) →
  w_run cf behave key (os1 ++ WRead (FText (to_bytes (request_json q))) :: os2) = w_run cf behave key (os1 ++ os2).
Proof.
  intros cf behave key os1 q os2 H1 H2 H3 H4. assert (parse_message (to_bytes (request_json q)) = None) as Hn.
  { apply StdioServerProofs.unread_request; [done..|]. destruct H4 as [H4|(c & ty & _ & Hc & ->)]; [by apply StdioServerProofs.unknown_method|by apply RpcProofs.params_omitted with ty]. }
  unfold w_run. rewrite !fold_left_app. cbn [fold_left]. f_equal. cbn [w_step]. unfold on_tp. cbn [s_step fst]. set (x := fold_left _ os1 _).
  assert (on_conn 0 (read_frame (FText (to_bytes (request_json q)))) (wv_tp x) = wv_tp x) as ->; [|by destruct x].
  unfold on_conn. rewrite list_alter_id; [by destruct (wv_tp x)|]. intros c. unfold read_frame. rewrite Hn. by destruct (sc_reader c).
Qed.
Print Assumptions C226_unanswered_refuted.

(** A client calls a tool, pings, sends a frame that is no message, a notification and two more calls while the message
    task is slow; once everything has been written three answers have gone out, and a pong. *)
Definition w_call (id : Z) (name : string) : frame := FText (serialize_message (MsgRequest (IdNum id) (RClient CCallTool (call_params (lit name) (JInt 1))))).
Definition w_demo : list wop :=
  [WRead (w_call 1 "add"); WLoop; WRead (FPing [7%N]); WRead (FText (lit "hello")); WRead (w_call 2 "add"); WLoop; WRead FBinary; WRead (w_call 3 "sub");
   WWrite false true; WLoop; WLoop; WWrite true true; WLoop; WLoop; WWrite false true; WWrite false true; WLoop].
Example C226_example :
  let x := w_run StackProps.demo_config StackProps.demo_tool (λ _, EmptyString) w_demo in
  let fs := frames_read StackProps.demo_config StackProps.demo_tool (λ _, EmptyString) wserver_new w_demo in
  let s := after_all StackProps.demo_config StackProps.demo_tool (λ _, EmptyString) (said fs) in
  length fs = 6 ∧ length (said fs) = 3 ∧ settled StackProps.demo_config StackProps.demo_tool (λ _, EmptyString) x ∧ writable x ∧ sv_listening s = true ∧
  length (texts_written x) = 3 ∧ rs_id <$> sv_sent s = [IdNum 1; IdNum 2; IdNum 3] ∧ length (sv_calls (wv_server x)) = 2 ∧
  match st_conns (wv_tp x) !! 0 with Some c => pongs (sc_wire c) = [[7%N]] | None => False end ∧
  Forall (λ g, match g with FClose | FError | FEnd => False | _ => True end) fs.
Proof.
  cbv zeta. split; [by vm_compute|]. split; [by vm_compute|]. split.
  { intros o [[[] ->]|[->| ->]]; vm_compute; reflexivity. }
  split. { eexists. split; [vm_compute; reflexivity|]. reflexivity. }
  split; [by vm_compute|]. split; [by vm_compute|]. split; [by vm_compute|]. split; [by vm_compute|]. split; [by vm_compute|]. vm_compute. by repeat constructor.
Qed.
(** A tool panics on its second call: the third call is read, but neither handled nor answered. *)
Definition w_fragile (is : list invocation) : hresult := if decide (length is = 2)%nat then HPanic else HOk (JInt 1).
Example C226_panic_example :
  let os := [WRead (w_call 1 "add"); WLoop; WLoop; WRead (w_call 2 "add"); WLoop] in
  let os' := [WRead (w_call 3 "add"); WLoop; WLoop; WWrite false true; WWrite false true] in
  let run := w_run StackProps.demo_config w_fragile (λ _, EmptyString) in
  sv_listening (wv_server (run os)) = false ∧ length (sv_calls (wv_server (run os))) = 2 ∧ length (sv_calls (wv_server (run (os ++ os')))) = 2 ∧
  length (texts_written (run (os ++ os'))) = 1 ∧ st_cur (wv_tp (run (os ++ os'))) = Some 0.
Proof. cbv zeta. split; [by vm_compute|]. split; [by vm_compute|]. split; [by vm_compute|]. split; by vm_compute. Qed.
