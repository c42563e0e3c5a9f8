(** C227: a server on its standard streams, whatever program is at the other end. *)
From stdpp Require Import gmap strings list.
From Verif Require Import TextLib JsonLib SerdeLib TypesModel RpcModel RpcSpec RpcProofs ManagersModel ServerModel ServerSpec StdioModel StdioServerModel StdioServerSpec StdioServerProofs.
From Verif Require ServerProofs StackProps HttpClientProofs.

(** ** C227 *)
(** Whatever bytes arrive: what is written are the frames of the answers to the messages at the beginning of the input, up
    to the first thing that is not a message, and nothing else; the handlers are called for these only. *)
Theorem C227_any : ∀ cf behave key inp, ∃ ms t, begins_with inp ms t ∧
  written cf behave key inp = frames_of (sv_sent (after_all cf behave key ms)) ∧ called cf behave key inp = sv_calls (after_all cf behave key ms).
Proof.
  intros cf behave key inp. destruct (serve_any cf behave key (S (length inp)) server_new inp []) as (ms & i' & H1 & H2 & H3 & H4 & H5); [lia|].
  exists ms, {| sd_in := i'; sd_out := []; sd_closed := false |}. split; [split; [apply H1|destruct H2 as [H2|H2]; [by left|right; apply H2]]|]. unfold written, called, run_stdio, open_on. rewrite H4, H5, !after_goes. done.
Qed.
Print Assumptions C227_any.
(** A program that writes messages only gets them all answered: as long as no handler panics, one answer to each request,
    with its id, in order. *)
Theorem C227_messages : ∀ cf behave key ps ms, Forall (λ p, N.of_nat (length p) <= isize_max)%N ps → parse_message <$> ps = Some <$> ms →
  written cf behave key (concat (frame <$> ps)) = frames_of (sv_sent (after_all cf behave key ms)) ∧
  called cf behave key (concat (frame <$> ps)) = sv_calls (after_all cf behave key ms) ∧
  (never_panics behave → rs_id <$> sv_sent (after_all cf behave key ms) = omap (λ m, match m with MsgRequest id _ => Some id | _ => None end) ms).
Proof.
  intros cf behave key ps ms Hp Hm. unfold written, called. rewrite (run_frames cf behave key ps ms) by done. split; [done|]. split; [done|]. intros Hb.
  destruct (ServerProofs.answered cf behave key ((λ m, EMessage m true) <$> ms) Hb) as [_ H]. { apply Forall_fmap, Forall_true. by intros m. }
  fold (after_all cf behave key ms) in H. rewrite H. clear. induction ms as [|m ms IH]; [done|]. rewrite fmap_cons. unfold ServerSpec.request_ids in *. cbn [omap list_omap]. rewrite IH. by destruct m.
Qed.
Print Assumptions C227_messages.
(** False: a frame the server cannot read is its last one.  Whatever comes after it is neither handled nor answered. *)
Theorem C227_bad_refuted : ∀ cf behave key ps ms p rest, Forall (λ p, N.of_nat (length p) <= isize_max)%N (p :: ps) → parse_message <$> ps = Some <$> ms → parse_message p = None →
  written cf behave key (concat (frame <$> ps) ++ frame p ++ rest) = written cf behave key (concat (frame <$> ps)) ∧
  called cf behave key (concat (frame <$> ps) ++ frame p ++ rest) = called cf behave key (concat (frame <$> ps)).
Proof.
  intros cf behave key ps ms p rest Hp Hm Hbad. apply Forall_cons in Hp as [Hp1 Hp]. destruct (bad_answers cf behave key ps ms p rest Hp Hm Hp1 Hbad) as [-> ->].
  unfold written, called. by rewrite (run_frames cf behave key ps ms).
Qed.
Print Assumptions C227_bad_refuted.
(** A request with a method the server does not know is such a frame: it gets no error, and no later request an answer. *)
Theorem C227_unknown_refuted : ∀ cf behave key ps ms q rest, Forall (λ p, N.of_nat (length p) <= isize_max)%N (to_bytes (request_json q) :: ps) → parse_message <$> ps = Some <$> ms →
  rid_ok (rq_id q) → rq_params q ≠ Some JNull → storable (request_json q) → rq_method q ∉ known_methods →
  written cf behave key (concat (frame <$> ps) ++ frame (to_bytes (request_json q)) ++ rest) = written cf behave key (concat (frame <$> ps)) ∧
  called cf behave key (concat (frame <$> ps) ++ frame (to_bytes (request_json q)) ++ rest) = called cf behave key (concat (frame <$> ps)).
Proof. intros cf behave key ps ms q rest Hp Hm H1 H2 H3 H4. apply C227_bad_refuted with ms; [done..|]. apply unread_request; [done..|]. by apply unknown_method. Qed.
Print Assumptions C227_unknown_refuted.
(** So is a request that leaves out its parameters, even where they are all optional. *)
Theorem C227_omitted_refuted : ∀ cf behave key ps ms id c ty rest, creq_body c = BTy ty →
  Forall (λ p, N.of_nat (length p) <= isize_max)%N (to_bytes (request_json (new_request id (creq_tag c) None)) :: ps) → parse_message <$> ps = Some <$> ms →
  rid_ok id → storable (request_json (new_request id (creq_tag c) None)) →
  written cf behave key (concat (frame <$> ps) ++ frame (to_bytes (request_json (new_request id (creq_tag c) None))) ++ rest) = written cf behave key (concat (frame <$> ps)) ∧
  called cf behave key (concat (frame <$> ps) ++ frame (to_bytes (request_json (new_request id (creq_tag c) None))) ++ rest) = called cf behave key (concat (frame <$> ps)).
Proof. intros cf behave key ps ms id c ty rest Hc Hp Hm H1 H2. apply C227_bad_refuted with ms; [done..|]. apply unread_request; [done..|]. by apply params_omitted with ty. Qed.
Print Assumptions C227_omitted_refuted.

(** Two calls of a tool and a notification are answered with two frames; with a request to list the tools that leaves out its
    parameters in front, nothing is answered at all. *)
Definition d_call (id : Z) : list N := serialize_message (MsgRequest (IdNum id) (RClient CCallTool (call_params (lit "add") (JInt 1)))).
Definition d_list : rpc_request := new_request (IdNum 1) (creq_tag CListTools) None.
Definition d_odd : rpc_request := new_request (IdNum 1) (lit "tools/get") (Some (JObj [])).
Definition d_ps : list (list N) := [d_call 2; serialize_message (MsgNotification (NClient CInitialized JNull)); d_call 3].
Example C227_example :
  let w := written StackProps.demo_config StackProps.demo_tool (λ _, EmptyString) in
  let c := called StackProps.demo_config StackProps.demo_tool (λ _, EmptyString) in
  (∃ ms, parse_message <$> d_ps = Some <$> ms) ∧ bool_decide (Forall (λ p, length p < 200) d_ps) = true ∧
  length (c (concat (frame <$> d_ps))) = 2 ∧
  match (srun (open_on (w (concat (frame <$> d_ps)))) [Receive; Receive; Receive]).1 with
  | [Got (RMsg (MsgResponse a)); Got (RMsg (MsgResponse b)); Got RClosed] => rs_id a = IdNum 2 ∧ rs_id b = IdNum 3
  | _ => False
  end ∧
  w (frame (to_bytes (request_json d_list)) ++ concat (frame <$> d_ps)) = [] ∧ c (frame (to_bytes (request_json d_odd)) ++ concat (frame <$> d_ps)) = [].
Proof.
  cbv zeta. split. { eexists [_; _; _]. vm_compute. reflexivity. }
  split; [by vm_compute|]. split; [by vm_compute|]. split; [by vm_compute|]. split; by vm_compute.
Qed.
Example C227_requests : storable (request_json d_list) ∧ storable (request_json d_odd) ∧ rq_method d_odd ∉ known_methods ∧ creq_body CListTools = BTy t_list_request.
Proof. split; [apply HttpClientProofs.storable_check; [by vm_compute|vm_compute; lia]|]. split; [apply HttpClientProofs.storable_check; [by vm_compute|vm_compute; lia]|]. split; [by apply (bool_decide_unpack _); vm_compute|done]. Qed.
