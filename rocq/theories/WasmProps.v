(** C198-C202: the browser's WebSocket transport. *)
From stdpp Require Import sets list strings.
From Verif Require Import ListLib TextLib Utf8Lib JsonLib SerdeLib TypesModel RpcModel RpcSpec RpcProofs HttpModel WasmModel WasmSpec WasmProofs.
From Verif Require HttpClientProofs.

(** ** C198: what arrives is received once, in order *)
(** In every history, what receive returned and what waits are the messages of the texts that arrived. *)
Theorem C198_conserved : ∀ w os, w_got w os ++ wt_queue (w_run w os) = wt_queue w ++ omap (λ t, parse_value t ≫= wasm_of_doc) (arrived os).
Proof. intros w os. by rewrite w_conserved. Qed.
Print Assumptions C198_conserved.
(** Every message an SDK peer writes for stdio or a WebSocket is read, a request with the same id. *)
Theorem C198_received_partial : ∀ w os ms, arrived os = (λ m, show (message_json m)) <$> ms → Forall (λ m, good_message m ∧ not_elicitation m ∧ storable (message_json m)) ms →
  w_got w os ++ wt_queue (w_run w os) = wt_queue w ++ (browser_sees <$> ms).
Proof.
  intros w os ms Ha Hm. rewrite <- w_conserved, Ha. f_equal. clear Ha. induction Hm as [|m ms (Hg & He & Hs) _ IH]; [done|]. rewrite !fmap_cons. cbn [omap list_omap]. rewrite IH.
  destruct Hs as (Hw & Hk & _ & Hd). rewrite parse_value_show by done. cbn [mbind option_bind]. by rewrite wasm_reads.
Qed.
Print Assumptions C198_received_partial.
(** Likewise what another browser's transport writes, unless two variants share its name. *)
Theorem C198_browsers_partial : ∀ w os ms, arrived os = (λ m, show (wasm_doc m)) <$> ms → Forall (λ m, unambiguous m ∧ storable (wasm_doc m)) ms →
  w_got w os ++ wt_queue (w_run w os) = wt_queue w ++ ms.
Proof.
  intros w os ms Ha Hm. rewrite <- w_conserved, Ha. f_equal. clear Ha. induction Hm as [|m ms (Hg & Hs) _ IH]; [done|]. rewrite !fmap_cons. cbn [omap list_omap]. rewrite IH.
  destruct Hs as (Hw & Hk & _ & Hd). rewrite parse_value_show by done. cbn [mbind option_bind]. by rewrite wasm_back.
Qed.
Print Assumptions C198_browsers_partial.
(** False: a progress or cancellation notification of the common kind is written without its method and
    never received; a server's request for input is not read either. *)
Theorem C198_unnamed_refuted :
  (∀ p, is_of t_progress p → wasm_of_doc (wasm_doc (MsgNotification (NProgress p))) = None) ∧
  (∀ p, is_of t_cancelled p → wasm_of_doc (wasm_doc (MsgNotification (NCancelled p))) = None) ∧
  (∀ i p, rid_ok i → wasm_of_doc (message_json (MsgRequest i (RServer SElicitInput p))) = None).
Proof.
  split; [|split].
  - intros p H. destruct (progress_keyless p H) as (l & -> & ? & ? & ?). by apply keyless_unread.
  - intros p H. destruct (cancelled_keyless p H) as (l & -> & ? & ? & ?). by apply keyless_unread.
  - intros i p Hi. unfold wasm_of_doc. cbn [message_json]. set (l := request_json _).
    assert (request_of_doc l = None) as E by (by subst l). assert (has_key "method" l = true) as -> by done. assert (has_key "id" l = true) as -> by done. cbn [andb].
    subst l. unfold request_json in *. rewrite E. by destruct (_ ≫= rid_of_json).
Qed.
Print Assumptions C198_unnamed_refuted.
Definition asked : message := MsgRequest (IdNum 3) (RServer SListRoots JNull).
Definition changed : message := MsgNotification (NServer SToolsChanged JNull).
Definition answered : message := MsgResponse (success (IdStr (lit "a")) (JObj [(lit "tools", JArr [])])).
Example C198_example :
  let os := [WEvent (WText (show (message_json asked))); WEvent WBinary; WReceive; WEvent (WText (lit "{}")); WEvent (WText (show (message_json changed))); WReceive; WReceive; WEvent (WText (show (message_json answered)))] in
  w_got w_connected os = [asked; changed] ∧ wt_queue (w_run w_connected os) = [answered].
Proof. by vm_compute. Qed.
Example C198_met : Forall (λ m, good_message m ∧ not_elicitation m ∧ storable (message_json m)) [asked; changed; answered].
Proof.
  repeat (apply Forall_cons; split); [..|constructor].
  all: split; [vm_compute; by repeat split|]; (split; [done|]); apply HttpClientProofs.storable_check; [by vm_compute|vm_compute; lia].
Qed.

(** ** C199: the SDK's servers understand what the browser sends *)
(** Only its answers. *)
Theorem C199_responses_partial : ∀ r, good_response r → storable (response_json r) → parse_message (utf8 (show (wasm_doc (MsgResponse r)))) = Some (MsgResponse r).
Proof. intros r Hr Hs. by apply (message_bytes (MsgResponse r)). Qed.
Print Assumptions C199_responses_partial.
(** False: no request and no notification is, for stdio's and the WebSocket server's reader insist on the
    "jsonrpc" member, which the browser leaves out.  Not even the handshake can begin. *)
Theorem C199_unread_refuted : ∀ m, good_message m → (∀ r, m ≠ MsgResponse r) → storable (wasm_doc m) → parse_message (utf8 (show (wasm_doc m))) = None.
Proof. intros m Hg Hr Hs. unfold parse_message. change (utf8 (show (wasm_doc m))) with (to_bytes (wasm_doc m)). rewrite of_to_bytes by done. by apply browser_unread. Qed.
Print Assumptions C199_unread_refuted.
Example C199_example : let m := MsgRequest (IdNum 1) (RClient CPing JNull) in
  good_message m ∧ show (wasm_doc m) = lit "{""method"":""ping"",""id"":1}" ∧ parse_message (utf8 (show (wasm_doc m))) = None ∧ parse_message (serialize_message m) = Some m.
Proof. split; [vm_compute; by repeat split|]. by vm_compute. Qed.

(** ** C200: sending needs an open socket *)
Theorem C200_sent : ∀ w m accepts,
  (wt_sock w = Open → accepts = true → w_step w (WSend m accepts) = (MkWT (wt_sock w) (wt_queue w) (wt_out w ++ [show (wasm_doc m)]), WOk)) ∧
  (wt_sock w ≠ Open ∨ accepts = false → w_step w (WSend m accepts) = (w, WFailed)).
Proof.
  intros w m accepts. cbn [w_step]. unfold sock_open. split.
  - intros -> ->. by rewrite bool_decide_eq_true_2.
  - case_bool_decide; [intros [?| ->]; done|done].
Qed.
Print Assumptions C200_sent.
(** In every history: the socket is changed by the browser and by close alone, and what was written are
    the messages sent while it was open and the browser took them, in this order. *)
Theorem C200_written : ∀ w os,
  wt_sock (w_run w os) = sock_after (wt_sock w) os ∧
  wt_out (w_run w os) = wt_out w ++ ((λ m, show (wasm_doc m)) <$> written (wt_sock w) os).
Proof.
  intros w os. revert w. induction os as [|o os IH]; intros w; [split; [done|]; cbn; by rewrite app_nil_r|].
  change (w_run w (o :: os)) with (w_run (w_step w o).1 os). destruct (IH (w_step w o).1) as [-> ->].
  destruct o as [m a| |a|[t|]|s].
  - cbn [w_step sock_after written]. unfold sock_open. destruct a.
    + case_bool_decide as E; [rewrite decide_True by done|rewrite decide_False by done]; cbn [fst wt_sock wt_out]; [|done].
      by rewrite <-app_assoc.
    + by case_bool_decide.
  - cbn [w_step sock_after written]. by destruct (wt_queue w).
  - cbn [w_step sock_after written]. by destruct a.
  - cbn [w_step sock_after written on_message fst]. by destruct (parse_value t ≫= wasm_of_doc).
  - done.
  - done.
Qed.
Print Assumptions C200_written.
(** Once closed, and as long as the browser does not open it again, it sends nothing. *)
Theorem C200_closed : ∀ w os, stays_shut os → let w' := (w_step w (WShut true)).1 in
  wt_out (w_run w' os) = wt_out w ∧ ∀ m accepts, (w_step (w_run w' os) (WSend m accepts)).2 = WFailed.
Proof.
  intros w os Hs. cbn zeta. set (w' := (w_step w (WShut true)).1). assert (wt_sock (w_run w' os) ≠ Open ∧ wt_out (w_run w' os) = wt_out w) as [H1 H2].
  { assert (wt_sock w' ≠ Open ∧ wt_out w' = wt_out w) as H0 by (subst w'; cbn [w_step fst wt_sock wt_out]; by destruct (wt_sock w)). clearbody w'. revert w' H0.
    induction os as [|o os IH]; intros w' [Ha Hb]; [done|]. unfold w_run. cbn [fold_left]. apply IH; [intros H; apply Hs; by right|].
    destruct o as [m a| |a|[t|]|s]; cbn [w_step].
    - unfold sock_open. by rewrite bool_decide_eq_false_2.
    - by destruct (wt_queue w').
    - destruct a; [|done]. cbn [fst wt_sock wt_out]. by destruct (wt_sock w').
    - cbn [fst on_message]. by destruct (parse_value t ≫= wasm_of_doc).
    - done.
    - cbn [fst wt_sock wt_out]. split; [|done]. intros ->. apply Hs. left. }
  split; [done|]. intros m accepts. cbn [w_step]. unfold sock_open. by rewrite bool_decide_eq_false_2.
Qed.
Print Assumptions C200_closed.
Example C200_example :
  wt_out (w_run w_connected [WSend asked true; WShut true; WSend changed true; WBecomes Closed; WSend changed true]) = [show (wasm_doc asked)] ∧ stays_shut [WSend changed true; WBecomes Closed; WSend changed true].
Proof. split; [by vm_compute|]. unfold stays_shut. by intros [?|[?|[?|?%elem_of_nil]%elem_of_cons]%elem_of_cons]%elem_of_cons. Qed.

(** ** C201: receive ends when the connection has ended *)
(** False: whatever becomes of the socket, a receive with nothing queued waits until a message arrives. *)
Theorem C201_waits_refuted : ∀ w os, wt_queue w = [] → arrived os = [] → w_step (w_run w os) WReceive = (w_run w os, WPends).
Proof.
  intros w os Hq Ha. assert (wt_queue (w_run w os) = []) as E.
  { pose proof (w_conserved w os) as H. rewrite Hq, Ha in H. cbn in H. symmetry in H. by apply app_eq_nil in H as [_ ?]. }
  cbn [w_step]. by rewrite E.
Qed.
Print Assumptions C201_waits_refuted.
(** What had arrived before is still received after the end. *)
Theorem C201_kept_partial : ∀ w s m q, wt_queue w = m :: q → w_step (w_run w [WShut true; WBecomes s]) WReceive = (MkWT s q (wt_out w), WGot m).
Proof. intros w s m q Hq. unfold w_run. cbn [fold_left w_step fst]. cbn [wt_queue]. by rewrite Hq. Qed.
Print Assumptions C201_kept_partial.
Example C201_example : (w_step (w_run w_connected [WShut true; WBecomes Closing; WBecomes Closed]) WReceive).2 = WPends.
Proof. by vm_compute. Qed.

(** ** C202: connecting ends, and succeeds exactly if the socket opens in time *)
Theorem C202_connects : ∀ seen, let '(b, k) := wait_for_open seen in k ≤ 100 ∧ (∀ j, j < k → seen j = Connecting) ∧ (b = true ↔ seen k = Open) ∧ (seen k = Connecting → k = 100).
Proof.
  intros seen. destruct (wait_for_open seen) as [b k] eqn:E. apply await_spec in E as (H1 & H2 & H3 & H4). unfold MAX_ATTEMPTS in *. split; [lia|]. split; [intros j Hj; apply H2; lia|]. split; [done|]. intros H. apply H4 in H. lia.
Qed.
Print Assumptions C202_connects.
Theorem C202_iff : ∀ seen, (wait_for_open seen).1 = true ↔ ∃ k, k ≤ 100 ∧ seen k = Open ∧ ∀ j, j < k → seen j = Connecting.
Proof.
  intros seen. pose proof (C202_connects seen) as H. destruct (wait_for_open seen) as [b k]. destruct H as (H1 & H2 & H3 & H4). cbn [fst]. split.
  - intros Hb. exists k. split; [done|]. split; [by apply H3|done].
  - intros (k' & Hk & Ho & Hc). apply H3. destruct (lt_eq_lt_dec k k') as [[Hlt| ->]|Hlt]; [|done|].
    + pose proof (Hc k Hlt) as Hk'. apply H4 in Hk'. lia.
    + rewrite (H2 k' Hlt) in Ho. done.
Qed.
Print Assumptions C202_iff.
Example C202_example : wait_for_open (λ n, if (n <? 40)%nat then Connecting else Open) = (true, 40) ∧ wait_for_open (λ _, Connecting) = (false, 100) ∧ wait_for_open (λ n, if (n <? 2)%nat then Connecting else Closed) = (false, 2).
Proof. by vm_compute. Qed.
