(** C120-C128: the WebSocket transports. *)
From stdpp Require Import sets list strings.
From Verif Require Import ListLib TextLib Utf8Lib JsonLib SerdeLib TypesModel RpcModel RpcSpec RpcProofs WsModel WsSpec WsProofs WsProofs2 WsProofs3.

(** ** C120: what a peer of the server sends is received exactly once and in order *)
(** In every history of calls and rounds of the tasks: what receive returned of a connection, what waits in
    its channel and what its reader holds are together the messages in the frames read from it, in order.
    Of a connection that is no longer in use a first part of them was returned. *)
Theorem C120_received : ∀ os k c, st_conns (s_run st_new os) !! k = Some c →
  got_from k (s_trace st_new os) `prefix_of` said (taken_by k (s_trace st_new os)) ∧
  (st_cur (s_run st_new os) = Some k → got_from k (s_trace st_new os) ++ sc_in c ++ held_msg c = said (taken_by k (s_trace st_new os))).
Proof. exact server_received. Qed.
Print Assumptions C120_received.
(** When the peer has gone, receive returns all that is left and then fails. *)
Theorem C120_end : ∀ os k c, st_cur (s_run st_new os) = Some k → st_conns (s_run st_new os) !! k = Some c → sc_reader c = RDone →
  ∃ ms, got_from k (s_trace st_new os) ++ ms = said (taken_by k (s_trace st_new os)) ∧
  (λ x, x.2) <$> s_trace (s_run st_new os) (replicate (S (length ms)) SReceive) = (SGot <$> ms) ++ [SErr].
Proof.
  intros os k c Hk Hc Hr. exists (sc_in c). split.
  - destruct (server_received os k c Hc) as [_ H]. rewrite <- H by done. unfold held_msg. by rewrite Hr, app_nil_r.
  - by apply (drain (sc_in c) _ k c).
Qed.
Print Assumptions C120_end.
(** A frame that announces the end of the connection ends the reader, and nothing is read after it. *)
Theorem C120_gone : ∀ s k c f, st_conns s !! k = Some c → sc_reader c = RIdle → gone f →
  ∃ c', st_conns (s_step s (SRead k f)).1 !! k = Some c' ∧ sc_reader c' = RDone ∧ sc_in c' = sc_in c ∧ ∀ g, read_frame g c' = c'.
Proof.
  intros s k c f Hc Hr Hf. assert (read_frame f c = set_reader RDone c) as E.
  { unfold read_frame. rewrite Hr. by destruct Hf as [-> | [-> | ->]]. }
  cbn [s_step fst on_conn st_conns]. rewrite list_lookup_alter, Hc. cbn [fmap option_fmap option_map]. rewrite E. by eexists.
Qed.
Print Assumptions C120_gone.
(** Nothing else ends it: the reader of the connection in use has ended exactly when such a frame was read,
    or a pong could not be queued because the writer had ended. *)
Theorem C120_reads : ∀ os k c, st_cur (s_run st_new os) = Some k → st_conns (s_run st_new os) !! k = Some c →
  (Exists gone (taken_by k (s_trace st_new os)) → sc_reader c = RDone) ∧
  (sc_reader c = RDone → sc_writer c = true → Exists gone (taken_by k (s_trace st_new os))).
Proof.
  intros os k c Hk Hc. pose proof (done_run os k) as I. unfold doneinv in I. rewrite Hc in I. destruct I as [I1 I2]. split; [done|].
  intros Hr Hw. destruct (I1 Hr) as [|[H|H]]; [done|congruence|]. destruct (s_run_inv os) as [W _]. destruct (W k c Hc) as [Hx _]. rewrite (proj2 (is_cur_eq _ _) Hk) in Hx. congruence.
Qed.
Print Assumptions C120_reads.
(** False: accepting the next connection, like closing, throws away what has been received of this one and
    not returned yet, although the peer sent it successfully. *)
Theorem C120_replaced_refuted : ∀ os os' k c o, st_cur (s_run st_new os) = Some k → st_conns (s_run st_new os) !! k = Some c → sc_in c ≠ [] →
  (o = SClose ∨ o = SAccept true) →
  got_from k (s_trace st_new (os ++ o :: os')) ≠ said (taken_by k (s_trace st_new os)) ∧
  length (got_from k (s_trace st_new (os ++ o :: os'))) < length (said (taken_by k (s_trace st_new os))).
Proof.
  intros os os' k c o Hk Hc Hi Ho. rewrite (replaced_lost os os' k o Hk Ho). destruct (server_received os k c Hc) as [_ H].
  rewrite <- (H Hk), !app_length. assert (0 < length (sc_in c)) by (destruct (sc_in c); [done|cbn; lia]).
  split; [|lia]. intros E. apply (f_equal length) in E. rewrite !app_length in E. lia.
Qed.
Print Assumptions C120_replaced_refuted.

(** ** C121: what the server sends is transmitted once and in order *)
(** The text frames written to a connection are, in order, the first of the messages send accepted for it;
    while its writer works all others wait in the channel. *)
Theorem C121_order : ∀ os k c, st_conns (s_run st_new os) !! k = Some c →
  texts (sc_wire c) `prefix_of` (serialize_message <$> sent_to k (s_trace st_new os)) ∧
  (sc_writer c = true → texts (sc_wire c) ++ (serialize_message <$> sc_out c) = serialize_message <$> sent_to k (s_trace st_new os)).
Proof. exact server_sent. Qed.
Print Assumptions C121_order.
(** send fails exactly without a connection or when its writer has ended; otherwise the message is queued
    for the connection in use and no other, or the call waits until fewer than 100 are queued. *)
Theorem C121_send : ∀ os m, let s := s_run st_new os in
  ((s_step s (SSend m)).2 = SErr ↔ st_cur s = None ∨ ∃ k c, st_cur s = Some k ∧ st_conns s !! k = Some c ∧ sc_writer c = false) ∧
  ((s_step s (SSend m)).2 = SWaits ↔ ∃ k c, st_cur s = Some k ∧ st_conns s !! k = Some c ∧ sc_writer c = true ∧ 100 ≤ length (sc_out c)) ∧
  ∀ j, st_cur s ≠ Some j → st_conns (s_step s (SSend m)).1 !! j = st_conns s !! j.
Proof.
  intros os m s. subst s. destruct (st_cur (s_run st_new os)) as [k|] eqn:Ek.
  2:{ cbn [s_step]. rewrite Ek. cbn. split; [split; [by left|done]|]. split; [split; [done|]; intros (? & ? & [=] & _)|done]. }
  destruct (cur_conn os k Ek) as [c Hc]. set (s := s_run st_new os) in *. cbn [s_step]. rewrite Ek. cbn [mbind option_bind]. rewrite Hc. cbn [fmap option_fmap option_map].
  destruct (sc_writer c) eqn:Ew; cbn [negb].
  - change (out_cap) with 100. destruct (Nat.ltb_spec (length (sc_out c)) 100) as [Hl|Hl]; cbn [fst snd].
    + split; [split; [done|]; intros [?|(? & ? & [= <-] & ? & ?)]; [done|congruence]|]. split; [split; [done|]; intros (? & ? & [= <-] & ? & ? & ?); simplify_eq; lia|].
      intros j Hj. cbn. apply list_lookup_alter_ne. congruence.
    + split; [split; [done|]; intros [?|(? & ? & [= <-] & ? & ?)]; [done|congruence]|]. split; [split; [|done]; intros _; eauto 10|done].
  - cbn [fst snd]. split; [split; [|done]; intros _; right; eauto|]. split; [split; [done|]; intros (? & ? & [= <-] & ? & ? & ?); congruence|done].
Qed.
Print Assumptions C121_send.
(** The writer empties the channel: as many successful rounds as messages wait write all of them. *)
Theorem C121_written : ∀ os k c, st_conns (s_run st_new os) !! k = Some c → sc_writer c = true →
  ∃ c', st_conns (s_run st_new (os ++ replicate (length (sc_out c)) (SWrite k false true))) !! k = Some c' ∧
  texts (sc_wire c') = serialize_message <$> sent_to k (s_trace st_new os).
Proof.
  intros os k c Hc Hw. destruct (server_sent os k c Hc) as [_ H]. rewrite <- (H Hw). clear H. rewrite s_run_app.
  set (s := s_run st_new os) in *. clearbody s. remember (sc_out c) as q eqn:Eq. revert s c Hc Hw Eq.
  induction q as [|m q IH]; intros s c Hc Hw Eq; [exists c; by rewrite app_nil_r|].
  cbn [length replicate]. change (s_run s (?o :: ?l)) with (s_run (s_step s o).1 l).
  edestruct (IH (s_step s (SWrite k false true)).1) as (c' & H1 & H2).
  - cbn. rewrite list_lookup_alter, Hc. cbn. unfold write_frame. rewrite Hw, <- Eq. done.
  - done.
  - done.
  - exists c'. split; [exact H1|]. rewrite H2. cbn. by rewrite texts_app, texts_text, <- app_assoc.
Qed.
Print Assumptions C121_written.
(** Unless the socket refuses a frame, the writer of a connection ends only when the transport has let go
    of the connection, its reader has ended and everything send accepted has been written. *)
Theorem C121_ended : ∀ os k c, st_conns (s_run st_new os) !! k = Some c → sc_writer c = false → (∀ p, SWrite k p false ∉ os) →
  sc_tx c = false ∧ sc_reader c = RDone ∧ texts (sc_wire c) = serialize_message <$> sent_to k (s_trace st_new os).
Proof. exact writer_ends. Qed.
Print Assumptions C121_ended.
(** And then it does end, after writing what is left. *)
Theorem C121_finishes : ∀ s k c, st_conns s !! k = Some c → sc_writer c = true → sc_tx c = false → sc_reader c = RDone →
  ∃ c', st_conns (s_run s (replicate (length (sc_out c)) (SWrite k false true) ++ replicate (length (sc_pongs c)) (SWrite k true true) ++ [SWrite k false true])) !! k = Some c' ∧
  sc_writer c' = false ∧ sc_wire c' = sc_wire c ++ (FText ∘ serialize_message <$> sc_out c) ++ (FPong <$> sc_pongs c).
Proof.
  intros s k c Hc Hw Ht Hr. remember (sc_out c) as q eqn:Eq. revert s c Hc Hw Ht Hr Eq.
  induction q as [|m q IH]; intros s c Hc Hw Ht Hr Eq.
  - cbn [length replicate app fmap list_fmap]. remember (sc_pongs c) as ps eqn:Ep. revert s c Hc Hw Ht Hr Eq Ep. induction ps as [|d ps IH]; intros s c Hc Hw Ht Hr Eq Ep.
    + cbn. rewrite list_lookup_alter, Hc. cbn. eexists. split; [done|]. unfold write_frame. rewrite Hw, <-Eq, <-Ep, Ht, Hr. cbn. by rewrite app_nil_r.
    + cbn [length replicate app]. change (s_run s (?o :: ?l)) with (s_run (s_step s o).1 l).
      edestruct (IH (s_step s (SWrite k true true)).1) as (c' & H1 & H2 & H3).
      * cbn. rewrite list_lookup_alter, Hc. cbn. unfold write_frame. rewrite Hw, <-Eq, <-Ep. done.
      * done.
      * done.
      * done.
      * done.
      * done.
      * exists c'. split; [exact H1|]. split; [done|]. rewrite H3. cbn. by rewrite <-app_assoc.
  - cbn [length replicate app]. change (s_run s (?o :: ?l)) with (s_run (s_step s o).1 l).
    edestruct (IH (s_step s (SWrite k false true)).1) as (c' & H1 & H2 & H3).
    + cbn. rewrite list_lookup_alter, Hc. cbn. unfold write_frame. rewrite Hw, <-Eq. done.
    + done.
    + done.
    + done.
    + done.
    + exists c'. split; [exact H1|]. split; [done|]. rewrite H3. cbn. by rewrite <-app_assoc.
Qed.
Print Assumptions C121_finishes.
(** False: send succeeds once the message is queued.  If the socket then refuses a frame the writer ends and
    the message is never transmitted, whatever happens later. *)
Theorem C121_lost_refuted : ∀ os k c m os', let s := s_run st_new os in
  st_cur s = Some k → st_conns s !! k = Some c → sc_writer c = true → sc_out c = [] →
  (s_step s (SSend m)).2 = SOk ∧
  ∃ c', st_conns (s_run st_new (os ++ SSend m :: SWrite k false false :: os')) !! k = Some c' ∧ sc_wire c' = sc_wire c.
Proof.
  intros os k c m os' s Hk Hc Hw Ho.
  assert (s_step s (SSend m) = (on_conn k (λ c, SConn (sc_in c) (sc_rx c) (sc_out c ++ [m]) (sc_tx c) (sc_pongs c) (sc_reader c) (sc_writer c) (sc_wire c)) s, SOk)) as E.
  { cbn [s_step]. rewrite Hk. cbn [mbind option_bind]. rewrite Hc. cbn [fmap option_fmap option_map]. by rewrite Hw, Ho. }
  split; [by rewrite E|]. rewrite s_run_app. fold s. change (s_run s (?o :: ?o' :: ?l)) with (s_run (s_step (s_step s o).1 o').1 l). rewrite E.
  edestruct (wire_fixed_run os') as (c' & H1 & _ & H2); [| |exists c'; split; [exact H1|rewrite H2]].
  - cbn. rewrite list_lookup_alter. rewrite list_lookup_alter, Hc. cbn. unfold write_frame. cbn. rewrite Hw, Ho. done.
  - done.
  - done.
Qed.
Print Assumptions C121_lost_refuted.

(** ** C122: pings are answered *)
(** The pongs written carry the data of the pings read, in order, one for each; while the writer works the
    others are on their way.  This does not depend on the transport being in use. *)
Theorem C122_pongs : ∀ os k c, st_conns (s_run st_new os) !! k = Some c →
  pongs (sc_wire c) `prefix_of` pings (taken_by k (s_trace st_new os)) ∧
  (sc_writer c = true → pongs (sc_wire c) ++ sc_pongs c ++ held_pong c = pings (taken_by k (s_trace st_new os))).
Proof. exact server_pongs. Qed.
Print Assumptions C122_pongs.
(** A waiting pong is written by the next round that takes it. *)
Theorem C122_next : ∀ s k c d q, st_conns s !! k = Some c → sc_writer c = true → sc_pongs c = d :: q →
  ∃ c', st_conns (s_step s (SWrite k true true)).1 !! k = Some c' ∧ sc_wire c' = sc_wire c ++ [FPong d] ∧ sc_pongs c' = q ∧ sc_out c' = sc_out c.
Proof.
  intros s k c d q Hc Hw Hq. cbn. rewrite list_lookup_alter, Hc. cbn. eexists. split; [done|]. unfold write_frame. rewrite Hw, Hq. cbn. by destruct (sc_out c).
Qed.
Print Assumptions C122_next.

(** ** C123: is_connected *)
(** is_connected is true exactly when a connection was accepted and close has not been called since. *)
Theorem C123_api_partial : ∀ os, s_connected (s_run st_new os) = true ↔
  ∃ os1 os2, os = os1 ++ SAccept true :: os2 ∧ st_bound (s_run st_new os1) = true ∧ SClose ∉ os2.
Proof. exact connected_iff. Qed.
Print Assumptions C123_api_partial.
(** False: that the peer has gone makes no difference, ever: neither the end of the stream read from it nor
    a failing write changes what is_connected says. *)
Theorem C123_peer_refuted : ∀ os k c f os', let s := s_run st_new os in
  st_cur s = Some k → st_conns s !! k = Some c → sc_reader c = RIdle → gone f → SClose ∉ os' →
  s_connected (s_run s (SRead k f :: SWrite k false false :: os')) = true.
Proof.
  intros os k c f os' s Hk Hc Hr Hf Hn. apply connected_keeps.
  - rewrite !not_elem_of_cons. done.
  - unfold s_connected. by rewrite Hk.
Qed.
Print Assumptions C123_peer_refuted.

(** A history: two messages and a ping from the peer, one message to it, then the peer goes. *)
Definition wm (n : Z) : message := MsgResponse (success (IdNum n) (JObj [])).
Definition whist : list sop := [SBind true; SAccept true; SRead 0 (FText (serialize_message (wm 1))); SRead 0 (FPing [7%N]); SRead 0 FBinary; SRead 0 (FText (serialize_message (wm 2)));
  SReceive; SSend (wm 3); SWrite 0 true true; SWrite 0 false true; SRead 0 FClose].
Example C120_example : let s := s_run st_new whist in let tr := s_trace st_new whist in
  ∃ c, st_conns s !! 0 = Some c ∧ st_cur s = Some 0 ∧ got_from 0 tr = [wm 1] ∧ said (taken_by 0 tr) = [wm 1; wm 2] ∧ sc_in c = [wm 2] ∧ sc_reader c = RDone ∧
  sc_wire c = [FPong [7%N]; FText (serialize_message (wm 3))] ∧ sent_to 0 tr = [wm 3] ∧ sc_writer c = true ∧ sc_out c = [] ∧ s_connected s = true.
Proof. eexists. split; [by vm_compute|]. repeat split; by vm_compute. Qed.

(** ** C124: the client's attempts to connect *)
(** connect tries until an attempt succeeds or the limit is reached (at least once), and waits between
    attempts as [backoff] says. *)
Theorem C124_attempts : ∀ fuel outcome limit d cap r n ws, connect fuel outcome limit d cap = Some (r, n, ws) →
  1 ≤ n ∧ (∀ i, S i < n → outcome i = false) ∧ (∀ max, limit = Some max → n ≤ Nat.max 1 max) ∧
  match r with
  | Connected => outcome (n - 1) = true ∧ ws = backoff d cap <$> seq 0 (n - 1)
  | GaveUp => outcome (n - 1) = false ∧ (∃ max, limit = Some max ∧ n = Nat.max 1 max) ∧ ws = backoff d cap <$> seq 0 (n - 1)
  | RetryPanic => outcome (n - 1) = false ∧ (dur_max < 2 * N.max d cap)%N ∧ ws = backoff d cap <$> seq 0 n
  end.
Proof. exact connect_spec. Qed.
Print Assumptions C124_attempts.
(** It ends when there is a limit, and when some attempt succeeds. *)
Theorem C124_ends : ∀ outcome limit d cap n, (outcome n = true ∨ ∃ max, limit = Some max ∧ max ≤ S n) → is_Some (connect (S n) outcome limit d cap).
Proof. intros outcome limit d cap n H. apply connect_loop_ends. exists n. split; [lia|done]. Qed.
Print Assumptions C124_ends.
(** From the second wait on, none is longer than the cap. *)
Theorem C124_capped_partial : ∀ d cap i, (backoff d cap (S i) ≤ cap)%N ∧ (backoff d cap (S i) ≤ backoff d cap (S (S i)))%N.
Proof.
  intros d cap i. split; [unfold backoff; lia|]. unfold backoff. replace (N.of_nat (S (S i))) with (N.succ (N.of_nat (S i))) by lia. rewrite N.pow_succ_r'.
  set (x := (2 ^ N.of_nat (S i))%N). clearbody x. assert (d * x ≤ d * (2 * x))%N by (apply N.mul_le_mono_l; lia). lia.
Qed.
Print Assumptions C124_capped_partial.
(** False for the first wait: it is the initial delay, even above the maximum. *)
Theorem C124_first_refuted : ∀ fuel outcome limit d cap r n ws, connect fuel outcome limit d cap = Some (r, n, ws) → outcome 0 = false →
  (cap < d)%N → (∀ max, limit = Some max → 1 < max) → ∃ w, ws !! 0 = Some w ∧ (cap < w)%N.
Proof.
  intros fuel outcome limit d cap r n ws H Ho Hd Hl. apply connect_spec in H as (H1 & H2 & H3 & H4). exists d. split; [|done].
  destruct r.
  - destruct H4 as [Hs ->]. destruct n as [|[|n]]; [lia|cbn in Hs; congruence|]. done.
  - destruct H4 as (_ & (max & -> & ->) & ->). specialize (Hl max eq_refl). replace (Nat.max 1 max - 1) with (S (max - 2)) by lia. done.
  - destruct H4 as (_ & _ & ->). destruct n; [lia|done].
Qed.
Print Assumptions C124_first_refuted.
(** Doubling a delay that is too long to be doubled panics. *)
Theorem C124_panic_refuted : ∀ outcome limit d cap, outcome 0 = false → (∀ max, limit = Some max → 1 < max) → (dur_max < 2 * d)%N →
  connect 1 outcome limit d cap = Some (RetryPanic, 1, [d]).
Proof.
  intros outcome limit d cap Ho Hl Hd. unfold connect. cbn [connect_loop]. rewrite Ho.
  assert (match limit with Some max => (max <=? 1)%nat | None => false end = false) as ->.
  { destruct limit as [max|]; [|done]. apply Nat.leb_gt. by apply Hl. }
  assert ((dur_max <? d * 2)%N = true) as -> by (apply N.ltb_lt; lia). done.
Qed.
Print Assumptions C124_panic_refuted.
Example C124_example : connect 9 (λ i, (i =? 4)%nat) None 1 5 = Some (Connected, 5, [1%N; 2%N; 4%N; 5%N]) ∧ connect 9 (λ i, false) (Some 3) 1 60 = Some (GaveUp, 3, [1%N; 2%N]) ∧
  connect 9 (λ _, false) (Some 0) 1 5 = Some (GaveUp, 1, []).
Proof. by vm_compute. Qed.

(** ** C125: what the client sends is transmitted *)
(** False: in no history does the client write anything but pings, although send succeeds whenever the
    transport is connected. *)
Theorem C125_silent_refuted : ∀ os, let s := c_run ct_new os in
  (∀ k c f, ct_conns s !! k = Some c → f ∈ cc_wire c → f = FPing []) ∧
  (c_connected s = true → ∀ m, c_step s (CSend m) = (s, COk)).
Proof.
  intros os s. split.
  - subst s. induction os as [|o os IH] using rev_ind; [done|]. rewrite c_run_snoc. set (s := c_run ct_new os) in *.
    assert (∀ j g q st, (∀ c f, f ∈ cc_wire (g c) → f ∈ cc_wire c ∨ f = FPing []) → ∀ k c f, ct_conns (CTransport st q (alter g j (ct_conns s))) !! k = Some c → f ∈ cc_wire c → f = FPing []) as Ha.
    { intros j g q st Hg k c f Hc Hf. cbn in Hc. destruct (decide (j = k)) as [->|Hj].
      - rewrite list_lookup_alter in Hc. destruct (ct_conns s !! k) as [c0|] eqn:E0; [|done]. cbn in Hc. simplify_eq. destruct (Hg c0 f Hf) as [H|]; [|done]. by eapply IH.
      - rewrite list_lookup_alter_ne in Hc by done. by eapply IH. }
    assert (∀ j m k c f, ct_conns (put_chan j m s) !! k = Some c → f ∈ cc_wire c → f = FPing []) as Hp.
    { intros j m. unfold put_chan. destruct (_ <? _)%nat; apply Ha; cbn; auto. }
    destruct o as [ok|m| | |j f|j|j]; cbn [c_step].
    + destruct ok; cbn; [|done]. intros k c f Hc Hf. apply lookup_app_Some in Hc as [Hc|[_ Hc]]; [by eapply IH|].
      apply list_lookup_singleton_Some in Hc as [_ <-]. cbn in Hf. by apply elem_of_nil in Hf.
    + done.
    + by destruct (ct_queue s) as [|[??]?].
    + done.
    + cbn [fst]. destruct (ct_conns s !! j) as [c|]; [|done]. destruct (cc_stopped c); [done|]. destruct (cc_holds c); [done|].
      destruct f; try done; try (apply Ha; cbn; by auto). destruct (of_bytes bs); [|done]. destruct (parse_message bs); [|done]. apply Hp.
    + cbn [fst]. destruct (ct_conns s !! j) as [[[m|] ??]|]; [|done..]. apply Hp.
    + cbn [fst]. apply Ha. cbn. intros c f. rewrite elem_of_app, elem_of_list_singleton. done.
  - intros Hc m. cbn. unfold c_connected in Hc. by destruct (ct_state s).
Qed.
Print Assumptions C125_silent_refuted.
(** send fails when the transport is not connected. *)
Theorem C125_refused_partial : ∀ s m, c_connected s = false → c_step s (CSend m) = (s, CErr).
Proof. intros s m H. cbn. unfold c_connected in H. by destruct (ct_state s). Qed.
Print Assumptions C125_refused_partial.

(** ** C126: what the server sends is received by the client exactly once and in order *)
(** Per connection, in every history: what receive returned, what waits in the channel and what the reader
    holds are together the messages in the frames read, in order.  Nothing is lost when connecting again. *)
Theorem C126_received : ∀ os k, let s := c_run ct_new os in let tr := c_trace ct_new os in
  c_got_from k tr ++ queued_from k (ct_queue s) ++ match ct_conns s !! k with Some c => c_held c | None => [] end = said (c_taken k tr).
Proof. intros os k. apply client_received. Qed.
Print Assumptions C126_received.
(** receive returns the first message of the channel. *)
Theorem C126_next : ∀ s k m q, ct_queue s = (k, m) :: q → (c_step s CReceive).2 = CGot m ∧ ct_queue (c_step s CReceive).1 = q ∧ ct_conns (c_step s CReceive).1 = ct_conns s.
Proof. intros s k m q H. cbn. by rewrite H. Qed.
Print Assumptions C126_next.
(** A connection is read until its close frame, an error or the end of the stream, and until nothing else. *)
Theorem C126_reads : ∀ os k c, ct_conns (c_run ct_new os) !! k = Some c →
  if cc_stopped c then ∃ fs f, c_taken k (c_trace ct_new os) = fs ++ [f] ∧ gone f ∧ Forall (λ f, ¬ gone f) fs
  else Forall (λ f, ¬ gone f) (c_taken k (c_trace ct_new os)).
Proof. intros os k c Hc. pose proof (stop_run os k) as I. unfold stopinv in I. by rewrite Hc in I. Qed.
Print Assumptions C126_reads.

(** ** C127: the end of the connection is reported *)
(** False: receive never fails.  Once the peer has gone it waits for ever, and until close or the next
    attempt to connect the transport stays connected and send succeeds. *)
Theorem C127_end_refuted : ∀ s k c f os, ct_conns s !! k = Some c → cc_stopped c = false → cc_holds c = None → gone f → c_connected s = true →
  CClose ∉ os → (∀ b, COnce b ∉ os) →
  let s' := c_run (c_step s (CRead k f)).1 os in
  c_connected s' = true ∧ (∀ m, (c_step s' (CSend m)).2 = COk) ∧ (c_step s' CReceive).2 ≠ CErr.
Proof.
  intros s k c f os Hc Hs Hh Hf Hcon Hn1 Hn2 s'.
  assert (∀ os s, CClose ∉ os → (∀ b, COnce b ∉ os) → c_connected (c_run s os) = c_connected s) as Hkeep.
  { clear. induction os as [|o os IH]; intros s Hn1 Hn2; [done|]. change (c_run s (o :: os)) with (c_run (c_step s o).1 os).
    rewrite IH; [|set_solver|intros b Hb; apply (Hn2 b); set_solver].
    assert (∀ j m, ct_state (put_chan j m s) = ct_state s) as Hp by (intros; unfold put_chan; by destruct (_ <? _)%nat).
    unfold c_connected. destruct o as [ok|m| | |j f|j|j]; cbn [c_step].
    - exfalso. apply (Hn2 ok). set_solver.
    - done.
    - by destruct (ct_queue s) as [|[??]?].
    - exfalso. apply Hn1. set_solver.
    - cbn [fst]. destruct (ct_conns s !! j) as [c|]; [|done]. destruct (cc_stopped c); [done|]. destruct (cc_holds c); [done|].
      destruct f; try done. destruct (of_bytes bs); [|done]. destruct (parse_message bs); [|done]. by rewrite Hp.
    - cbn [fst]. destruct (ct_conns s !! j) as [[[m|] ??]|]; [|done..]. by rewrite Hp.
    - done. }
  assert (c_connected s' = true) as Hs'.
  { subst s'. rewrite Hkeep by done. cbn [c_step fst]. rewrite Hc, Hs, Hh. by destruct Hf as [-> | [-> | ->]]. }
  split; [done|]. split.
  - intros m. cbn. unfold c_connected in Hs'. by destruct (ct_state s').
  - cbn. by destruct (ct_queue s') as [|[??]?].
Qed.
Print Assumptions C127_end_refuted.
(** False for closing as well: after close the connection is still read, its messages are still received,
    and receive does not fail. *)
Theorem C127_close_refuted : ∀ s k c m, ct_conns s !! k = Some c → cc_stopped c = false → cc_holds c = None → ct_queue s = [] →
  good_message m → not_elicitation m → storable (message_json m) →
  let s' := (c_step s CClose).1 in
  c_connected s' = false ∧ (c_step s' CReceive).2 = CWaits ∧ (c_step (c_step s' (CRead k (FText (serialize_message m)))).1 CReceive).2 = CGot (msg_seen_as m).
Proof.
  intros s k c m Hc Hs Hh Hq H1 H2 H3 s'. split; [done|]. split; [cbn; by rewrite Hq|].
  pose proof (message_bytes m H1 H2 H3) as E. cbn [c_step fst snd]. subst s'. cbn [c_step ct_conns fst]. rewrite Hc, Hs, Hh, E.
  assert (is_Some (of_bytes (serialize_message m))) as [v ->]. { unfold parse_message in E. destruct (of_bytes (serialize_message m)); [by eexists|done]. }
  unfold put_chan. cbn [ct_queue]. rewrite Hq. done.
Qed.
Print Assumptions C127_close_refuted.
(** is_connected follows the last call: connected after a successful attempt, not after a failed one or
    close. *)
Theorem C127_state_partial : ∀ s ok, c_connected (c_step s (COnce ok)).1 = ok ∧ c_connected (c_step s CClose).1 = false ∧ c_connected ct_new = false.
Proof. intros s ok. by destruct ok. Qed.
Print Assumptions C127_state_partial.

(** ** C128: server and client of the library over a WebSocket *)
(** If the client reads what the server wrote, it receives the messages the server sent, in order, as many
    as it has read; nothing is lost, repeated or changed on the way. *)
Theorem C128_to_client : ∀ sos cos k j c, st_conns (s_run st_new sos) !! k = Some c →
  Forall (λ m, good_message m ∧ not_elicitation m ∧ storable (message_json m)) (sent_to k (s_trace st_new sos)) →
  texts (c_taken j (c_trace ct_new cos)) `prefix_of` texts (sc_wire c) →
  c_got_from j (c_trace ct_new cos) ++ queued_from j (ct_queue (c_run ct_new cos)) ++ match ct_conns (c_run ct_new cos) !! j with Some c => c_held c | None => [] end
    = msg_seen_as <$> take (length (texts (c_taken j (c_trace ct_new cos)))) (sent_to k (s_trace st_new sos)).
Proof. exact across. Qed.
Print Assumptions C128_to_client.
(** False in the other direction: whatever the client sends, a server reading what it wrote receives
    nothing. *)
Theorem C128_to_server_refuted : ∀ cos sos k j c, ct_conns (c_run ct_new cos) !! j = Some c →
  (∀ f, f ∈ taken_by k (s_trace st_new sos) → f ∈ cc_wire c) → got_from k (s_trace st_new sos) = [].
Proof.
  intros cos sos k j c Hc Ht. destruct (s_run_inv sos) as (I1 & I2 & _).
  destruct (st_conns (s_run st_new sos) !! k) as [d|] eqn:Ed; [|by apply I2].
  destruct (server_received sos k d Ed) as [Hp _].
  assert (said (taken_by k (s_trace st_new sos)) = []) as E.
  { destruct (C125_silent_refuted cos) as [Hw _].
    assert (∀ f, f ∈ taken_by k (s_trace st_new sos) → f = FPing []) as Hall. { intros f Hf. eapply Hw; [exact Hc|by apply Ht]. }
    clear -Hall. induction (taken_by k (s_trace st_new sos)) as [|f fs IH]; [done|]. change (f :: fs) with ([f] ++ fs). rewrite said_app, IH; [|intros g Hg; apply Hall; by right].
    rewrite (Hall f) by by left. done. }
  rewrite E in Hp. by apply prefix_nil_inv in Hp.
Qed.
Print Assumptions C128_to_server_refuted.
Definition chist : list cop := [COnce true; CSend (wm 9); CRead 0 (FPong [7%N]); CRead 0 (FText (serialize_message (wm 3))); CPing 0; CReceive; CRead 0 FEnd; CReceive].
Example C128_example : let c := c_run ct_new chist in let tr := c_trace ct_new chist in
  (λ x, x.2) <$> tr = [COk; COk; COk; COk; COk; CGot (wm 3); COk; CWaits] ∧ c_connected c = true ∧ c_got_from 0 tr = [wm 3] ∧ cc_wire <$> ct_conns c = [[FPing []]] ∧
  (∃ d, st_conns (s_run st_new whist) !! 0 = Some d ∧ texts (c_taken 0 tr) = texts (sc_wire d)) ∧
  good_message (wm 3) ∧ not_elicitation (wm 3) ∧ storable (message_json (wm 3)).
Proof.
  cbn zeta. split; [by vm_compute|]. split; [by vm_compute|]. split; [by vm_compute|]. split; [by vm_compute|].
  split; [eexists; split; by vm_compute|]. split; [cbn; unfold good_response; cbn; unfold i64_min, i64_max; lia|]. split; [done|].
  split; [cbn; lia|]. split; [|split; [|cbn; lia]].
  - cbn. repeat split; apply nodupb_NoDup; by vm_compute.
  - cbn. repeat split; repeat constructor; unfold scalar; lia.
Qed.
