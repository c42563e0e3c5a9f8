(** Lemmas for the WebSocket transports: what follows from the invariant, and the client. *)
From stdpp Require Import list.
From Verif Require Import ListLib TextLib JsonLib RpcModel RpcSpec RpcProofs WsModel WsSpec WsProofs.

(** *** The server's transport *)
Lemma cur_conn os k : st_cur (s_run st_new os) = Some k → ∃ c, st_conns (s_run st_new os) !! k = Some c.
Proof. intros H. destruct (s_run_inv os) as (_ & _ & I3). destruct (I3 k H) as [c Hc]. by exists c. Qed.
Lemma server_received os k c : st_conns (s_run st_new os) !! k = Some c →
  got_from k (s_trace st_new os) `prefix_of` said (taken_by k (s_trace st_new os)) ∧
  (st_cur (s_run st_new os) = Some k → got_from k (s_trace st_new os) ++ sc_in c ++ held_msg c = said (taken_by k (s_trace st_new os))).
Proof.
  intros Hc. destruct (s_run_inv os) as (I1 & _ & _). destruct (I1 k c Hc) as (_ & _ & H3 & H4 & _). split; [done|].
  intros E. apply H4. by apply is_cur_eq.
Qed.
Lemma server_sent os k c : st_conns (s_run st_new os) !! k = Some c →
  texts (sc_wire c) `prefix_of` (serialize_message <$> sent_to k (s_trace st_new os)) ∧
  (sc_writer c = true → texts (sc_wire c) ++ (serialize_message <$> sc_out c) = serialize_message <$> sent_to k (s_trace st_new os)).
Proof. intros Hc. destruct (s_run_inv os) as (I1 & _ & _). by destruct (I1 k c Hc) as (_ & _ & H3 & H4 & H5 & H6 & _). Qed.
Lemma server_pongs os k c : st_conns (s_run st_new os) !! k = Some c →
  pongs (sc_wire c) `prefix_of` pings (taken_by k (s_trace st_new os)) ∧
  (sc_writer c = true → pongs (sc_wire c) ++ sc_pongs c ++ held_pong c = pings (taken_by k (s_trace st_new os))).
Proof. intros Hc. destruct (s_run_inv os) as (I1 & _ & _). by destruct (I1 k c Hc) as (_ & _ & H3 & H4 & H5 & H6 & H7 & H8). Qed.

(** Receiving what is there, then the end *)
Definition results (s : stransport) (os : list sop) : list sres := (λ x, x.2) <$> s_trace s os.
Lemma drain q : ∀ s k c, st_cur s = Some k → st_conns s !! k = Some c → sc_in c = q → sc_reader c = RDone →
  results s (replicate (S (length q)) SReceive) = (SGot <$> q) ++ [SErr].
Proof.
  induction q as [|m q IH]; intros s k c Hk Hc Hi Hr.
  - assert (s_step s SReceive = (s, SErr)) as E.
    { cbn [s_step]. rewrite Hk. cbn [mbind option_bind]. rewrite Hc. cbn [fmap option_fmap option_map]. by rewrite Hi, Hr. }
    unfold results. cbn [length replicate s_trace]. by rewrite E.
  - change (replicate (S (length (m :: q))) SReceive) with (SReceive :: replicate (S (length q)) SReceive).
    unfold results. cbn [s_trace fmap list_fmap fst snd app].
    assert (∃ c', s_step s SReceive = (on_conn k (λ c, SConn q (sc_rx c) (sc_out c) (sc_tx c) (sc_pongs c) (sc_reader c) (sc_writer c) (sc_wire c)) s, SGot m) ∧
      c' = SConn q (sc_rx c) (sc_out c) (sc_tx c) (sc_pongs c) (sc_reader c) (sc_writer c) (sc_wire c)) as (c' & E & Ec).
    { eexists. split; [|done]. cbn [s_step]. rewrite Hk. cbn [mbind option_bind]. rewrite Hc. cbn [fmap option_fmap option_map]. by rewrite Hi. }
    rewrite E. cbn [fst snd]. f_equal. apply (IH _ k c'); [done| | |].
    + cbn. rewrite list_lookup_alter, Hc. cbn. by subst c'.
    + by subst c'.
    + by subst c'.
Qed.

(** A connection that is not in use any more *)
Lemma cur_stays s o k n : st_cur s ≠ Some k → k < n → n ≤ length (st_conns s) → st_cur (s_step s o).1 ≠ Some k ∧ n ≤ length (st_conns (s_step s o).1).
Proof.
  intros Hk Hkn Hn. destruct o as [ok|ok|m| | |j f|j|j p ok]; cbn [s_step].
  - by destruct ok.
  - destruct (_ && _); cbn; [|done]. rewrite app_length, drop_cur_length. cbn. split; [intros [= E]; lia|lia].
  - destruct (st_cur s) as [j|] eqn:Ec; cbn; [|by rewrite Ec]. destruct (st_conns s !! j); cbn; [|by rewrite Ec].
    destruct (negb _); cbn; [by rewrite Ec|]. destruct (_ <? _); cbn; rewrite ?alter_length, ?Ec; done.
  - destruct (st_cur s) as [j|] eqn:Ec; cbn; [|by rewrite Ec]. destruct (st_conns s !! j) as [c|]; cbn; [|by rewrite Ec].
    destruct (sc_in c); [destruct (sc_reader c)|]; cbn; rewrite ?alter_length, ?Ec; done.
  - cbn. split; [done|]. by rewrite drop_cur_length.
  - cbn. by rewrite alter_length.
  - cbn. by rewrite alter_length.
  - cbn. by rewrite alter_length.
Qed.
Lemma left_behind os : ∀ s k n, st_cur s ≠ Some k → k < n → n ≤ length (st_conns s) → got_from k (s_trace s os) = [] ∧ sent_to k (s_trace s os) = [].
Proof.
  induction os as [|o os IH]; intros s k n Hk Hkn Hn; [done|]. cbn [s_trace].
  destruct (cur_stays s o k n Hk Hkn Hn) as [Hk' Hn']. destruct (IH _ k n Hk' Hkn Hn') as [E1 E2].
  change (?x :: ?l) with ([x] ++ l). rewrite got_from_app, sent_to_app, E1, E2, !app_nil_r.
  unfold got_from, sent_to. cbn. assert (is_cur k s = false) as -> by by apply is_cur_ne.
  generalize (s_step s o).2. intros r. destruct o, r; done.
Qed.
Lemma s_trace_app s os1 os2 : s_trace s (os1 ++ os2) = s_trace s os1 ++ s_trace (s_run s os1) os2.
Proof. revert s. induction os1 as [|o os1 IH]; intros s; [done|]. cbn [app s_trace]. by rewrite IH. Qed.
Lemma bound_step s o : (is_Some (st_cur s) → st_bound s = true) → is_Some (st_cur (s_step s o).1) → st_bound (s_step s o).1 = true.
Proof.
  intros IH. destruct o as [ok|ok|m| | |j f|j|j p ok]; cbn [s_step].
  - by destruct ok.
  - by destruct (st_bound s && ok).
  - destruct (st_cur s ≫= _) as [[j c]|]; [|done]. destruct (negb _); [done|]. by destruct (_ <? _).
  - destruct (st_cur s ≫= _) as [[j c]|]; [|done]. destruct (sc_in c); [|done]. by destruct (sc_reader c).
  - intros []. done.
  - done.
  - done.
  - done.
Qed.
Lemma bound_run os : is_Some (st_cur (s_run st_new os)) → st_bound (s_run st_new os) = true.
Proof. induction os as [|o os IH] using rev_ind; [by intros []|]. rewrite s_run_snoc. by apply bound_step. Qed.
Lemma replaced_lost os os' k o : st_cur (s_run st_new os) = Some k → (o = SClose ∨ o = SAccept true) →
  got_from k (s_trace st_new (os ++ o :: os')) = got_from k (s_trace st_new os).
Proof.
  intros Hk Ho. rewrite s_trace_app. cbn [s_trace]. change (?x :: ?l) with ([x] ++ l). rewrite !got_from_app.
  assert (got_from k [(s_run st_new os, o, (s_step (s_run st_new os) o).2)] = []) as ->.
  { apply quiet_trace. by destruct Ho as [-> | ->]. }
  destruct (cur_conn os k Hk) as [c Hc]. apply lookup_lt_Some in Hc. set (s := s_run st_new os) in *.
  assert (st_bound s = true) as Hb.
  { apply (bound_run os). by eexists. }
  assert (st_cur (s_step s o).1 ≠ Some k ∧ length (st_conns s) ≤ length (st_conns (s_step s o).1)) as [H1 H2].
  { destruct Ho as [-> | ->]; cbn [s_step]; [cbn; by rewrite drop_cur_length|].
    rewrite Hb. cbn. rewrite app_length, drop_cur_length. cbn. split; [intros [= E]; lia|lia]. }
  destruct (left_behind os' _ k _ H1 Hc H2) as [-> _]. by rewrite !app_nil_r.
Qed.

(** is_connected *)
Lemma connected_keeps os : ∀ s, SClose ∉ os → s_connected s = true → s_connected (s_run s os) = true.
Proof.
  induction os as [|o os IH]; intros s Hn Hs; [done|]. apply not_elem_of_cons in Hn as [Ho Hn].
  change (s_run s (o :: os)) with (s_run (s_step s o).1 os). apply IH; [done|]. unfold s_connected in *.
  destruct (st_cur s) as [k|] eqn:Ec; [|done]. destruct o as [ok|ok|m| | |j f|j|j p ok]; cbn [s_step].
  - by destruct ok; cbn; rewrite Ec.
  - destruct (_ && _); cbn; [done|by rewrite Ec].
  - rewrite Ec. cbn. destruct (st_conns s !! k); cbn; [|by rewrite Ec]. destruct (negb _); cbn; [by rewrite Ec|]. destruct (_ <? _); cbn; by rewrite Ec.
  - rewrite Ec. cbn. destruct (st_conns s !! k) as [c|]; cbn; [|by rewrite Ec]. destruct (sc_in c); [destruct (sc_reader c)|]; cbn; by rewrite Ec.
  - done.
  - cbn. by rewrite Ec.
  - cbn. by rewrite Ec.
  - cbn. by rewrite Ec.
Qed.
Lemma connected_iff os : s_connected (s_run st_new os) = true ↔
  ∃ os1 os2, os = os1 ++ SAccept true :: os2 ∧ st_bound (s_run st_new os1) = true ∧ SClose ∉ os2.
Proof.
  split.
  - induction os as [|o os IH] using rev_ind; [done|]. rewrite s_run_snoc. intros H.
    assert ((o = SAccept true ∧ st_bound (s_run st_new os) = true) ∨ (o ≠ SClose ∧ s_connected (s_run st_new os) = true)) as [[-> Hb]|[Ho Hs]].
    { set (s := s_run st_new os) in *. destruct o as [ok|ok|m| | |j f|j|j p ok]; cbn [s_step] in H.
      - right. split; [done|]. by destruct ok.
      - destruct (st_bound s) eqn:Eb, ok; cbn in H; [by left|by right..].
      - right. split; [done|]. unfold s_connected in *. destruct (st_cur s) as [j|] eqn:Ec; [done|]. cbn in H. by rewrite Ec in H.
      - right. split; [done|]. unfold s_connected in *. destruct (st_cur s) as [j|] eqn:Ec; [done|]. cbn in H. by rewrite Ec in H.
      - done.
      - by right.
      - by right.
      - by right. }
    + exists os, []. split; [done|]. split; [done|apply not_elem_of_nil].
    + destruct (IH Hs) as (os1 & os2 & -> & Hb & Hn). exists os1, (os2 ++ [o]). split; [by rewrite <- app_assoc|]. split; [done|].
      rewrite elem_of_app, elem_of_list_singleton. naive_solver.
  - intros (os1 & os2 & -> & Hb & Hn). rewrite s_run_app. change (s_run ?s (?o :: ?l)) with (s_run (s_step s o).1 l).
    apply connected_keeps; [done|]. cbn [s_step]. by rewrite Hb.
Qed.
(** A connection whose writer has ended writes nothing more *)
Lemma wire_fixed s o k c : st_conns s !! k = Some c → sc_writer c = false →
  ∃ c', st_conns (s_step s o).1 !! k = Some c' ∧ sc_writer c' = false ∧ sc_wire c' = sc_wire c.
Proof.
  intros Hc Hw.
  assert (∀ j g, (∀ c, sc_writer c = false → sc_writer (g c) = false ∧ sc_wire (g c) = sc_wire c) →
    ∃ c', st_conns (on_conn j g s) !! k = Some c' ∧ sc_writer c' = false ∧ sc_wire c' = sc_wire c) as Halter.
  { intros j g Hg. cbn. destruct (decide (j = k)) as [->|Hj].
    - rewrite list_lookup_alter, Hc. cbn. eexists. split; [done|]. by apply Hg.
    - rewrite list_lookup_alter_ne by done. eauto. }
  assert (∃ c', st_conns (drop_cur s) !! k = Some c' ∧ sc_writer c' = false ∧ sc_wire c' = sc_wire c) as Hdrop.
  { unfold drop_cur. destruct (st_cur s) as [j|]; [|eauto]. apply Halter. done. }
  destruct o as [ok|ok|m| | |j f|j|j p ok]; cbn [s_step].
  - destruct ok; cbn; eauto.
  - destruct (_ && _); cbn; [|eauto]. destruct Hdrop as (c' & H' & ?). exists c'. split; [|done]. by apply lookup_app_l_Some.
  - destruct (st_cur s ≫= _) as [[j c0]|]; cbn [fst]; [|eauto]. destruct (negb _); cbn [fst]; [eauto|]. destruct (_ <? _); cbn [fst]; [by apply Halter|eauto].
  - destruct (st_cur s ≫= _) as [[j c0]|]; cbn [fst]; [|eauto]. destruct (sc_in c0); [destruct (sc_reader c0); cbn [fst]; by eauto|cbn [fst]; by apply Halter].
  - exact Hdrop.
  - apply Halter. intros c0 H0. unfold read_frame, put_in, put_pong. rewrite H0.
    destruct (sc_reader c0); [|done..]. destruct f as [bs| |d|d| | |]; try done. destruct (parse_message bs); [|done]. destruct (negb _); [done|]. by destruct (_ <? _).
  - apply Halter. intros c0 H0. unfold read_again, put_in, put_pong. rewrite H0.
    destruct (sc_reader c0); try done. destruct (negb _); [done|]. by destruct (_ <? _).
  - apply Halter. intros c0 H0. unfold write_frame. by rewrite H0.
Qed.
Lemma wire_fixed_run os : ∀ s k c, st_conns s !! k = Some c → sc_writer c = false →
  ∃ c', st_conns (s_run s os) !! k = Some c' ∧ sc_writer c' = false ∧ sc_wire c' = sc_wire c.
Proof.
  induction os as [|o os IH]; intros s k c Hc Hw; [by eauto|]. change (s_run s (o :: os)) with (s_run (s_step s o).1 os).
  destruct (wire_fixed s o k c Hc Hw) as (c1 & H1 & H2 & H3). destruct (IH _ k c1 H1 H2) as (c2 & ? & ? & E). exists c2. by rewrite E, H3.
Qed.
(** What a step does to one connection, apart from the rounds of its writer *)
Lemma conn_step s o k c' : st_conns (s_step s o).1 !! k = Some c' →
  (c' = conn_new ∧ st_conns s !! k = None) ∨
  ∃ c, st_conns s !! k = Some c ∧
    ((∃ p ok, o = SWrite k p ok ∧ c' = write_frame p ok c) ∨
     (sc_writer c' = sc_writer c ∧ sc_wire c' = sc_wire c ∧ (sc_tx c = false → sc_tx c' = false) ∧ (sc_reader c = RDone → sc_reader c' = RDone))).
Proof.
  assert (∀ c, st_conns s !! k = Some c → ∃ c0, st_conns s !! k = Some c0 ∧ ((∃ p ok, o = SWrite k p ok ∧ c = write_frame p ok c0) ∨
     (sc_writer c = sc_writer c0 ∧ sc_wire c = sc_wire c0 ∧ (sc_tx c0 = false → sc_tx c = false) ∧ (sc_reader c0 = RDone → sc_reader c = RDone)))) as Hsame.
  { intros c H. exists c. split; [done|]. by right. }
  assert (∀ j g, (∀ c, sc_writer (g c) = sc_writer c ∧ sc_wire (g c) = sc_wire c ∧ (sc_tx c = false → sc_tx (g c) = false) ∧ (sc_reader c = RDone → sc_reader (g c) = RDone)) →
    st_conns (on_conn j g s) !! k = Some c' → ∃ c0, st_conns s !! k = Some c0 ∧ ((∃ p ok, o = SWrite k p ok ∧ c' = write_frame p ok c0) ∨
     (sc_writer c' = sc_writer c0 ∧ sc_wire c' = sc_wire c0 ∧ (sc_tx c0 = false → sc_tx c' = false) ∧ (sc_reader c0 = RDone → sc_reader c' = RDone)))) as Halter.
  { intros j g Hg. cbn. destruct (decide (j = k)) as [->|Hj].
    - rewrite list_lookup_alter. destruct (st_conns s !! k) as [c|] eqn:Ec; [|done]. cbn. intros [= <-]. exists c. split; [done|]. right. apply Hg.
    - rewrite list_lookup_alter_ne by done. apply Hsame. }
  assert (st_conns (drop_cur s) !! k = Some c' → ∃ c0, st_conns s !! k = Some c0 ∧ ((∃ p ok, o = SWrite k p ok ∧ c' = write_frame p ok c0) ∨
     (sc_writer c' = sc_writer c0 ∧ sc_wire c' = sc_wire c0 ∧ (sc_tx c0 = false → sc_tx c' = false) ∧ (sc_reader c0 = RDone → sc_reader c' = RDone)))) as Hdrop.
  { unfold drop_cur. destruct (st_cur s) as [j|]; [|apply Hsame]. apply Halter. done. }
  intros H. destruct o as [ok|ok|m| | |j f|j|j p ok]; cbn [s_step] in H.
  - right. apply Hsame. by destruct ok.
  - destruct (_ && _); cbn [fst st_conns] in H; [|by right; apply Hsame]. apply lookup_app_Some in H as [H|[Hl H]]; [by right; apply Hdrop|].
    left. destruct (k - length (st_conns (drop_cur s))) as [|[|]]; [|done..]. cbn in H. injection H as <-. split; [done|]. rewrite drop_cur_length in Hl. by apply lookup_ge_None.
  - right. destruct (st_cur s ≫= _) as [[j c0]|]; cbn [fst] in H; [|by apply Hsame]. destruct (negb _); cbn [fst] in H; [by apply Hsame|]. destruct (_ <? _); cbn [fst] in H; [|by apply Hsame]. revert H. by apply Halter.
  - right. destruct (st_cur s ≫= _) as [[j c0]|]; cbn [fst] in H; [|by apply Hsame]. destruct (sc_in c0); [destruct (sc_reader c0); cbn [fst] in H; by apply Hsame|]. revert H. by apply Halter.
  - right. by apply Hdrop.
  - right. revert H. apply Halter. intros c0. unfold read_frame, put_in, put_pong.
    destruct (sc_reader c0) eqn:Er; [|by rewrite Er..]. destruct f as [bs| |d|d| | |]; rewrite ?Er; try done; repeat (case_match; cbn; rewrite ?Er; try done).
  - right. revert H. apply Halter. intros c0. unfold read_again, put_in, put_pong.
    destruct (sc_reader c0) eqn:Er; rewrite ?Er; try done; repeat (case_match; cbn; rewrite ?Er; try done).
  - right. cbn in H. destruct (decide (j = k)) as [->|Hj].
    + rewrite list_lookup_alter in H. destruct (st_conns s !! k) as [c|] eqn:Ec; [|done]. cbn in H. injection H as <-. exists c. split; [done|]. left. eauto.
    + rewrite list_lookup_alter_ne in H by done. by apply Hsame.
Qed.
(** The writer ends only after a write failed, or when there is nothing left and nothing can come *)
Lemma writer_ends os k c : st_conns (s_run st_new os) !! k = Some c → sc_writer c = false → (∀ p, SWrite k p false ∉ os) →
  sc_tx c = false ∧ sc_reader c = RDone ∧ texts (sc_wire c) = serialize_message <$> sent_to k (s_trace st_new os).
Proof.
  revert c. induction os as [|o os IH] using rev_ind; intros c' Hc' Hw Hf; [done|]. rewrite s_run_snoc in Hc'. rewrite s_trace_app, sent_to_app. cbn [s_trace].
  assert (∀ p, SWrite k p false ∉ os) as Hf' by (intros p Hin; apply (Hf p); apply elem_of_app; by left).
  set (s := s_run st_new os) in *. destruct (conn_step s o k c' Hc') as [[-> _]|(c & Hc & [(p & ok & -> & ->)|(E1 & E2 & E3 & E4)])]; [done|..].
  - rewrite app_nil_r. destruct ok; [|exfalso; apply (Hf p); apply elem_of_app; right; by left]. destruct (sc_writer c) eqn:Ew.
    + destruct (server_sent os k c Hc) as [_ Hs]. specialize (Hs Ew). unfold write_frame in *. rewrite Ew in Hw |- *. cbn [negb] in *.
      assert (∀ c0, sc_writer (SConn (sc_in c) (sc_rx c) c0.1 (sc_tx c) c0.2.1 (sc_reader c) true c0.2.2) = true) as Ht by done.
      destruct p; destruct (sc_out c) as [|m out] eqn:Eo; destruct (sc_pongs c) as [|d ps] eqn:Ep; cbn [sc_writer] in Hw; try congruence;
        destruct (sc_tx c) eqn:Et; cbn [negb andb] in *; try congruence; destruct (sc_reader c) eqn:Er; cbn [sc_writer] in Hw; try congruence;
        rewrite app_nil_r in Hs; done.
    + assert (write_frame p true c = c) as -> by (unfold write_frame; by rewrite Ew). by apply IH.
  - rewrite E1 in Hw. destruct (IH c Hc Hw Hf') as (H1 & H2 & H3). split; [auto|]. split; [auto|]. rewrite E2, H3. clear Hc'.
    assert (sent_to k [(s, o, (s_step s o).2)] = []) as ->; [|by rewrite app_nil_r]. unfold sent_to. destruct o as [ok|ok|m| | |j f|j|j p ok]; try done. cbn [omap list_omap].
    destruct (is_cur k s) eqn:Ek; [|by destruct (s_step s (SSend m)).2]. unfold is_cur in Ek. destruct (st_cur s) as [j|] eqn:Ej; [|done]. apply Nat.eqb_eq in Ek. subst j.
    cbn [s_step]. rewrite Ej. cbn [mbind option_bind]. rewrite Hc. cbn [fmap option_fmap option_map]. by rewrite Hw.
Qed.

(** *** The client's transport *)
Lemma c_taken_app k a b : c_taken k (a ++ b) = c_taken k a ++ c_taken k b. Proof. apply omap_app. Qed.
Lemma c_got_from_app k a b : c_got_from k (a ++ b) = c_got_from k a ++ c_got_from k b. Proof. apply omap_app. Qed.
Lemma queued_from_app k a b : queued_from k (a ++ b) = queued_from k a ++ queued_from k b. Proof. apply omap_app. Qed.
Definition ccinv (s : ctransport) (tr : list (ctransport * cop * cres)) (k : nat) : Prop :=
  c_got_from k tr ++ queued_from k (ct_queue s) ++ match ct_conns s !! k with Some c => c_held c | None => [] end = said (c_taken k tr) ∧
  (ct_conns s !! k = None → c_taken k tr = []).
Lemma queued_same k m : queued_from k [(k, m)] = [m]. Proof. unfold queued_from. cbn. by rewrite Nat.eqb_refl. Qed.
Lemma queued_other k j m : j ≠ k → queued_from k [(j, m)] = []. Proof. intros H. unfold queued_from. cbn. by rewrite (proj2 (Nat.eqb_neq j k)). Qed.
(** The reader of connection [j] puts [m] into the channel, or waits with it *)
Lemma put_chan_self s tr k m c x : ccinv s tr k → c_got_from k [x] = [] → ct_conns s !! k = Some c →
  cc_holds c = None ∧ said (c_taken k [x]) = [m] ∨ cc_holds c = Some m ∧ c_taken k [x] = [] → ccinv (put_chan k m s) (tr ++ [x]) k.
Proof.
  intros [H1 H2] Hg Hc Hx. rewrite Hc in H1.
  assert (c_got_from k tr ++ queued_from k (ct_queue s) ++ [m] = said (c_taken k (tr ++ [x]))) as E.
  { rewrite c_taken_app, said_app. unfold c_held in H1. destruct Hx as [[Hh Ht]|[Hh Ht]]; rewrite Hh in H1; rewrite Ht, <- H1; rewrite ?app_nil_r; [by rewrite app_assoc|done]. }
  unfold put_chan, ccinv. rewrite c_got_from_app, Hg, app_nil_r, <- E.
  destruct (_ <? _); cbn [ct_queue ct_conns]; rewrite list_lookup_alter, Hc; cbn [fmap option_fmap option_map c_held cc_holds]; (split; [|done]).
  - by rewrite queued_from_app, queued_same, app_nil_r.
  - done.
Qed.
Lemma put_chan_other s tr k j m x : ccinv s tr k → c_got_from k [x] = [] → c_taken k [x] = [] → j ≠ k → ccinv (put_chan j m s) (tr ++ [x]) k.
Proof.
  intros [H1 H2] Hg Ht Hj. unfold put_chan, ccinv. rewrite c_got_from_app, c_taken_app, Hg, Ht, !app_nil_r.
  destruct (_ <? _); cbn [ct_queue ct_conns]; rewrite list_lookup_alter_ne by done; (split; [|done]); [|done].
  by rewrite queued_from_app, queued_other, app_nil_r.
Qed.
Lemma ccinv_keep s s' tr k x : ccinv s tr k → c_got_from k [x] = [] → said (c_taken k [x]) = [] → ct_queue s' = ct_queue s →
  match ct_conns s !! k, ct_conns s' !! k with
  | Some c, Some c' => c_held c' = c_held c
  | None, None => c_taken k [x] = []
  | None, Some c' => c_held c' = []
  | Some _, None => False end →
  ccinv s' (tr ++ [x]) k.
Proof.
  intros [H1 H2] Hg Ht Hq Hc. unfold ccinv. rewrite c_got_from_app, c_taken_app, said_app, Hg, Ht, !app_nil_r, Hq, <- H1.
  destruct (ct_conns s !! k) eqn:E, (ct_conns s' !! k); try done; split; try done.
  - by rewrite Hc.
  - by rewrite Hc.
  - intros _. by rewrite H2, Hc.
Qed.
Lemma on_cconn_held s k j g : (∀ c, c_held (g c) = c_held c) →
  match ct_conns s !! k, ct_conns (on_cconn j g s) !! k with Some c, Some c' => c_held c' = c_held c | None, None => True | _, _ => False end.
Proof.
  intros Hg. cbn. destruct (decide (j = k)) as [->|Hj].
  - rewrite list_lookup_alter. destruct (ct_conns s !! k); cbn; [apply Hg|done].
  - rewrite list_lookup_alter_ne by done. by destruct (ct_conns s !! k).
Qed.
Lemma same_held (s : ctransport) k : match ct_conns s !! k, ct_conns s !! k with Some c, Some c' => c_held c' = c_held c | None, None => True | None, Some c' => c_held c' = [] | _, _ => False end.
Proof. by destruct (ct_conns s !! k). Qed.
Lemma ccinv_same s s' tr k x : ccinv s tr k → c_got_from k [x] = [] → c_taken k [x] = [] → ct_queue s' = ct_queue s → ct_conns s' = ct_conns s → ccinv s' (tr ++ [x]) k.
Proof.
  intros H Hg Ht Hq Hc. apply (ccinv_keep s); [done..|by rewrite Ht|done|]. rewrite Hc. by destruct (ct_conns s !! k).
Qed.
Lemma c_step_inv s tr o k : ccinv s tr k → ccinv (c_step s o).1 (tr ++ [(s, o, (c_step s o).2)]) k.
Proof.
  intros I. destruct o as [ok|m| | |j f|j|j]; cbn [c_step].
  - destruct ok; cbn [fst snd]; [|by apply (ccinv_same s)]. apply (ccinv_keep s); try done. cbn [ct_conns].
    destruct (ct_conns s !! k) as [c|] eqn:Ec.
    + by rewrite (lookup_app_l_Some _ _ _ _ Ec).
    + apply lookup_ge_None in Ec. rewrite lookup_app_r by done. destruct (k - length (ct_conns s)); done.
  - cbn [fst snd]. by apply (ccinv_same s).
  - destruct (ct_queue s) as [|[j m] q] eqn:Eq; cbn [fst snd]; [by apply (ccinv_same s)|].
    destruct I as [H1 H2]. rewrite Eq in H1. split; cbn [ct_queue ct_conns]; rewrite c_taken_app, app_nil_r; [|done]. rewrite <- H1, c_got_from_app.
    unfold c_got_from at 2. cbn. rewrite Eq. unfold queued_from. cbn. destruct (j =? k); cbn; rewrite <- ?app_assoc, ?app_nil_r; done.
  - cbn [fst snd]. by apply (ccinv_same s).
  - cbn [fst snd].
    assert (c_got_from k [(s, CRead j f, COk)] = []) as Hg by done.
    assert (c_taken k [(s, CRead j f, COk)] = if (j =? k) && match ct_conns s !! k with Some (CConn None false _) => true | _ => false end then [f] else []) as Ht.
    { unfold c_taken. cbn. by destruct (_ && _). }
    destruct (ct_conns s !! j) as [c|] eqn:Ec.
    2:{ apply (ccinv_same s); [done..| |done|done]. rewrite Ht. destruct (Nat.eqb_spec j k) as [->|]; [|done]. by rewrite Ec. }
    destruct (decide (j = k)) as [->|Hj].
    + rewrite Nat.eqb_refl, Ec in Ht. cbn [andb] in Ht.
      destruct c as [[h|] [|] w]; cbn [cc_stopped cc_holds]; try (by apply (ccinv_same s)).
      assert (∀ g, (∀ c, cc_holds c = None → cc_holds (g c) = None) → said [f] = [] → ccinv (on_cconn k g s) (tr ++ [(s, CRead k f, COk)]) k) as Hkeep.
      { intros g Hgk Hs. apply (ccinv_keep s); [done..|by rewrite Ht|done|]. cbn. rewrite list_lookup_alter, Ec. cbn. unfold c_held. cbn. by rewrite Hgk. }
      assert (said [f] = [] → ccinv s (tr ++ [(s, CRead k f, COk)]) k) as Hself.
      { intros Hs. apply (ccinv_keep s); [done..|by rewrite Ht|done|]. by rewrite Ec. }
      destruct f as [bs| |d|d| | |]; try (by apply Hself); try (by apply Hkeep).
      unfold parse_message. destruct (of_bytes bs) as [v|] eqn:Eb; cbn [mbind option_bind].
      * destruct (message_of_json v) as [m|] eqn:Em.
        -- eapply put_chan_self; [done..|]. left. split; [done|]. rewrite Ht. unfold said. cbn. unfold parse_message. by rewrite Eb; cbn; rewrite Em.
        -- apply Hself. unfold said. cbn. unfold parse_message. by rewrite Eb; cbn; rewrite Em.
      * apply Hself. unfold said. cbn. unfold parse_message. by rewrite Eb.
    + rewrite (proj2 (Nat.eqb_neq j k)) in Ht by done. cbn [andb] in Ht.
      assert (∀ g, ccinv (on_cconn j g s) (tr ++ [(s, CRead j f, COk)]) k) as Hkeep.
      { intros g. apply (ccinv_keep s); [done..|by rewrite Ht|done|]. cbn [on_cconn ct_conns]. rewrite list_lookup_alter_ne by done. by destruct (ct_conns s !! k). }
      assert (ccinv s (tr ++ [(s, CRead j f, COk)]) k) as Hself by by apply (ccinv_same s).
      destruct (cc_stopped c); [done|]. destruct (cc_holds c); [done|]. destruct f as [bs| |d|d| | |]; try done.
      destruct (of_bytes bs); [|done]. destruct (parse_message bs); [|done]. by apply put_chan_other.
  - cbn [fst snd]. destruct (ct_conns s !! j) as [[[m|] st w]|] eqn:Ec; [|by apply (ccinv_same s)..].
    destruct (decide (j = k)) as [->|Hj]; [|by apply put_chan_other]. eapply put_chan_self; [done..|]. by right.
  - cbn [fst snd]. apply (ccinv_keep s); try done.
    pose proof (on_cconn_held s k j (λ c, CConn (cc_holds c) (cc_stopped c) (cc_wire c ++ [FPing []])) ltac:(done)) as H.
    by destruct (ct_conns s !! k), (ct_conns (on_cconn _ _ _) !! k).
Qed.
Lemma client_received os k : ccinv (c_run ct_new os) (c_trace ct_new os) k.
Proof. induction os as [|o os IH] using rev_ind; [done|]. rewrite c_run_snoc, c_trace_snoc. by apply c_step_inv. Qed.

(** *** Connecting *)
Lemma backoff_next d cap i : N.min (backoff d cap i * 2) cap = backoff d cap (S i).
Proof.
  unfold backoff. destruct i as [|i]; [done|]. replace (N.of_nat (S (S i))) with (N.succ (N.of_nat (S i))) by lia.
  rewrite N.pow_succ_r'. set (x := (2 ^ N.of_nat (S i))%N). clearbody x. lia.
Qed.
Lemma backoff_bound d cap i : (backoff d cap i ≤ N.max d cap)%N.
Proof. unfold backoff. destruct i; lia. Qed.
Lemma connect_loop_spec fuel outcome limit d cap : ∀ a r n ws, (∀ i, i < a → outcome i = false) → (∀ max, limit = Some max → a < Nat.max 1 max) →
  connect_loop fuel outcome limit cap (backoff d cap a) a (backoff d cap <$> seq 0 a) = Some (r, n, ws) →
  a < n ∧ (∀ i, S i < n → outcome i = false) ∧ (∀ max, limit = Some max → n ≤ Nat.max 1 max) ∧
  match r with
  | Connected => outcome (n - 1) = true ∧ ws = backoff d cap <$> seq 0 (n - 1)
  | GaveUp => outcome (n - 1) = false ∧ (∃ max, limit = Some max ∧ n = Nat.max 1 max) ∧ ws = backoff d cap <$> seq 0 (n - 1)
  | RetryPanic => outcome (n - 1) = false ∧ (dur_max < 2 * N.max d cap)%N ∧ ws = backoff d cap <$> seq 0 n
  end.
Proof.
  induction fuel as [|fuel IH]; intros a r n ws Ha Hl; [done|]. cbn [connect_loop].
  destruct (outcome a) eqn:Eo.
  { intros [= <- <- <-]. replace (S a - 1) with a by lia. split; [lia|]. split; [intros i Hi; apply Ha; lia|]. split; [|done].
    intros max Hm. specialize (Hl max Hm). lia. }
  assert (∀ i, i < S a → outcome i = false) as Ha'. { intros i Hi. destruct (decide (i = a)) as [->|]; [done|apply Ha; lia]. }
  assert (backoff d cap <$> seq 0 (S a) = (backoff d cap <$> seq 0 a) ++ [backoff d cap a]) as Eseq.
  { rewrite seq_S, fmap_app. done. }
  destruct limit as [max|].
  - specialize (Hl max eq_refl). destruct (Nat.leb_spec max (S a)) as [Hm|Hm].
    { intros [= <- <- <-]. replace (S a - 1) with a by lia. split; [lia|]. split; [intros i Hi; apply Ha'; lia|]. split; [intros ? [= <-]; lia|].
      split; [done|]. split; [|done]. exists max. split; [done|lia]. }
    destruct (N.ltb_spec dur_max (backoff d cap a * 2)) as [Hp|Hp].
    { intros [= <- <- <-]. replace (S a - 1) with a by lia. split; [lia|]. split; [intros i Hi; apply Ha'; lia|]. split; [intros ? [= <-]; lia|].
      split; [done|]. split; [pose proof (backoff_bound d cap a); lia|]. by rewrite Eseq. }
    rewrite backoff_next, <- Eseq. intros H. apply IH in H as (H1 & H2 & H3 & H4); [|done|intros ? [= <-]; lia]. split; [lia|]. done.
  - destruct (N.ltb_spec dur_max (backoff d cap a * 2)) as [Hp|Hp].
    { intros [= <- <- <-]. replace (S a - 1) with a by lia. split; [lia|]. split; [intros i Hi; apply Ha'; lia|]. split; [done|].
      split; [done|]. split; [pose proof (backoff_bound d cap a); lia|]. by rewrite Eseq. }
    rewrite backoff_next, <- Eseq. intros H. apply IH in H as (H1 & H2 & H3 & H4); [|done|done]. split; [lia|]. done.
Qed.
Lemma connect_spec fuel outcome limit d cap r n ws : connect fuel outcome limit d cap = Some (r, n, ws) →
  1 ≤ n ∧ (∀ i, S i < n → outcome i = false) ∧ (∀ max, limit = Some max → n ≤ Nat.max 1 max) ∧
  match r with
  | Connected => outcome (n - 1) = true ∧ ws = backoff d cap <$> seq 0 (n - 1)
  | GaveUp => outcome (n - 1) = false ∧ (∃ max, limit = Some max ∧ n = Nat.max 1 max) ∧ ws = backoff d cap <$> seq 0 (n - 1)
  | RetryPanic => outcome (n - 1) = false ∧ (dur_max < 2 * N.max d cap)%N ∧ ws = backoff d cap <$> seq 0 n
  end.
Proof. intros H. apply (connect_loop_spec fuel outcome limit d cap 0) in H; [done|intros; lia|intros; lia]. Qed.
Lemma connect_loop_ends fuel outcome limit cap : ∀ delay a ws, (∃ n, a ≤ n < a + fuel ∧ (outcome n = true ∨ ∃ max, limit = Some max ∧ max ≤ S n)) →
  is_Some (connect_loop fuel outcome limit cap delay a ws).
Proof.
  induction fuel as [|fuel IH]; intros delay a ws (n & Hn & He); [lia|]. cbn [connect_loop].
  destruct (outcome a) eqn:Eo; [by eexists|].
  destruct (match limit with Some max => max <=? S a | None => false end) eqn:El; [by eexists|].
  destruct (_ <? _)%N; [by eexists|]. apply IH. exists n. split; [|done]. destruct (decide (n = a)) as [->|]; [|lia].
  destruct He as [He|(max & -> & He)]; [congruence|]. apply Nat.leb_gt in El. lia.
Qed.

(** *** From the server to the client *)
Lemma said_texts fs : said fs = omap parse_message (texts fs).
Proof. unfold said, texts. induction fs as [|f fs IH]; [done|]. cbn. destruct f; cbn; try done. destruct (parse_message bs); by rewrite <- IH. Qed.
Lemma parsed_back ms : Forall (λ m, parse_message (serialize_message m) = Some (msg_seen_as m)) ms → omap parse_message (serialize_message <$> ms) = msg_seen_as <$> ms.
Proof. induction 1 as [|m ms Hm _ IH]; [done|]. cbn. by rewrite Hm, IH. Qed.
Lemma across sos cos k j c : st_conns (s_run st_new sos) !! k = Some c →
  Forall (λ m, good_message m ∧ not_elicitation m ∧ storable (message_json m)) (sent_to k (s_trace st_new sos)) →
  texts (c_taken j (c_trace ct_new cos)) `prefix_of` texts (sc_wire c) →
  c_got_from j (c_trace ct_new cos) ++ queued_from j (ct_queue (c_run ct_new cos)) ++ match ct_conns (c_run ct_new cos) !! j with Some c => c_held c | None => [] end
    = msg_seen_as <$> take (length (texts (c_taken j (c_trace ct_new cos)))) (sent_to k (s_trace st_new sos)).
Proof.
  intros Hc Hs [w Hw]. destruct (client_received cos j) as [-> _]. rewrite said_texts. set (ts := texts (c_taken _ _)) in *.
  destruct (server_sent sos k c Hc) as [[r Hr] _]. set (ms := sent_to k _) in *.
  assert (ts = serialize_message <$> take (length ts) ms) as E.
  { rewrite <- firstn_map. change (map serialize_message ms) with (serialize_message <$> ms). by rewrite Hr, Hw, <- app_assoc, take_app. }
  rewrite E at 1. apply parsed_back. apply Forall_take. eapply Forall_impl; [exact Hs|]. intros m (H1 & H2 & H3). by apply message_bytes.
Qed.
