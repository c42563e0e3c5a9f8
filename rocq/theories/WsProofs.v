(** Lemmas for the WebSocket transports. *)
From stdpp Require Import list.
From Verif Require Import ListLib TextLib JsonLib RpcModel RpcSpec WsModel WsSpec.

Global Arguments said : simpl never.
Global Arguments pings : simpl never.
Global Arguments pongs : simpl never.
Global Arguments texts : simpl never.
Global Arguments serialize_message : simpl never.
Global Arguments parse_message : simpl never.
Global Arguments Nat.ltb : simpl never.

(** *** Histories *)
Lemma s_run_snoc s os o : s_run s (os ++ [o]) = (s_step (s_run s os) o).1.
Proof. unfold s_run. by rewrite foldl_snoc. Qed.
Lemma s_run_app s os1 os2 : s_run s (os1 ++ os2) = s_run (s_run s os1) os2.
Proof. unfold s_run. by rewrite foldl_app. Qed.
Lemma s_trace_snoc s os o : s_trace s (os ++ [o]) = s_trace s os ++ [(s_run s os, o, (s_step (s_run s os) o).2)].
Proof. revert s. induction os as [|x os IH]; intros s; [done|]. cbn [app s_trace]. by rewrite IH. Qed.
Lemma c_run_snoc s os o : c_run s (os ++ [o]) = (c_step (c_run s os) o).1.
Proof. unfold c_run. by rewrite foldl_snoc. Qed.
Lemma c_trace_snoc s os o : c_trace s (os ++ [o]) = c_trace s os ++ [(c_run s os, o, (c_step (c_run s os) o).2)].
Proof. revert s. induction os as [|x os IH]; intros s; [done|]. cbn [app c_trace]. by rewrite IH. Qed.

Lemma said_app a b : said (a ++ b) = said a ++ said b. Proof. apply omap_app. Qed.
Lemma pings_app a b : pings (a ++ b) = pings a ++ pings b. Proof. apply omap_app. Qed.
Lemma pongs_app a b : pongs (a ++ b) = pongs a ++ pongs b. Proof. apply omap_app. Qed.
Lemma texts_app a b : texts (a ++ b) = texts a ++ texts b. Proof. apply omap_app. Qed.
Lemma texts_text b : texts [FText b] = [b]. Proof. done. Qed.
Lemma texts_pong d : texts [FPong d] = []. Proof. done. Qed.
Lemma pongs_text b : pongs [FText b] = []. Proof. done. Qed.
Lemma pongs_pong d : pongs [FPong d] = [d]. Proof. done. Qed.
Lemma got_from_app k a b : got_from k (a ++ b) = got_from k a ++ got_from k b. Proof. apply omap_app. Qed.
Lemma sent_to_app k a b : sent_to k (a ++ b) = sent_to k a ++ sent_to k b. Proof. apply omap_app. Qed.
Lemma taken_by_app k a b : taken_by k (a ++ b) = taken_by k a ++ taken_by k b. Proof. apply omap_app. Qed.

(** *** The invariant of one connection of the server *)
Definition cinv (cur : bool) (got : list message) (taken : list frame) (sent : list message) (c : sconn) : Prop :=
  sc_rx c = cur ∧ sc_tx c = cur ∧
  got `prefix_of` said taken ∧ (cur = true → got ++ sc_in c ++ held_msg c = said taken) ∧
  texts (sc_wire c) `prefix_of` (serialize_message <$> sent) ∧ (sc_writer c = true → texts (sc_wire c) ++ (serialize_message <$> sc_out c) = serialize_message <$> sent) ∧
  pongs (sc_wire c) `prefix_of` pings taken ∧ (sc_writer c = true → pongs (sc_wire c) ++ sc_pongs c ++ held_pong c = pings taken).

Lemma put_in_inv cur got taken sent m c taken' : cinv cur got taken sent c → held_msg c = [] → held_pong c = [] →
  said taken' = said taken ++ [m] → pings taken' = pings taken → cinv cur got taken' sent (put_in m c).
Proof.
  intros (H1 & H2 & H3 & H4 & H5 & H6 & H7 & H8) Hm Hp Es Ep. unfold put_in.
  rewrite Hm in H4. rewrite Hp in H8. rewrite app_nil_r in H4. rewrite app_nil_r in H8.
  destruct (sc_rx c) eqn:Er; cbn [negb].
  - destruct (_ <? _); split_and!; cbn; try done; rewrite ?Es, ?Ep; try done.
    + by apply prefix_app_r.
    + intros E. rewrite app_nil_r, app_assoc, H4 by done. done.
    + intros E. rewrite app_nil_r. by apply H8.
    + by apply prefix_app_r.
    + intros E. by rewrite app_assoc, H4.
    + intros E. rewrite app_nil_r. by apply H8.
  - subst cur. split_and!; cbn; try done; rewrite ?Es, ?Ep; try done; [by apply prefix_app_r|].
    intros E. rewrite app_nil_r. by apply H8.
Qed.
Lemma put_pong_inv cur got taken sent d c taken' : cinv cur got taken sent c → held_msg c = [] → held_pong c = [] →
  said taken' = said taken → pings taken' = pings taken ++ [d] → cinv cur got taken' sent (put_pong d c).
Proof.
  intros (H1 & H2 & H3 & H4 & H5 & H6 & H7 & H8) Hm Hp Es Ep. unfold put_pong.
  rewrite Hm in H4. rewrite Hp in H8. rewrite app_nil_r in H4. rewrite app_nil_r in H8.
  destruct (sc_writer c) eqn:Er; cbn [negb].
  - destruct (_ <? _); split_and!; cbn; try done; rewrite ?Es, ?Ep; try done.
    + intros E. rewrite app_nil_r. by apply H4.
    + by apply prefix_app_r.
    + intros E. rewrite app_nil_r, app_assoc, H8 by done. done.
    + intros E. rewrite app_nil_r. by apply H4.
    + by apply prefix_app_r.
    + intros E. by rewrite app_assoc, H8.
  - split_and!; cbn; try done; rewrite ?Es, ?Ep; try done; [|by apply prefix_app_r].
    intros E. rewrite app_nil_r. by apply H4.
Qed.
(** A frame that says nothing changes nothing but what has been read *)
Lemma cinv_taken cur got taken sent c taken' : cinv cur got taken sent c → said taken' = said taken → pings taken' = pings taken → cinv cur got taken' sent c.
Proof. intros (H1 & H2 & H3 & H4 & H5 & H6 & H7 & H8) Es Ep. split_and!; rewrite ?Es, ?Ep; done. Qed.
Lemma cinv_done cur got taken sent c : cinv cur got taken sent c → held_msg c = [] → held_pong c = [] → cinv cur got taken sent (set_reader RDone c).
Proof.
  intros (H1 & H2 & H3 & H4 & H5 & H6 & H7 & H8) Hm Hp. rewrite Hm in H4. rewrite Hp in H8. split_and!; done.
Qed.
Lemma read_frame_inv cur got taken sent c f : cinv cur got taken sent c →
  cinv cur got (taken ++ match sc_reader c with RIdle => [f] | _ => [] end) sent (read_frame f c).
Proof.
  intros H. unfold read_frame. destruct (sc_reader c) eqn:Er; rewrite ?app_nil_r; try done.
  assert (held_msg c = []) as Hm by (unfold held_msg; by rewrite Er). assert (held_pong c = []) as Hp by (unfold held_pong; by rewrite Er).
  destruct f as [bs| |d|d| | |].
  - destruct (parse_message bs) as [m|] eqn:Em.
    + eapply put_in_inv; try done; rewrite ?said_app, ?pings_app; [unfold said at 2; cbn; by rewrite Em|unfold pings at 2; cbn; by rewrite app_nil_r].
    + eapply cinv_taken; try done; rewrite ?said_app, ?pings_app; [unfold said at 2; cbn; rewrite Em; by rewrite app_nil_r|unfold pings at 2; cbn; by rewrite app_nil_r].
  - eapply cinv_taken; try done; rewrite ?said_app, ?pings_app; [unfold said at 2|unfold pings at 2]; cbn; by rewrite app_nil_r.
  - eapply put_pong_inv; try done; rewrite ?said_app, ?pings_app; [unfold said at 2; cbn; by rewrite app_nil_r|done].
  - eapply cinv_taken; try done; rewrite ?said_app, ?pings_app; [unfold said at 2|unfold pings at 2]; cbn; by rewrite app_nil_r.
  - apply cinv_done; try done. eapply cinv_taken; try done; rewrite ?said_app, ?pings_app; [unfold said at 2|unfold pings at 2]; cbn; by rewrite app_nil_r.
  - apply cinv_done; try done. eapply cinv_taken; try done; rewrite ?said_app, ?pings_app; [unfold said at 2|unfold pings at 2]; cbn; by rewrite app_nil_r.
  - apply cinv_done; try done. eapply cinv_taken; try done; rewrite ?said_app, ?pings_app; [unfold said at 2|unfold pings at 2]; cbn; by rewrite app_nil_r.
Qed.
Lemma read_again_inv cur got taken sent c : cinv cur got taken sent c → cinv cur got taken sent (read_again c).
Proof.
  intros (H1 & H2 & H3 & H4 & H5 & H6 & H7 & H8). unfold read_again.
  destruct (sc_reader c) as [|m|d|] eqn:Er; [by split_and!| | |by split_and!].
  - assert (held_msg c = [m]) as Hm by (unfold held_msg; by rewrite Er). assert (held_pong c = []) as Hp by (unfold held_pong; by rewrite Er).
    rewrite Hm in H4. rewrite Hp in H8. unfold put_in. destruct (sc_rx c) eqn:Ex; cbn [negb].
    + destruct (_ <? _); split_and!; cbn; try done. intros E. rewrite app_nil_r. by apply H4.
    + subst cur. split_and!; cbn; done.
  - assert (held_msg c = []) as Hm by (unfold held_msg; by rewrite Er). assert (held_pong c = [d]) as Hp by (unfold held_pong; by rewrite Er).
    rewrite Hm in H4. rewrite Hp in H8. unfold put_pong. destruct (sc_writer c) eqn:Ex; cbn [negb].
    + destruct (_ <? _); split_and!; cbn; try done. intros E. rewrite app_nil_r. by apply H8.
    + split_and!; cbn; done.
Qed.
Lemma write_frame_inv cur got taken sent c p ok : cinv cur got taken sent c → cinv cur got taken sent (write_frame p ok c).
Proof.
  intros (H1 & H2 & H3 & H4 & H5 & H6 & H7 & H8). unfold write_frame.
  destruct (sc_writer c) eqn:Ew; cbn [negb]; [|by split_and!; rewrite ?Ew].
  specialize (H6 eq_refl). specialize (H8 eq_refl).
  destruct p, (sc_out c) as [|m out] eqn:Eo, (sc_pongs c) as [|d q] eqn:Eq; try destruct (_ && _); try destruct ok;
    split_and!; cbn; rewrite ?Ew, ?Eo, ?Eq; try done.
  all: rewrite ?texts_app, ?pongs_app, ?texts_text, ?texts_pong, ?pongs_text, ?pongs_pong, ?app_nil_r; try done.
  all: try (intros _; rewrite <- app_assoc; cbn; done).
  all: try (rewrite <- H8; rewrite (app_assoc _ _ (held_pong c)); apply prefix_app_r; by apply prefix_app, prefix_cons, prefix_nil).
  all: cbn in H6; try (rewrite <- H6; by apply prefix_app, prefix_cons, prefix_nil).
  all: intros _; by rewrite app_nil_r in H6.
Qed.
(** *** The invariant of the server's transport *)
Definition winv (s : stransport) (tr : list (stransport * sop * sres)) : Prop :=
  (∀ k c, st_conns s !! k = Some c → cinv (is_cur k s) (got_from k tr) (taken_by k tr) (sent_to k tr) c) ∧
  (∀ k, st_conns s !! k = None → got_from k tr = [] ∧ taken_by k tr = [] ∧ sent_to k tr = []) ∧
  (∀ k, st_cur s = Some k → is_Some (st_conns s !! k)).
Lemma is_cur_eq k s : is_cur k s = true ↔ st_cur s = Some k.
Proof.
  unfold is_cur. destruct (st_cur s) as [j|]; [|done]. rewrite Nat.eqb_eq. split; [by intros ->|by intros [= ->]].
Qed.
Lemma is_cur_ne k s : is_cur k s = false ↔ st_cur s ≠ Some k.
Proof. rewrite <- is_cur_eq. by destruct (is_cur k s). Qed.
Lemma dropped_inv cur got taken sent c : cinv cur got taken sent c → cinv false got taken sent (dropped c).
Proof. intros (H1 & H2 & H3 & H4 & H5 & H6 & H7 & H8). split_and!; done. Qed.
Lemma drop_cur_conns s k c : st_conns (drop_cur s) !! k = Some c →
  ∃ c0, st_conns s !! k = Some c0 ∧ c = if is_cur k s then dropped c0 else c0.
Proof.
  unfold drop_cur, is_cur. destruct (st_cur s) as [j|]; [|eauto]. cbn [st_conns on_conn]. intros H.
  destruct (Nat.eqb_spec j k) as [->|Hn].
  - rewrite list_lookup_alter in H. destruct (st_conns s !! k) as [c0|]; [|done]. exists c0. split; [done|]. by cbn in H; simplify_eq.
  - rewrite list_lookup_alter_ne in H by done. eauto.
Qed.
Lemma drop_cur_length s : length (st_conns (drop_cur s)) = length (st_conns s).
Proof. unfold drop_cur. destruct (st_cur s); [|done]. cbn. apply alter_length. Qed.
Lemma dropped_all_inv s tr : winv s tr → ∀ k c, st_conns (drop_cur s) !! k = Some c → cinv false (got_from k tr) (taken_by k tr) (sent_to k tr) c.
Proof.
  intros (I1 & _ & _) k c Hc. destruct (drop_cur_conns s k c Hc) as (c0 & H0 & ->). specialize (I1 k c0 H0).
  destruct (is_cur k s); [by eapply dropped_inv|done].
Qed.
(** What one step adds to the histories of a connection *)
Definition quiet_op (x : stransport * sop * sres) : Prop :=
  match x with (_, SReceive, SGot _) | (_, SSend _, SOk) | (_, SRead _ _, _) => False | _ => True end.
Lemma quiet_trace k x : quiet_op x → got_from k [x] = [] ∧ taken_by k [x] = [] ∧ sent_to k [x] = [].
Proof. destruct x as [[s o] r]. destruct o, r; done. Qed.
Lemma winv_trace s tr x : winv s tr → quiet_op x → winv s (tr ++ [x]).
Proof.
  intros (I1 & I2 & I3) Hq. split_and!; [| |done].
  - intros k c Hc. destruct (quiet_trace k x Hq) as (E1 & E2 & E3). rewrite got_from_app, taken_by_app, sent_to_app, E1, E2, E3, !app_nil_r. by apply I1.
  - intros k Hc. destruct (quiet_trace k x Hq) as (E1 & E2 & E3). rewrite got_from_app, taken_by_app, sent_to_app, E1, E2, E3, !app_nil_r. by apply I2.
Qed.
(** A task of connection [k] works on it *)
Lemma winv_alter s tr x k f : winv s tr →
  (∀ j, j ≠ k → got_from j [x] = [] ∧ taken_by j [x] = [] ∧ sent_to j [x] = []) →
  (∀ c, st_conns s !! k = Some c → cinv (is_cur k s) (got_from k tr) (taken_by k tr) (sent_to k tr) c →
     cinv (is_cur k s) (got_from k (tr ++ [x])) (taken_by k (tr ++ [x])) (sent_to k (tr ++ [x])) (f c)) →
  (st_conns s !! k = None → got_from k [x] = [] ∧ taken_by k [x] = [] ∧ sent_to k [x] = []) →
  winv (on_conn k f s) (tr ++ [x]).
Proof.
  intros (I1 & I2 & I3) Ho Hk Hn. split_and!; cbn [on_conn st_conns st_cur].
  - intros j c Hc. change (is_cur j (on_conn k f s)) with (is_cur j s). destruct (decide (j = k)) as [->|Hj].
    + rewrite list_lookup_alter in Hc. destruct (st_conns s !! k) as [c0|] eqn:E0; [|done]. cbn in Hc. simplify_eq. apply Hk; [done|]. by apply I1.
    + rewrite list_lookup_alter_ne in Hc by done. destruct (Ho j Hj) as (E1 & E2 & E3).
      rewrite got_from_app, taken_by_app, sent_to_app, E1, E2, E3, !app_nil_r. by apply I1.
  - intros j Hc. destruct (decide (j = k)) as [->|Hj].
    + rewrite list_lookup_alter in Hc. destruct (st_conns s !! k) as [c0|] eqn:E0; [done|]. destruct (Hn eq_refl) as (E1 & E2 & E3).
      rewrite got_from_app, taken_by_app, sent_to_app, E1, E2, E3, !app_nil_r. by apply I2.
    + rewrite list_lookup_alter_ne in Hc by done. destruct (Ho j Hj) as (E1 & E2 & E3).
      rewrite got_from_app, taken_by_app, sent_to_app, E1, E2, E3, !app_nil_r. by apply I2.
  - intros j Hj. destruct (I3 j Hj) as [c Hc]. destruct (decide (j = k)) as [->|Hjk].
    + rewrite list_lookup_alter, Hc. by eexists.
    + rewrite list_lookup_alter_ne by done. eauto.
Qed.
Lemma s_step_inv s tr o : winv s tr → winv (s_step s o).1 (tr ++ [(s, o, (s_step s o).2)]).
Proof.
  intros I. pose proof I as (I1 & I2 & I3). destruct o as [ok|ok|m| | |k f|k|k p ok]; cbn [s_step].
  - destruct ok; cbn [fst snd]; apply winv_trace; done.
  - destruct (st_bound s && ok); cbn [fst snd]; [|by apply winv_trace].
    apply (winv_trace (STransport true (st_conns (drop_cur s) ++ [conn_new]) (Some (length (st_conns (drop_cur s)))))); [|done].
    assert (st_conns s !! length (st_conns s) = None) as Hnew by (apply lookup_ge_None; lia).
    split_and!; cbn [st_conns st_cur].
    + intros k c Hc. apply lookup_app_Some in Hc as [Hc|[Hk Hc]].
      * replace (is_cur k _) with false; [by apply (dropped_all_inv s)|].
        symmetry. apply is_cur_ne. cbn. intros [= <-]. apply lookup_lt_Some in Hc. lia.
      * rewrite drop_cur_length in Hk, Hc. apply list_lookup_singleton_Some in Hc as [Hz <-]. assert (k = length (st_conns s)) as -> by lia.
        replace (is_cur _ _) with true by (symmetry; apply is_cur_eq; cbn; by rewrite drop_cur_length).
        destruct (I2 _ Hnew) as (-> & -> & ->). by split_and!.
    + intros k Hk. apply lookup_ge_None in Hk. rewrite app_length, drop_cur_length in Hk. apply I2, lookup_ge_None. lia.
    + intros k [= <-]. rewrite lookup_app_r by lia. rewrite Nat.sub_diag. by eexists.
  - destruct (st_cur s) as [k|] eqn:Ec; cbn [mbind option_bind fst snd]; [|by apply winv_trace].
    destruct (I3 k eq_refl) as [c Hc]. rewrite Hc. cbn [fmap option_fmap option_map].
    destruct (sc_writer c) eqn:Ew; cbn [negb fst snd]; [|by apply winv_trace]. destruct (_ <? _); cbn [fst snd]; [|by apply winv_trace].
    assert (is_cur k s = true) as Hcur by by apply is_cur_eq.
    apply winv_alter; try done.
    + intros j Hj. unfold sent_to. cbn. assert (is_cur j s = false) as -> by (apply is_cur_ne; congruence). done.
    + intros c' Hc' H. rewrite Hc in Hc'. simplify_eq. rewrite got_from_app, taken_by_app, sent_to_app. unfold sent_to at 2. cbn. rewrite Hcur, !app_nil_r.
      rewrite Hcur in H. destruct H as (H1 & H2 & H3 & H4 & H5 & H6 & H7 & H8). split_and!; cbn; rewrite ?fmap_app; try done; [by apply prefix_app_r|].
      intros _. rewrite app_assoc. by rewrite H6.
    + intros H. by rewrite H in Hc.
  - destruct (st_cur s) as [k|] eqn:Ec; cbn [mbind option_bind fst snd]; [|by apply winv_trace].
    destruct (I3 k eq_refl) as [c Hc]. rewrite Hc. cbn [fmap option_fmap option_map].
    destruct (sc_in c) as [|m q] eqn:Ei; [by destruct (sc_reader c); cbn [fst snd]; apply winv_trace|]. cbn [fst snd].
    assert (is_cur k s = true) as Hcur by by apply is_cur_eq.
    apply winv_alter; try done.
    + intros j Hj. unfold got_from. cbn. assert (is_cur j s = false) as -> by (apply is_cur_ne; congruence). done.
    + intros c' Hc' H. rewrite Hc in Hc'. simplify_eq. rewrite got_from_app, taken_by_app, sent_to_app. unfold got_from at 2. cbn. rewrite Hcur, !app_nil_r.
      rewrite Hcur in H. destruct H as (H1 & H2 & H3 & H4 & H5 & H6 & H7 & H8). specialize (H4 eq_refl). rewrite Ei in H4. split_and!; cbn; try done.
      * rewrite <- H4. by apply prefix_app, prefix_cons, prefix_nil.
      * intros _. rewrite <- H4, <- app_assoc. done.
    + intros H. by rewrite H in Hc.
  - cbn [fst snd]. apply (winv_trace (STransport (st_bound (drop_cur s)) (st_conns (drop_cur s)) None)); [|done]. split_and!; cbn [st_conns st_cur].
    + intros k c Hc. by apply (dropped_all_inv s).
    + intros k Hk. apply lookup_ge_None in Hk. rewrite drop_cur_length in Hk. by apply I2, lookup_ge_None.
    + done.
  - cbn [fst snd]. apply winv_alter; try done.
    + intros j Hj. unfold taken_by. cbn. assert ((k =? j) = false) as -> by (apply Nat.eqb_neq; congruence). done.
    + intros c Hc H. rewrite got_from_app, taken_by_app, sent_to_app. unfold taken_by at 2. cbn. rewrite Nat.eqb_refl, Hc, !app_nil_r. cbn.
      destruct (sc_reader c) eqn:Er; (replace (read_frame f c) with (read_frame f c) by done); pose proof (read_frame_inv _ _ _ _ c f H) as R; rewrite Er in R; exact R.
    + intros Hc. unfold taken_by. cbn. rewrite Nat.eqb_refl, Hc. done.
  - cbn [fst snd]. apply winv_alter; try done. intros c Hc H. rewrite got_from_app, taken_by_app, sent_to_app. cbn. rewrite !app_nil_r. by apply read_again_inv.
  - cbn [fst snd]. apply winv_alter; try done. intros c Hc H. rewrite got_from_app, taken_by_app, sent_to_app. cbn. rewrite !app_nil_r. by apply write_frame_inv.
Qed.
Lemma s_run_inv os : winv (s_run st_new os) (s_trace st_new os).
Proof.
  induction os as [|o os IH] using rev_ind; [by split_and!|]. rewrite s_run_snoc, s_trace_snoc. by apply s_step_inv.
Qed.
