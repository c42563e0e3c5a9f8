(** C234, C235: keep-alive pings of a WebSocket client, and what is done about a lost connection. *)
From stdpp Require Import list sets.
From Coq Require Import NArith ZifyBool.
From Verif Require Import TextLib JsonLib SerdeLib TypesModel RpcModel StdioModel WsModel WsKeepModel WsKeepSpec.

(** ** C234: keep-alive *)
Lemma k_snoc p os o : k_run p (os ++ [o]) = k_step p (k_run p os) o.
Proof. unfold k_run. by rewrite fold_left_app. Qed.
Lemma elapsed_snoc os o : elapsed (os ++ [o]) = (elapsed os + passed o)%N.
Proof. unfold elapsed. rewrite fmap_app, foldr_app. cbn. rewrite N.add_0_r. generalize (passed o). induction (passed <$> os) as [|x l IH]; intros y; cbn; [lia|]. rewrite IH. lia. Qed.
(** The invariant: pings written, queued or held are the ticks; ticks were due. *)
Record kinv (p : N) (os : list kop) (s : keep) : Prop := {
  ki_now : kp_now s = elapsed os;
  ki_due : (kp_ticks s = 0 ∨ (kp_ticks s - 1) * p ≤ kp_now s)%N;
  ki_all : kp_writer s = true → kp_task s ≠ Ended ∧ (kp_ticks s = pings s + N.of_nat (kp_queue s) + match kp_task s with Waiting => 1 | _ => 0 end)%N;
  ki_cap : (kp_queue s ≤ wchan_cap)%nat ∧ (kp_task s = Waiting → (0 < kp_ticks s)%N);
  ki_le : (pings s ≤ kp_ticks s)%N;
  ki_at : ∀ i t, kp_out s !! i = Some t → (N.of_nat i * p ≤ t ∧ t ≤ kp_now s)%N;
  ki_ok : no_failure os → kp_writer s = true }.
Lemma kinv_put p os s t : (0 < t)%N → kinv p os s → ((t - 1) * p ≤ kp_now s)%N → (kp_writer s = true → (t = pings s + N.of_nat (kp_queue s) + 1)%N) → (kp_ticks s ≤ t)%N → kinv p os (put_ping t s).
Proof.
  intros Ht [H1 H2 H3 H4 H5 H6 H7] Hd Ha Hle. unfold put_ping. destruct (kp_writer s) eqn:Ew; [destruct (kp_queue s <? wchan_cap)%nat eqn:Eq|]; split; unfold pings in *; cbn [kp_now kp_ticks kp_task kp_queue kp_writer kp_out] in *; try done; try lia.
  - intros _. specialize (Ha eq_refl). split; [done|lia].
  - intros _. specialize (Ha eq_refl). split; [done|lia].
Qed.
Lemma kinv_run p os : (0 < p)%N → kinv p os (k_run (Some p) os).
Proof.
  intros Hp. induction os as [|o os IH] using rev_ind.
  { unfold k_run. cbn [fold_left]. destruct p as [|p]; [lia|]. split; unfold pings; cbn; try done; try lia. all: intros; repeat split; try done; try lia. }
  rewrite k_snoc. assert (kinv p (os ++ [o]) (k_step (Some p) (k_run (Some p) os) (KPass (passed o))) ∧ o ≠ KWrite false ∨ o = KWrite false) as [[I Hne]| ->].
  { destruct (decide (o = KWrite false)) as [->|Hne]; [by right|left]. split; [|done]. destruct IH as [H1 H2 H3 H4 H5 H6 H7]. split; unfold pings in *; cbn [k_step kp_now kp_ticks kp_task kp_queue kp_writer kp_out] in *; try done.
    - rewrite elapsed_snoc. lia.
    - lia.
    - intros i t Hi. apply H6 in Hi. lia.
    - intros Hn. apply H7. unfold no_failure in *. set_solver. }
  2: { destruct IH as [H1 H2 H3 H4 H5 H6 H7]. cbn [k_step]. destruct (kp_writer (k_run (Some p) os)) eqn:Ew; [destruct (kp_queue (k_run (Some p) os)) as [|q] eqn:Eq|].
    all: split; unfold pings in *; rewrite ?elapsed_snoc; cbn [kp_now kp_ticks kp_task kp_queue kp_writer kp_out passed] in *; rewrite ?N.add_0_r; rewrite ?Ew, ?Eq; try done; try lia.
    all: try (intros Hn; exfalso; apply Hn; set_solver).
    all: try (intros i t Hi; by apply H6 in Hi). }
  destruct o as [d| |[]| |]; try done; clear IH Hne; set (s := k_run (Some p) os) in *.
  all: replace (k_step (Some p) s (KPass (passed _))) with s in I by (destruct s; cbn; by rewrite N.add_0_r).
  - cbn [k_step]. destruct (kp_task s) eqn:Et; [| |done].
    + destruct (kp_ticks s * p <=? kp_now s)%N eqn:E; [|done]. apply kinv_put; try done; try lia. intros Hw. destruct I as [_ _ H3 _ _ _ _]. apply H3 in Hw as [_ Hw]. rewrite Et in Hw. lia.
    + assert (I' := I). destruct I' as [H1 H2 H3 [H4 H4'] H5 H6 H7]. specialize (H4' Et). apply kinv_put; try done; try lia. intros Hw. apply H3 in Hw as [_ Hw]. rewrite Et in Hw. lia.
  - cbn [k_step]. destruct (kp_writer s) eqn:Ew; [|done]. destruct (kp_queue s) as [|q] eqn:Eq; [done|]. destruct I as [H1 H2 H3 H4 H5 H6 H7]. destruct (H3 Ew) as [H3' H3'']. rewrite Eq in *. unfold pings in H3''.
    split; unfold pings in *; cbn [kp_now kp_ticks kp_task kp_queue kp_writer kp_out] in *; rewrite ?app_length in *; cbn [length] in *; try done; try lia.
    + intros _. split; [done|]. lia.
    + intros i t [Hi|(Hi & Hi2)]%lookup_app_Some; [by apply H6 in Hi|]. apply list_lookup_singleton_Some in Hi2 as [Hi2 <-]. split; [|lia].
      assert (N.of_nat i ≤ kp_ticks s - 1)%N by lia. destruct H2 as [H2|H2]; [lia|]. etrans; [by apply N.mul_le_mono_r|done].
  - exact I.
  - exact I.
Qed.

(** Never more often than asked: the n-th ping (from 0) is not written before n intervals have passed. *)
Theorem C234_rate : ∀ p os, (0 < p)%N → let s := k_run (Some p) os in
  (pings s ≤ elapsed os / p + 1)%N ∧ ∀ i t, kp_out s !! i = Some t → (N.of_nat i * p ≤ t ≤ elapsed os)%N.
Proof.
  intros p os Hp s. destruct (kinv_run p os Hp) as [H1 H2 H3 H4 H5 H6 H7]. split.
  - fold s in H2, H5, H1. destruct H2 as [H2|H2]; [etrans; [exact H5|rewrite H2; apply N.le_0_l]|]. assert (kp_ticks s - 1 ≤ elapsed os / p)%N as Hd; [|revert Hd; generalize (elapsed os / p)%N; lia]. apply N.div_le_lower_bound; [lia|]. rewrite <-H1. by rewrite N.mul_comm.
  - intros i t Hi. apply H6 in Hi. rewrite <-H1. done.
Qed.
Print Assumptions C234_rate.
(** And not less: as long as no write fails, whenever the tasks have done all there is to do, exactly the pings that are
    due were written - one at once and one for each interval. *)
Theorem C234_due : ∀ p os, (0 < p)%N → no_failure os → let s := k_run (Some p) os in idle (Some p) s → pings s = (elapsed os / p + 1)%N.
Proof.
  intros p os Hp Hok s [Hi1 Hi2]. destruct (kinv_run p os Hp) as [H1 H2 H3 H4 H5 H6 H7]. specialize (H7 Hok). fold s in H1, H2, H3, H5, H7. destruct (H3 H7) as [H3a H3b].
  assert (kp_queue s = 0) as Hq. { specialize (Hi2 true). cbn [k_step] in Hi2. rewrite H7 in Hi2. destruct (kp_queue s) as [|q] eqn:Eq; [done|]. apply (f_equal kp_queue) in Hi2. cbn in Hi2. lia. }
  cbn [k_step] in Hi1. unfold put_ping in Hi1. rewrite H7, Hq in Hi1. change (0 <? wchan_cap)%nat with true in Hi1. rewrite Hq in H3b. destruct (kp_task s) eqn:Et; [| |done].
  - destruct (kp_ticks s * p <=? kp_now s)%N eqn:E.
    + apply (f_equal kp_queue) in Hi1. cbn in Hi1. lia.
    + assert (kp_ticks s = pings s) as <- by lia. destruct (N.eq_dec (kp_ticks s) 0) as [E0|E0]; [rewrite E0 in E; lia|]. assert (elapsed os / p = kp_ticks s - 1)%N as ->; [|lia]. symmetry. apply (N.div_unique _ _ _ (elapsed os - (kp_ticks s - 1) * p)); rewrite <-H1; destruct H2 as [H2|H2]; try lia. 
      assert (kp_ticks s = (kp_ticks s - 1) + 1)%N as Ek by lia. rewrite Ek in E at 1. rewrite N.mul_add_distr_r in E. lia.
  - apply (f_equal kp_queue) in Hi1. cbn in Hi1. lia.
Qed.
Print Assumptions C234_due.
Lemma dead_stays : ∀ p os os', kp_writer (k_run p os) = false → kp_out (k_run p (os ++ os')) = kp_out (k_run p os).
Proof.
  intros p os os' H. unfold k_run in *. rewrite fold_left_app. revert H. generalize (fold_left (k_step p) os (keep_new p)). induction os' as [|o os' IH]; intros s H; [done|]. cbn [fold_left].
  assert (kp_writer (k_step p s o) = false ∧ kp_out (k_step p s o) = kp_out s) as [E1 E2]; [|by rewrite (IH _ E1)].
  assert (∀ t, kp_writer (put_ping t s) = false ∧ kp_out (put_ping t s) = kp_out s) as Hput by (intros t; unfold put_ping; by rewrite H).
  destruct o; cbn [k_step]; try done.
  - destruct (kp_task s), p; try done; try apply Hput. destruct (_ <=? _)%N; [apply Hput|done].
  - by rewrite H.
Qed.
(** Once a write has failed, nothing is written any more. *)
Theorem C234_failed : ∀ p os os', kp_queue (k_run p os) ≠ 0 → kp_out (k_run p (os ++ KWrite false :: os')) = kp_out (k_run p os).
Proof.
  intros p os os' Hq. change (KWrite false :: os') with ([KWrite false] ++ os'). rewrite app_assoc. assert (kp_writer (k_run p (os ++ [KWrite false])) = false ∧ kp_out (k_run p (os ++ [KWrite false])) = kp_out (k_run p os)) as [E1 E2]; [|by rewrite dead_stays, E2].
  rewrite k_snoc. cbn [k_step]. destruct (kp_writer (k_run p os)) eqn:Ew; [|done]. by destruct (kp_queue (k_run p os)).
Qed.
Print Assumptions C234_failed.
(** Without an interval, and with one of zero, there are none. *)
Theorem C234_off : ∀ p os, p = None ∨ p = Some 0%N → kp_out (k_run p os) = [].
Proof. intros p os Hp. rewrite <-(app_nil_l os), dead_stays; by destruct Hp as [-> | ->]. Qed.
Print Assumptions C234_off.
(** False that pings end with the connection: neither closing the transport nor the peer's leaving changes anything, so
    what C234_due says goes on for ever. *)
Theorem C234_closed_refuted : ∀ p os1 os2 o, o = KClose ∨ o = KGone →
  k_run p (os1 ++ o :: os2) = k_run p (os1 ++ os2) ∧
  ((0 < default 0%N p)%N → no_failure (os1 ++ os2) → idle p (k_run p (os1 ++ o :: os2)) → pings (k_run p (os1 ++ o :: os2)) = (elapsed (os1 ++ os2) / default 0%N p + 1)%N).
Proof.
  intros p os1 os2 o Ho. assert (k_run p (os1 ++ o :: os2) = k_run p (os1 ++ os2)) as E by (unfold k_run; rewrite !fold_left_app; by destruct Ho as [-> | ->]). split; [done|].
  rewrite E. intros Hp Hok Hi. destruct p as [p|]; cbn in Hp; [|lia]. by apply C234_due.
Qed.
Print Assumptions C234_closed_refuted.
Example C234_example :
  let os := [KPing; KWrite true; KPass 30000; KPing; KWrite true; KClose; KPass 31000; KPing; KWrite true; KPing] in
  no_failure os ∧ idle (Some 30000%N) (k_run (Some 30000%N) os) ∧ kp_out (k_run (Some 30000%N) os) = [0; 30000; 61000]%N ∧
  kp_queue (k_run (Some 30000%N) [KPing]) ≠ 0.
Proof. cbv zeta. split; [apply (bool_decide_unpack _); by vm_compute|]. split; [split; [by vm_compute|intros []; by vm_compute]|]. split; [by vm_compute|]. by vm_compute. Qed.

(** ** C235: a lost connection *)
Lemma put_conns k m s : length (ct_conns (put_chan k m s)) = length (ct_conns s).
Proof. unfold put_chan. destruct (_ <? _)%nat; cbn [ct_conns]; by rewrite alter_length. Qed.
(** Connections are those made by connect, and nothing else makes one. *)
Theorem C235_connections : ∀ cfg os, length (ct_conns (w_run cfg ct_new os)) = connects os.
Proof.
  intros cfg os. induction os as [|o os IH] using rev_ind; [done|]. unfold w_run, w_step, connects in *. rewrite foldl_app, omap_app, app_length. cbn [foldl]. revert IH. generalize (foldl (λ s o, (c_step s o).1) ct_new os). intros s IH.
  destruct o as [[]|m| | |j f|j|j]; cbn [c_step omap list_omap length]; rewrite ?Nat.add_0_r; try done.
  - cbn [fst ct_conns]. rewrite app_length. cbn. lia.
  - by destruct (ct_queue s) as [|[??]?].
  - cbn [fst]. destruct (ct_conns s !! j) as [c|]; [|done]. destruct (cc_stopped c); [done|]. destruct (cc_holds c); [done|].
    destruct f; try done; try (unfold on_cconn; cbn [ct_conns]; by rewrite alter_length). destruct (of_bytes bs); [|done]. destruct (parse_message bs); [|done]. by rewrite put_conns.
  - cbn [fst]. destruct (ct_conns s !! j) as [[[m|] ??]|]; [|done..]. by rewrite put_conns.
  - unfold on_cconn. cbn [fst ct_conns]. by rewrite alter_length.
Qed.
Print Assumptions C235_connections.
(** False that a lost connection is made again, although auto_reconnect is on: once all connections are gone, whatever
    happens - but a call of connect -, receive hands out what was already there, and then waits for ever: no timeout ends it. *)
Theorem C235_lost_refuted : ∀ cfg s os, w_auto_reconnect cfg = true → all_lost s → (∀ ok, COnce ok ∉ os) → let s' := w_run cfg s os in
  all_lost s' ∧ length (ct_conns s') = length (ct_conns s) ∧ ct_queue s' = drop (receives os) (ct_queue s) ∧
  (length (ct_queue s) ≤ receives os → (w_step cfg s' CReceive).2 = CWaits).
Proof.
  intros cfg s os _ Hl Hn s'. assert (all_lost s' ∧ length (ct_conns s') = length (ct_conns s) ∧ ct_queue s' = drop (receives os) (ct_queue s)) as (H1 & H2 & H3).
  { subst s'. unfold w_run, w_step. revert s Hl. induction os as [|o os IH]; intros s Hl; [done|]. cbn [foldl].
    assert (all_lost (c_step s o).1 ∧ length (ct_conns (c_step s o).1) = length (ct_conns s) ∧ ct_queue (c_step s o).1 = drop (receives [o]) (ct_queue s)) as (E1 & E2 & E3).
    { destruct o as [ok|m| | |j f|j|j]; cbn [c_step]; try done.
      - exfalso. apply (Hn ok). by left.
      - destruct (ct_queue s) as [|[k m] q] eqn:Eq; cbn [fst]; [by rewrite Eq|done].
      - cbn [fst]. destruct (ct_conns s !! j) as [c|] eqn:Ej; [|done]. unfold all_lost in Hl. rewrite Forall_lookup in Hl. destruct (Hl _ _ Ej) as [-> _]. by rewrite <-Forall_lookup in Hl.
      - cbn [fst]. destruct (ct_conns s !! j) as [c|] eqn:Ej; [|done]. assert (Hl' := Hl). unfold all_lost in Hl'. rewrite Forall_lookup in Hl'. destruct (Hl' _ _ Ej) as [_ Hh]. destruct c as [h ? ?]. cbn in Hh. by rewrite Hh.
      - unfold on_cconn. cbn [fst]. split; [|split]; [|cbn [ct_conns]; by rewrite alter_length|done]. unfold all_lost in *. cbn [ct_conns]. rewrite Forall_lookup in Hl |- *. intros i c Hi.
        destruct (decide (i = j)) as [->|Hne]; [|rewrite list_lookup_alter_ne in Hi by done; by eapply Hl]. rewrite list_lookup_alter in Hi. apply fmap_Some in Hi as (c' & Hc' & ->). exact (Hl j c' Hc'). }
    destruct (IH ltac:(intros ok Hok; apply (Hn ok); by right) _ E1) as (F1 & F2 & F3). split; [done|]. split; [by rewrite F2|]. rewrite F3, E3, drop_drop. f_equal. unfold receives. destruct o; cbn [omap list_omap length]; lia. }
  split; [done|]. split; [done|]. split; [done|]. intros Hle. unfold w_step. cbn [c_step]. rewrite H3, drop_ge by done. done.
Qed.
Print Assumptions C235_lost_refuted.
(** But calling connect again makes one, from which messages are received again. *)
Theorem C235_again : ∀ cfg s m, all_lost s → ct_queue s = [] → let s1 := (w_step cfg s (COnce true)).1 in let k := length (ct_conns s) in
  c_connected s1 = true ∧ ∀ bs, of_bytes bs ≠ None → parse_message bs = Some m → (w_step cfg (w_step cfg s1 (CRead k (FText bs))).1 CReceive).2 = CGot m.
Proof.
  intros cfg s m _ Hq s1 k. split; [done|]. intros bs Hb Hm. unfold w_step. subst s1. unfold w_step. cbn [c_step fst ct_conns]. rewrite lookup_app_r by (unfold k; lia). unfold k. rewrite Nat.sub_diag. cbn [lookup list_lookup cc_stopped cc_holds].
  destruct (of_bytes bs); [|done]. rewrite Hm. unfold put_chan. cbn [ct_queue]. rewrite Hq. done.
Qed.
Print Assumptions C235_again.
Example C235_example :
  let cfg := MkWConfig true 30000 in let s := w_run cfg ct_new [COnce true; CRead 0 FEnd] in
  all_lost s ∧ length (ct_conns s) = 1 ∧ c_connected s = true ∧ (w_step cfg s CReceive).2 = CWaits.
Proof. cbv zeta. split; [|split; [|split]]; [apply Forall_singleton; split|..]; by vm_compute. Qed.
