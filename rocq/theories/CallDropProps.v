(** Theorems about client calls that are given up. *)
From stdpp Require Import list strings.
From Verif Require Import TextLib JsonLib SerdeLib TypesModel RpcModel ServerModel ClientModel CallDropModel CallDropSpec.

Lemma u_run_app s os1 os2 : u_run s (os1 ++ os2) = let '(r1, s1) := u_run s os1 in let '(r2, s2) := u_run s1 os2 in (r1 ++ r2, s2).
Proof. revert s. induction os1 as [|o os1 IH]; intros s; cbn [u_run app]; [by destruct (u_run s os2)|]. destruct (u_step s o) as [r s1]. rewrite IH. destruct (u_run s1 os1) as [r1 s2]. destruct (u_run s2 os2). by rewrite app_assoc. Qed.
Lemma after_snoc os o : after (os ++ [o]) = (u_step (after os) o).2.
Proof. unfold after. rewrite u_run_app. destruct (u_run _ os) as [r1 s1]. cbn [u_run fst snd]. by destruct (u_step s1 o) as [[]]. Qed.
Lemma results_snoc os o : results (os ++ [o]) = results os ++ option_list (u_step (after os) o).1.
Proof. unfold after, results. rewrite u_run_app. destruct (u_run _ os) as [r1 s1]. cbn [u_run fst snd]. destruct (u_step s1 o) as [[] ?]; cbn; by rewrite ?app_nil_r. Qed.
Lemma incoming_snoc os o : incoming (os ++ [o]) = incoming os ++ incoming [o].
Proof. unfold incoming. apply omap_app. Qed.

(** *** C242: the calls are those of the client *)
Theorem C242_same : ∀ c id r ms, ms ≠ [] → u_run (u_new c) (UCall id r :: USent :: (UArrive <$> ms) ++ [UPoll]) =
  let '(c', x) := send_request id r true ms c in ([(id, x)], u_new c').
Proof.
  intros c id r ms Hm. cbn [u_run u_step u_new u_cur u_client option_list option_rect app]. rewrite u_run_app. assert (∀ ms s, u_run s (UArrive <$> ms) = ([], MkCaller (deliver ms (u_client s)) (u_cur s))) as H.
  { clear. induction ms as [|m ms IH]; intros [[] k]; rewrite ?fmap_cons; [unfold deliver; cbn; by rewrite app_nil_r|]. cbn [u_run u_step u_cur u_client]. rewrite IH. unfold deliver. cbn. by rewrite <-app_assoc. }
  rewrite H. cbn [u_run u_step u_cur u_client]. unfold send_request. cbv zeta. destruct (cl_in _) as [|m rest] eqn:E; [|done]. unfold deliver in E. cbn in E. apply app_eq_nil in E as [_ E]. done.
Qed.
Print Assumptions C242_same.

(** *** C242: calls take the messages in order *)
Lemma order_inv os : (outcome <$> incoming os) = (results os).*2 ++ (outcome <$> cl_in (u_client (after os))).
Proof.
  induction os as [|o os IH] using rev_ind; [done|]. rewrite after_snoc, results_snoc, incoming_snoc, fmap_app, IH, fmap_app. destruct o as [id r| |m| |]; cbn [u_step].
  - destruct (u_cur (after os)); by rewrite !app_nil_r.
  - destruct (u_cur (after os)) as [[]|]; by rewrite !app_nil_r.
  - cbn. by rewrite !fmap_app, app_nil_r, <-app_assoc.
  - destruct (u_cur (after os)) as [[]|]; [by rewrite !app_nil_r| |by rewrite !app_nil_r]. destruct (cl_in (u_client (after os))) as [|m rest] eqn:E; cbn; [by rewrite E, !app_nil_r|]. by rewrite app_nil_r, <-app_assoc.
  - by rewrite !app_nil_r.
Qed.
Theorem C242_order : ∀ os, (results os).*2 `prefix_of` (outcome <$> incoming os).
Proof. intros os. rewrite order_inv. by eexists. Qed.
Print Assumptions C242_order.

(** *** C242: calls that are given up before their request is sent *)
Lemma own_inv os : gentle os → (id_of <$> requests os) = Some <$> ((results os).*1 ++ match u_cur (after os) with Some (KWaiting id) => [id] | _ => [] end).
Proof.
  induction os as [|o os IH] using rev_ind; intros Hg; [done|]. assert (gentle os) as Hg' by (intros o1 o2 ->; apply (Hg o1 (o2 ++ [o])); by rewrite <-app_assoc). specialize (IH Hg'). unfold requests in *. rewrite after_snoc, results_snoc.
  destruct o as [id r| |m| |]; cbn [u_step].
  - destruct (u_cur (after os)) as [p|] eqn:E; cbn [fst snd option_list option_rect]; rewrite (app_nil_r (results os)); [by rewrite E|]. exact IH.
  - destruct (u_cur (after os)) as [[id r|id]|] eqn:E; cbn [fst snd option_list option_rect]; rewrite (app_nil_r (results os)); [|by rewrite E|by rewrite E]. cbn [u_client u_cur send cl_sent]. rewrite fmap_app, IH, app_nil_r, fmap_app. done.
  - cbn [fst snd option_list option_rect u_cur u_client deliver cl_sent]. by rewrite (app_nil_r (results os)).
  - destruct (u_cur (after os)) as [[id r|id]|] eqn:E; cbn [fst snd option_list option_rect]; [by rewrite (app_nil_r (results os)), E| |by rewrite (app_nil_r (results os)), E]. destruct (cl_in _) as [|m rest]; cbn [fst snd option_list option_rect]; [by rewrite (app_nil_r (results os)), E|]. cbn [u_client u_cur untrack took cl_sent]. rewrite (fmap_app fst), app_nil_r. exact IH.
  - cbn [fst snd option_list option_rect u_cur u_client]. rewrite (app_nil_r (results os)), IH. destruct (u_cur (after os)) as [[id r|id]|] eqn:E; [done| |done]. destruct (Hg os [] eq_refl). by exists id.
Qed.
(** As long as no call is given up after its request was sent, each call returns the reply to its own request. *)
Theorem C242_own_partial : ∀ ans os i id x, gentle os → replies ans os → results os !! i = Some (id, x) → ∃ r, requests os !! i = Some (MsgRequest id r) ∧ x = inl (ans id r).
Proof.
  intros ans os i id x Hg [tl Hr] Hi. pose proof (own_inv os Hg) as Ho. assert ((id_of <$> requests os) !! i = Some (Some id)) as Hid. { rewrite Ho, list_lookup_fmap, lookup_app_l; [|rewrite fmap_length; by eapply lookup_lt_Some]. by rewrite list_lookup_fmap, Hi. }
  rewrite list_lookup_fmap in Hid. destruct (requests os !! i) as [q|] eqn:Eq; [|done]. cbn in Hid. apply (inj Some) in Hid. destruct q as [id' r|?|?]; [|done|done]. injection Hid as ->. exists r. split; [done|].
  destruct (C242_order os) as [tl2 Ho2]. assert ((results os).*2 !! i = Some x) as Hx by (by rewrite list_lookup_fmap, Hi). assert ((outcome <$> incoming os) !! i = Some x) as Hx2 by (rewrite Ho2; by apply lookup_app_l_Some). rewrite list_lookup_fmap in Hx2. destruct (incoming os !! i) as [m|] eqn:Em; [|done]. cbn in Hx2. apply (inj Some) in Hx2. subst x.
  assert (((λ m, match m with MsgRequest id r => MsgResponse (ans id r) | _ => m end) <$> requests os) !! i = Some m) as H by (rewrite Hr; by apply lookup_app_l_Some). rewrite list_lookup_fmap, Eq in H. cbn in H. apply (inj Some) in H. by subst m.
Qed.
Print Assumptions C242_own_partial.

(** *** C242: calls that are given up while they wait *)
(** At least [d] requests were sent that no call in progress or returned stands for. *)
Definition ahead (d : nat) (s : caller) (n : nat) : Prop :=
  match u_cur s with
  | Some (KWaiting id) => d + n + 1 ≤ length (cl_sent (u_client s)) ∧ ∃ r, last (cl_sent (u_client s)) = Some (MsgRequest id r)
  | _ => d + n ≤ length (cl_sent (u_client s))
  end.
Lemma ahead_step d s n o : ahead d s n → ahead d (u_step s o).2 (n + length (option_list (u_step s o).1)).
Proof.
  unfold ahead. destruct o as [id r| |m| |]; cbn [u_step].
  - destruct (u_cur s) as [p|] eqn:E; cbn; rewrite ?E, ?Nat.add_0_r; done.
  - destruct (u_cur s) as [[id r|id]|] eqn:E; cbn; rewrite ?E, ?Nat.add_0_r; [|done|done]. intros H. rewrite app_length, last_snoc. cbn. split; [lia|by exists r].
  - cbn. rewrite Nat.add_0_r. by destruct (u_cur s) as [[]|].
  - destruct (u_cur s) as [[id r|id]|] eqn:E; cbn; rewrite ?E, ?Nat.add_0_r; [done| |done]. intros [H1 H2]. destruct (cl_in (u_client s)); cbn; rewrite ?E, ?Nat.add_0_r; [done|]. lia.
  - cbn. rewrite Nat.add_0_r. destruct (u_cur s) as [[]|]; [done|lia|done].
Qed.
Lemma ahead_run os : ahead 0 (after os) (length (results os)).
Proof. induction os as [|o os IH] using rev_ind; [cbn; lia|]. rewrite after_snoc, results_snoc, app_length. by apply ahead_step. Qed.
Lemma sent_grows s o : cl_sent (u_client s) `prefix_of` cl_sent (u_client (u_step s o).2).
Proof. destruct o as [id r| |m| |]; cbn [u_step]; [| | | |done]; try (destruct (u_cur s) as [[]|]; try done); [by eexists|by destruct (cl_in (u_client s))]. Qed.
Lemma shifted os1 os2 : waiting os1 → ahead 1 (after (os1 ++ UDrop :: os2)) (length (results (os1 ++ UDrop :: os2))) ∧ results os1 `prefix_of` results (os1 ++ UDrop :: os2) ∧
  ∀ i id x, (length (results os1) ≤ i)%nat → results (os1 ++ UDrop :: os2) !! i = Some (id, x) → ∃ j r, (i < j)%nat ∧ requests (os1 ++ UDrop :: os2) !! j = Some (MsgRequest id r).
Proof.
  intros [id0 Hw]. induction os2 as [|o os2 IH] using rev_ind.
  - rewrite after_snoc, results_snoc. cbn [u_step fst snd option_list option_rect]. rewrite app_nil_r. pose proof (ahead_run os1) as H. unfold ahead in H |- *. rewrite Hw in H. cbn. split_and!; [lia|done|]. intros i id x Hl Hi. apply lookup_lt_Some in Hi. lia.
  - destruct IH as (H1 & H2 & H3). assert (os1 ++ UDrop :: os2 ++ [o] = (os1 ++ UDrop :: os2) ++ [o]) as -> by (by rewrite <-app_assoc). set (os := os1 ++ UDrop :: os2) in *. clearbody os.
    unfold requests in *. rewrite after_snoc, results_snoc, app_length. split; [by apply ahead_step|]. split; [by apply prefix_app_r|]. intros i id x Hl Hi. apply lookup_app_Some in Hi as [Hi|[Hge Hi]].
    + destruct (H3 i id x Hl Hi) as (j & r & Hj & E). exists j, r. split; [done|]. eapply prefix_lookup; [exact E|apply sent_grows].
    + assert (i = length (results os) ∧ (u_step (after os) o).1 = Some (id, x)) as [-> E]. { destruct ((u_step (after os) o).1) as [y|]; [|done]. cbn in Hi. destruct (i - length (results os)) as [|k] eqn:Ek; [|done]. cbn in Hi. split; [lia|done]. }
      unfold ahead in H1. destruct o as [id' r| |m| |]; cbn [u_step] in E |- *; [by destruct (u_cur (after os))|by destruct (u_cur (after os)) as [[]|]|done| |done]. destruct (u_cur (after os)) as [[|id']|]; [done| |done]. destruct (cl_in _) as [|m rest]; [done|]. cbn in E. injection E as -> _. destruct H1 as (H1 & r & Hlast). exists (length (cl_sent (u_client (after os))) - 1)%nat, r. split; [lia|].
      cbn. rewrite last_lookup in Hlast. by rewrite Nat.sub_1_r.
Qed.
Lemma sent_requests os : Forall (λ m, ∃ id r, m = MsgRequest id r) (requests os).
Proof.
  unfold requests. induction os as [|o os IH] using rev_ind; [constructor|]. rewrite after_snoc. destruct o as [id r| |m| |]; cbn [u_step]; try (destruct (u_cur (after os)) as [[]|]; try done).
  - apply Forall_app. split; [done|]. constructor; [by eexists _, _|constructor].
  - destruct (cl_in _); done.
Qed.
(** Once a call was given up while it waited, every later call returns the reply to an earlier request as its own, with any
    peer that answers every request once and in order. *)
Theorem C242_shift_refuted : ∀ ans os1 os2 i id x, waiting os1 → let os := os1 ++ UDrop :: os2 in
  replies ans os → (∀ id r, rs_id (ans id r) = id) → NoDup (id_of <$> requests os) → (length (results os1) ≤ i)%nat → results os !! i = Some (id, x) →
  ∃ id' r, requests os !! i = Some (MsgRequest id' r) ∧ x = inl (ans id' r) ∧ id' ≠ id.
Proof.
  intros ans os1 os2 i id x Hw os [tl Hr] Ha Hnd Hl Hi. destruct (shifted os1 os2 Hw) as (_ & _ & Hs). fold os in Hs. destruct (Hs i id x Hl Hi) as (j & r & Hj & Ej).
  destruct (C242_order os) as [tl2 Ho2]. assert ((outcome <$> incoming os) !! i = Some x) as Hx2 by (rewrite Ho2; apply lookup_app_l_Some; by rewrite list_lookup_fmap, Hi). rewrite list_lookup_fmap in Hx2. destruct (incoming os !! i) as [m|] eqn:Em; [|done]. cbn in Hx2. apply (inj Some) in Hx2. subst x.
  assert (((λ m, match m with MsgRequest id r => MsgResponse (ans id r) | _ => m end) <$> requests os) !! i = Some m) as H by (rewrite Hr; by apply lookup_app_l_Some). rewrite list_lookup_fmap in H. destruct (requests os !! i) as [q|] eqn:Eq; [|done]. cbn in H. apply (inj Some) in H.
  pose proof (sent_requests os) as Hq. rewrite Forall_lookup in Hq. destruct (Hq i q Eq) as (id' & r' & ->). subst m. exists id', r'. split_and!; [done|done|]. intros ->. assert (i = j); [|lia]. eapply (NoDup_lookup _ i j (Some id) Hnd); rewrite list_lookup_fmap; [by rewrite Eq|by rewrite Ej].
Qed.
Print Assumptions C242_shift_refuted.
(** Nothing is ever cleaned up: what a call that was given up left in the client's table stays there. *)
Theorem C242_tracked_refuted : ∀ os1 os2 id, (∃ r, u_cur (after os1) = Some (KSending id r)) ∨ u_cur (after os1) = Some (KWaiting id) → (∀ r, UCall id r ∉ os2) → id ∈ tracked (os1 ++ UDrop :: os2).
Proof.
  intros os1 os2 id Hc Hn. unfold tracked.
  assert (∀ p, u_cur (after os1) = Some p → (match p with KSending i _ | KWaiting i => i end) ∈ cl_active (u_client (after os1))) as Hin.
  { clear. induction os1 as [|o os IH] using rev_ind; [done|]. intros p. rewrite after_snoc. destruct o as [i r| |m| |]; cbn [u_step].
    - destruct (u_cur (after os)) as [q|] eqn:E; cbn [snd]; [by rewrite E; apply IH|]. cbn. intros [= <-]. apply elem_of_app. right. left.
    - destruct (u_cur (after os)) as [[i r|i]|] eqn:E; cbn [snd]; [|by rewrite E; apply IH|by rewrite E]. cbn. intros [= <-]. exact (IH _ eq_refl).
    - exact (IH p).
    - destruct (u_cur (after os)) as [[i r|i]|] eqn:E; cbn [snd]; [by rewrite E; apply IH| |by rewrite E]. destruct (cl_in _); cbn [snd]; [by rewrite E; apply IH|done].
    - done. }
  assert (id ∈ cl_active (u_client (after os1))) as H0 by (destruct Hc as [[r E]|E]; exact (Hin _ E)). clear Hin Hc.
  cut (id ∈ cl_active (u_client (after (os1 ++ UDrop :: os2))) ∧ ∀ p, u_cur (after (os1 ++ UDrop :: os2)) = Some p → (match p with KSending i _ | KWaiting i => i end) ≠ id); [by intros [? _]|].
  induction os2 as [|o os2 IH] using rev_ind; [rewrite after_snoc; done|]. assert (os1 ++ UDrop :: os2 ++ [o] = (os1 ++ UDrop :: os2) ++ [o]) as -> by (by rewrite <-app_assoc).
  destruct IH as [H1 H2]; [intros r Hr; apply (Hn r), elem_of_app; by left|]. rewrite after_snoc. assert (∀ r, o ≠ UCall id r) as Ho by (intros r ->; apply (Hn r), elem_of_app; right; left). set (s := after (os1 ++ UDrop :: os2)) in *. clearbody s.
  destruct o as [i r| |m| |]; cbn [u_step].
  - destruct (u_cur s) as [p|] eqn:E; cbn [snd]; [by rewrite E|]. cbn. split; [apply elem_of_app; by left|]. intros p [= <-] ->. by apply (Ho r).
  - destruct (u_cur s) as [[i r|i]|] eqn:E; cbn [snd]; [|by rewrite E|by rewrite E]. cbn. split; [done|]. intros p [= <-]. exact (H2 _ eq_refl).
  - done.
  - destruct (u_cur s) as [[i r|i]|] eqn:E; cbn [snd]; [by rewrite E| |by rewrite E]. destruct (cl_in _); cbn [snd]; [by rewrite E|]. cbn. split; [|done]. apply elem_of_list_filter. split; [|done]. specialize (H2 _ eq_refl). cbn in H2. congruence.
  - done.
Qed.
Print Assumptions C242_tracked_refuted.
(** Otherwise it does not matter: without calls given up nothing is left. *)
Theorem C242_tidy_partial : ∀ os, UDrop ∉ os → u_cur (after os) = None → tracked os = [].
Proof.
  intros os Hd. unfold tracked. cut (∀ i, i ∈ cl_active (u_client (after os)) → match u_cur (after os) with Some (KSending j _) | Some (KWaiting j) => i = j | None => False end).
  { intros H E. rewrite E in H. destruct (cl_active _) as [|x l]; [done|]. destruct (H x). left. }
  induction os as [|o os IH] using rev_ind; [by intros i Hi; apply elem_of_nil in Hi|]. apply not_elem_of_app in Hd as [Hd Ho]. specialize (IH Hd). rewrite after_snoc. destruct o as [i r| |m| |]; cbn [u_step].
  - destruct (u_cur (after os)) as [p|] eqn:E; cbn [snd]; [by rewrite E|]. cbn. intros j Hj. apply elem_of_app in Hj as [Hj|Hj]; [by destruct (IH j)|by apply elem_of_list_singleton in Hj].
  - destruct (u_cur (after os)) as [[i r|i]|] eqn:E; cbn [snd]; [|by rewrite E|by rewrite E]. exact IH.
  - exact IH.
  - destruct (u_cur (after os)) as [[i r|i]|] eqn:E; cbn [snd]; [by rewrite E| |by rewrite E]. destruct (cl_in _); cbn [snd]; [by rewrite E|]. cbn. intros j Hj. apply elem_of_list_filter in Hj as [Hne Hj]. by specialize (IH j Hj).
  - destruct Ho. left.
Qed.
Print Assumptions C242_tidy_partial.
(** Two pings answered in order, the second after one was given up before it was sent; and a ping that is given up while it waits:
    the two calls after it return each other's replies, and its id stays in the table. *)
Definition drop_ans (id : rid) (r : request) : rpc_response := success id (JObj []).
Definition drop_ping (n : Z) : uop := UCall (IdNum n) (RClient CPing JNull).
Definition drop_pong (n : Z) : uop := UArrive (MsgResponse (success (IdNum n) (JObj []))).
Definition drop_good : list uop := [drop_ping 1; USent; drop_pong 1; UPoll; drop_ping 2; UDrop; drop_ping 3; USent; UPoll; drop_pong 3; UPoll].
Definition drop_bad1 : list uop := [drop_ping 1; USent; drop_pong 1; UPoll; drop_ping 2; USent; UPoll].
Definition drop_bad2 : list uop := [drop_pong 2; drop_ping 3; USent; UPoll; drop_pong 3; drop_ping 4; USent; UPoll].
Example C242_example :
  gentle drop_good ∧ replies drop_ans drop_good ∧ results drop_good = [(IdNum 1, inl (drop_ans (IdNum 1) (RClient CPing JNull))); (IdNum 3, inl (drop_ans (IdNum 3) (RClient CPing JNull)))] ∧
  waiting drop_bad1 ∧ replies drop_ans (drop_bad1 ++ UDrop :: drop_bad2) ∧ NoDup (id_of <$> requests (drop_bad1 ++ UDrop :: drop_bad2)) ∧ length (results drop_bad1) = 1 ∧
  (λ x : rid * (rpc_response + api_error), (x.1, match x.2 with inl y => Some (rs_id y) | inr _ => None end)) <$> results (drop_bad1 ++ UDrop :: drop_bad2) = [(IdNum 1, Some (IdNum 1)); (IdNum 3, Some (IdNum 2)); (IdNum 4, Some (IdNum 3))] ∧
  u_cur (after drop_bad1) = Some (KWaiting (IdNum 2)) ∧ (∀ r, UCall (IdNum 2) r ∉ drop_bad2) ∧ tracked (drop_bad1 ++ UDrop :: drop_bad2) = [IdNum 2] ∧
  UDrop ∉ drop_bad1 ∧ tracked (take 4 drop_bad1) = [].
Proof.
  split_and!.
  - intros o1 o2 E. unfold drop_good in E. do 5 (destruct o1 as [|? o1]; [discriminate E|]; cbn [app] in E; injection E as <- E). destruct o1 as [|? o1]; [intros [id H]; vm_compute in H; discriminate H|]. exfalso. cbn [app] in E. injection E as <- E. do 5 (destruct o1 as [|? o1]; [discriminate E|]; cbn [app] in E; injection E as <- E). destruct o1; discriminate E.
  - exists []. by vm_compute.
  - by vm_compute.
  - by exists (IdNum 2).
  - eexists. vm_compute. reflexivity.
  - by apply (bool_decide_unpack _); vm_compute.
  - by vm_compute.
  - by vm_compute.
  - by vm_compute.
  - intros r. unfold drop_bad2, drop_ping, drop_pong. rewrite !not_elem_of_cons. split_and!; try discriminate. apply not_elem_of_nil.
  - by vm_compute.
  - unfold drop_bad1, drop_ping, drop_pong. rewrite !not_elem_of_cons. split_and!; try discriminate. apply not_elem_of_nil.
  - by vm_compute.
Qed.
