(** When the reader tasks of the WebSocket transports end. *)
From stdpp Require Import list.
From Verif Require Import TextLib JsonLib RpcModel WsModel WsSpec WsProofs WsProofs2.

Lemma gone_dec f : gone f ∨ ¬ gone f.
Proof. unfold gone. destruct f; try (right; intros [?|[?|?]]; done); left; auto. Qed.

(** *** The client's *)
Definition stopinv (s : ctransport) (tr : list (ctransport * cop * cres)) (k : nat) : Prop :=
  match ct_conns s !! k with
  | Some c => if cc_stopped c then ∃ fs f, c_taken k tr = fs ++ [f] ∧ gone f ∧ Forall (λ f, ¬ gone f) fs else Forall (λ f, ¬ gone f) (c_taken k tr)
  | None => c_taken k tr = []
  end.
Lemma stop_none k x s' tr s : c_taken k [x] = [] → (cc_stopped <$> ct_conns s' !! k) = (cc_stopped <$> ct_conns s !! k) → stopinv s tr k → stopinv s' (tr ++ [x]) k.
Proof.
  intros Ht Hc I. unfold stopinv in *. rewrite c_taken_app, Ht, app_nil_r. destruct (ct_conns s' !! k) as [c'|], (ct_conns s !! k) as [c|]; try done. cbn in Hc. by injection Hc as ->.
Qed.
Lemma put_chan_stopped j m s k : cc_stopped <$> ct_conns (put_chan j m s) !! k = cc_stopped <$> ct_conns s !! k.
Proof.
  unfold put_chan. destruct (_ <? _)%nat; cbn [ct_conns]; (destruct (decide (j = k)) as [->|Hj]; [rewrite list_lookup_alter; by destruct (ct_conns s !! k)|by rewrite list_lookup_alter_ne]).
Qed.
Lemma stop_step s tr o k : stopinv s tr k → stopinv (c_step s o).1 (tr ++ [(s, o, (c_step s o).2)]) k.
Proof.
  intros I. destruct o as [ok|m| | |j f|j|j]; cbn [c_step fst snd].
  - destruct ok; cbn [fst snd].
    + unfold stopinv in *. cbn [ct_conns]. rewrite c_taken_app. assert (c_taken k [(s, COnce true, COk)] = []) as -> by done. rewrite app_nil_r.
      destruct (decide (k < length (ct_conns s))%nat) as [Hk|Hk]; [by rewrite lookup_app_l|]. rewrite lookup_app_r by lia. rewrite lookup_ge_None_2 in I by lia. rewrite I.
      destruct (k - length (ct_conns s))%nat eqn:E; cbn; [by apply Forall_nil_2|done].
    + by apply (stop_none _ _ _ _ s).
  - by apply (stop_none _ _ _ _ s).
  - destruct (ct_queue s) as [|[j m] q]; by apply (stop_none _ _ _ _ s).
  - by apply (stop_none _ _ _ _ s).
  - assert (c_taken k [(s, CRead j f, COk)] = if (j =? k)%nat && match ct_conns s !! k with Some (CConn None false _) => true | _ => false end then [f] else []) as Ht.
    { unfold c_taken. cbn. by destruct (_ && _). }
    destruct (decide (j = k)) as [->|Hj].
    + rewrite Nat.eqb_refl in Ht. cbn [andb] in Ht. destruct (ct_conns s !! k) as [c|] eqn:Ec; [|by apply (stop_none _ _ _ _ s)].
      destruct c as [h [] w]; cbn [cc_stopped]. { apply (stop_none _ _ _ _ s); [by destruct h|done|done]. }
      destruct h as [h|]; cbn [cc_holds]; [by apply (stop_none _ _ _ _ s)|].
      unfold stopinv in I. rewrite Ec in I. cbn [cc_stopped] in I.
      assert (∀ s', ¬ gone f → (cc_stopped <$> ct_conns s' !! k) = Some false → stopinv s' (tr ++ [(s, CRead k f, COk)]) k) as Hgo.
      { intros s' Hf Hs. unfold stopinv. rewrite c_taken_app, Ht. destruct (ct_conns s' !! k) as [c'|]; [|done]. cbn in Hs. injection Hs as ->. apply Forall_app. split; [done|]. by rewrite Forall_singleton. }
      assert (¬ gone f → stopinv s (tr ++ [(s, CRead k f, COk)]) k) as Hs. { intros Hf. apply Hgo; [done|]. by rewrite Ec. }
      assert (gone f → stopinv (on_cconn k (λ c, CConn None true (cc_wire c)) s) (tr ++ [(s, CRead k f, COk)]) k) as Hd.
      { intros Hf. unfold stopinv, on_cconn. cbn [ct_conns]. rewrite list_lookup_alter, Ec. cbn [fmap option_fmap option_map cc_stopped]. exists (c_taken k tr), f. by rewrite c_taken_app, Ht. }
      destruct f; try (apply Hs; intros [?|[?|?]]; done); try (apply Hd; unfold gone; auto; fail).
      destruct (of_bytes bs); [|apply Hs; intros [?|[?|?]]; done]. destruct (parse_message bs); [|apply Hs; intros [?|[?|?]]; done].
      apply Hgo; [intros [?|[?|?]]; done|]. rewrite put_chan_stopped, Ec. done.
    + rewrite (proj2 (Nat.eqb_neq _ _) Hj) in Ht. cbn [andb] in Ht. apply (stop_none _ _ _ _ s); [done| |done].
      destruct (ct_conns s !! j) as [c|]; [|done]. destruct (cc_stopped c); [done|]. destruct (cc_holds c); [done|].
      destruct f; try done; [|cbn [on_cconn ct_conns]; by rewrite list_lookup_alter_ne..].
      destruct (of_bytes bs); [|done]. destruct (parse_message bs); [|done]. by rewrite put_chan_stopped.
  - apply (stop_none _ _ _ _ s); [done| |done]. destruct (ct_conns s !! j) as [[[m|] b w]|]; try done. by rewrite put_chan_stopped.
  - apply (stop_none _ _ _ _ s); [done| |done]. cbn [on_cconn ct_conns]. destruct (decide (j = k)) as [->|Hj]; [rewrite list_lookup_alter; by destruct (ct_conns s !! k)|by rewrite list_lookup_alter_ne].
Qed.
Lemma stop_run os k : stopinv (c_run ct_new os) (c_trace ct_new os) k.
Proof. induction os as [|o os IH] using rev_ind; [done|]. rewrite c_run_snoc, c_trace_snoc. by apply stop_step. Qed.

(** *** The server's *)
Definition over (taken : list frame) (c : sconn) : Prop :=
  (sc_reader c = RDone → Exists gone taken ∨ sc_writer c = false ∨ sc_rx c = false) ∧ (Exists gone taken → sc_reader c = RDone).
Definition doneinv (s : stransport) (tr : list (stransport * sop * sres)) (k : nat) : Prop :=
  match st_conns s !! k with Some c => over (taken_by k tr) c | None => taken_by k tr = [] end.
Lemma over_same t c c' : sc_reader c' = sc_reader c → (sc_writer c = false → sc_writer c' = false) → (sc_rx c = false → sc_rx c' = false) → over t c → over t c'.
Proof. intros Hr Hw Hx [H1 H2]. split; rewrite Hr; [|done]. intros H. destruct (H1 H) as [|[|]]; auto. Qed.
Lemma over_put_in t c m : ¬ Exists gone t → over t (put_in m c).
Proof. intros Ht. unfold put_in. destruct (sc_rx c) eqn:E; cbn [negb]; [destruct (_ <? _)%nat|]; split; try done. auto. Qed.
Lemma over_put_pong t c m : ¬ Exists gone t → over t (put_pong m c).
Proof. intros Ht. unfold put_pong. destruct (sc_writer c) eqn:E; cbn [negb]; [destruct (_ <? _)%nat|]; split; try done. auto. Qed.
Lemma over_again t c : over t c → over t (read_again c).
Proof.
  intros [H1 H2]. assert (sc_reader c ≠ RDone → ¬ Exists gone t) as Hn by auto. unfold read_again.
  destruct (sc_reader c) eqn:E; [by split; rewrite E|apply over_put_in|apply over_put_pong|by split; rewrite E]; by apply Hn.
Qed.
Lemma over_write t c p ok : over t c → over t (write_frame p ok c).
Proof.
  intros H. unfold write_frame. destruct (sc_writer c) eqn:Ew; cbn [negb]; [|done].
  repeat case_match; try done; revert H; apply over_same; cbn; done || congruence.
Qed.
Lemma taken_read s k f r : taken_by k [(s, SRead k f, r)] = match sc_reader <$> st_conns s !! k with Some RIdle => [f] | _ => [] end.
Proof. unfold taken_by. cbn. rewrite Nat.eqb_refl. destruct (sc_reader <$> _) as [[]|]; done. Qed.
Lemma done_keep s s' tr x k : taken_by k [x] = [] →
  match st_conns s !! k, st_conns s' !! k with Some c, Some c' => over (taken_by k tr) c → over (taken_by k tr) c' | None, None => True | _, _ => False end →
  doneinv s tr k → doneinv s' (tr ++ [x]) k.
Proof. intros Ht Hk I. unfold doneinv in *. rewrite taken_by_app, Ht, app_nil_r. destruct (st_conns s' !! k), (st_conns s !! k); auto; done. Qed.
Lemma done_alter s s' tr x k j g : taken_by k [x] = [] → st_conns s' = alter g j (st_conns s) → (∀ c, over (taken_by k tr) c → over (taken_by k tr) (g c)) →
  doneinv s tr k → doneinv s' (tr ++ [x]) k.
Proof.
  intros Ht Hs Hg I. apply (done_keep s); [done| |done]. rewrite Hs. destruct (decide (j = k)) as [->|Hj].
  - rewrite list_lookup_alter. destruct (st_conns s !! k); cbn; auto.
  - rewrite list_lookup_alter_ne by done. by destruct (st_conns s !! k).
Qed.
Lemma done_drop s tr x k : taken_by k [x] = [] → doneinv s tr k → doneinv (drop_cur s) (tr ++ [x]) k.
Proof.
  intros Ht I. unfold drop_cur. destruct (st_cur s) as [j|].
  - apply (done_alter s _ _ _ _ j dropped); [done|done| |done]. intros c. by apply over_same.
  - apply (done_keep s); [done| |done]. by destruct (st_conns s !! k).
Qed.
Lemma done_step s tr o k : doneinv s tr k → doneinv (s_step s o).1 (tr ++ [(s, o, (s_step s o).2)]) k.
Proof.
  intros I. assert (∀ x, taken_by k [x] = [] → doneinv s (tr ++ [x]) k) as Hs.
  { intros x Hx. apply (done_keep s); [done| |done]. by destruct (st_conns s !! k). }
  destruct o as [ok|ok|m| | |j f|j|j p ok]; cbn [s_step].
  - destruct ok; cbn [fst snd]; [|by apply Hs]. apply (done_keep s); [done| |done]. cbn [st_conns]. by destruct (st_conns s !! k).
  - destruct (st_bound s && ok); cbn [fst snd]; [|by apply Hs].
    pose proof (done_drop s tr (s, SAccept ok, SOk) k eq_refl I) as D. unfold doneinv in *. cbn [st_conns].
    destruct (decide (k < length (st_conns (drop_cur s)))%nat) as [Hk|Hk]; [by rewrite lookup_app_l|]. rewrite lookup_app_r by lia. rewrite lookup_ge_None_2 in D by lia. rewrite D.
    destruct (k - _)%nat eqn:E; cbn; [|done]. split; [done|]. intros H. by apply Exists_nil in H.
  - destruct (_ ≫= _) as [[j c]|]; cbn [fst snd]; [|by apply Hs]. destruct (negb _); [by apply Hs|]. destruct (_ <? _)%nat; cbn [fst snd]; [|by apply Hs].
    eapply (done_alter s); [done|done| |done]. intros c'. by apply over_same.
  - destruct (_ ≫= _) as [[j c]|]; cbn [fst snd]; [|by apply Hs]. destruct (sc_in c) as [|m q]; [destruct (sc_reader c); by apply Hs|]. cbn [fst snd].
    eapply (done_alter s); [done|done| |done]. intros c'. by apply over_same.
  - pose proof (done_drop s tr (s, SClose, SOk) k eq_refl I) as D. exact D.
  - cbn [fst snd]. destruct (decide (j = k)) as [->|Hj].
    + unfold doneinv in *. rewrite taken_by_app, taken_read. unfold on_conn. cbn [st_conns]. rewrite list_lookup_alter.
      destruct (st_conns s !! k) as [c|]; cbn [fmap option_fmap option_map]; [|by rewrite I]. pose proof I as [I1 I2].
      unfold read_frame. destruct (sc_reader c) eqn:Er; rewrite ?app_nil_r; try done.
      assert (¬ Exists gone (taken_by k tr)) as Hn by (intros H%I2; congruence).
      assert (¬ gone f → ¬ Exists gone (taken_by k tr ++ [f])) as Hf. { intros Hf [|H]%Exists_app; [done|]. apply Exists_cons in H as [|H]; [done|]. by apply Exists_nil in H. }
      assert (¬ gone f → over (taken_by k tr ++ [f]) c) as Hc. { intros H. apply Hf in H. split; [by rewrite Er|done]. }
      assert (gone f → over (taken_by k tr ++ [f]) (set_reader RDone c)) as Hd. { intros H. split; [|done]. intros _. left. apply Exists_app. right. by apply Exists_cons_hd. }
      destruct f; try (apply Hc; intros [?|[?|?]]; done); try (apply Hd; unfold gone; by auto).
      * destruct (parse_message bs); [apply over_put_in, Hf|apply Hc]; intros [?|[?|?]]; done.
      * apply over_put_pong, Hf. intros [?|[?|?]]; done.
    + eapply (done_keep s); [| |done].
      * unfold taken_by. cbn. by rewrite (proj2 (Nat.eqb_neq _ _) Hj).
      * cbn [on_conn st_conns]. rewrite list_lookup_alter_ne by done. by destruct (st_conns s !! k).
  - eapply (done_alter s); [done|done| |done]. apply over_again.
  - eapply (done_alter s); [done|done| |done]. intros c. apply over_write.
Qed.
Lemma done_run os k : doneinv (s_run st_new os) (s_trace st_new os) k.
Proof. induction os as [|o os IH] using rev_ind; [done|]. rewrite s_run_snoc, s_trace_snoc. by apply done_step. Qed.
