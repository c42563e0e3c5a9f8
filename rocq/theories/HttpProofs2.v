(** Lemmas for the streamable HTTP server: what its event streams carry. *)
From stdpp Require Import gmap strings list.
From Verif Require Import ListLib TextLib JsonLib SerdeLib TypesModel RpcModel ServerModel HttpModel HttpSpec HttpProofs.

Section http.
  Context (cf : hconfig) (answer : list logged → rid → request → rpc_response).
  Notation step := (h_step cf answer).
  Notation run := (h_run cf answer).
  Lemma post_run_routed hdr rsid id r e1 e2 s : sx_opened (post_run cf answer hdr rsid id r e1 e2 s).1 =
    match hdr with
    | Some sid => if hc_json cf then sx_opened s else match sx_streams s !! sid with Some n => alter (queue (MsgResponse (answer (sx_log s) id r))) n (sx_opened s) | None => sx_opened s end
    | None => sx_opened s
    end.
  Proof.
    unfold post_run. set (resp := answer _ _ _). set (s1 := note _ s).
    assert (sx_opened s1 = sx_opened s ∧ sx_streams s1 = sx_streams s) as [T1 P1] by done. clearbody s1.
    set (s2 := if is_init _ then _ else s1).
    assert (sx_opened s2 = sx_opened s ∧ sx_streams s2 = sx_streams s) as [T2 P2].
    { subst s2. destruct (is_init _); [|done]. unfold update_session. destruct rsid as [sid|]; [|done]. by destruct (sx_sessions s1 !! sid). }
    clearbody s2. set (s3 := match rsid with Some _ => _ | None => s2 end).
    assert (sx_opened s3 = sx_opened s ∧ sx_streams s3 = sx_streams s) as [T3 P3].
    { subst s3. destruct rsid; [|done]. by destruct (hc_store cf). }
    clearbody s3. unfold build_response. destruct (hc_json cf); [by destruct hdr|]. destruct hdr as [sid|]; [|done].
    rewrite P3. destruct (sx_streams s !! sid) as [n|] eqn:E; [|done]. cbn. by rewrite T3.
  Qed.
  (** what a step does to a stream *)
  Lemma stream_step s o n x : sx_opened s !! n = Some x → ∃ x', sx_opened (step s o).1 !! n = Some x' ∧ st_session x' = st_session x ∧
    ((o = HDisconnect n ∧ x' = MkStream (st_session x) [] (st_events x) false) ∨
     (o ≠ HDisconnect n ∧ ∃ m, routed cf answer n (s, o) = Some m ∧ x' = queue m x) ∨
     (o ≠ HDisconnect n ∧ routed cf answer n (s, o) = None ∧
       (x' = x ∨ ∃ eid m q, o = HEmit n eid ∧ st_open x = true ∧ st_queue x = m :: q ∧ x' = MkStream (st_session x) q (st_events x ++ [(eid, m)]) true))).
  Proof.
    intros Hx. assert (∀ s', sx_opened s' = sx_opened s → o ≠ HDisconnect n → routed cf answer n (s, o) = None → ∃ x', sx_opened s' !! n = Some x' ∧ st_session x' = st_session x ∧
      ((o = HDisconnect n ∧ x' = MkStream (st_session x) [] (st_events x) false) ∨
       (o ≠ HDisconnect n ∧ ∃ m, routed cf answer n (s, o) = Some m ∧ x' = queue m x) ∨
       (o ≠ HDisconnect n ∧ routed cf answer n (s, o) = None ∧
         (x' = x ∨ ∃ eid m q, o = HEmit n eid ∧ st_open x = true ∧ st_queue x = m :: q ∧ x' = MkStream (st_session x) q (st_events x ++ [(eid, m)]) true)))) as Hsame.
    { intros s' -> Ho Hr. exists x. split; [done|]. split; [done|]. right. right. eauto. }
    destruct o as [h body fresh|h fresh|i e1 e2|h|k eid|k]; cbn [h_step].
    - apply Hsame; [|done..]. unfold post_start. destruct (validate_headers h Post); [done|]. destruct body as [m|]; [|done].
      unfold process_init_session. destruct (is_init m); [destruct (hc_stateful cf); [destruct (h_session h) as [sid|]; [destruct (sx_sessions s !! sid) as [[[] ?]|]|]|]; by destruct m|].
      destruct (validate_non_init_session cf (h_session h) s); [|done]. destruct (validate_protocol_version _ _ _ _); [done|]. by destruct m.
    - apply Hsame; [|done..]. unfold get_start. destruct (validate_headers h Get); [done|]. destruct (h_session h) as [sid|], (hc_stateful cf); cbn; [destruct (sx_sessions s !! sid); [by destruct (sx_streams s !! sid)|done]|by destruct (sx_streams s !! sid)|by destruct (sx_streams s !! fresh)|done].
    - unfold routed in *. cbn [fst snd] in *. destruct (sx_pending s !! i) as [[hdr rsid id r|sid last]|] eqn:Ep; [| |by apply Hsame].
      + pose proof (post_run_routed hdr rsid id r e1 e2 (drop_pending i s)) as E. destruct (post_run _ _ _ _ _ _ _ _ _) as [s' y]. cbn [fst drop_pending sx_opened sx_streams sx_log] in *.
        destruct hdr as [sid|]; [|by apply Hsame]. destruct (hc_json cf); cbn [negb andb] in *; [by apply Hsame|].
        destruct (sx_streams s !! sid) as [k|] eqn:Ek; [|rewrite bool_decide_eq_false_2 in * by done; by apply Hsame].
        destruct (decide (k = n)) as [->|Hk].
        * rewrite bool_decide_eq_true_2 by done. rewrite E, list_lookup_alter, Hx. eexists. split; [done|]. split; [apply queue_session|]. right. left. split; [done|]. eauto.
        * rewrite bool_decide_eq_false_2 in * by congruence. rewrite E, list_lookup_alter_ne by done. exists x. split; [done|]. split; [done|]. right. right. eauto.
      + cbn. exists x. split; [by apply lookup_app_l_Some|]. split; [done|]. right. right. eauto.
    - apply Hsame; [|done..]. unfold delete_session. destruct (h_session h) as [sid|]; [|done]. by destruct (_ && _).
    - cbn [fst]. unfold emit. destruct (sx_opened s !! k) as [[sid' [|m q] out []]|] eqn:E; try (by apply Hsame).
      assert (sx_opened (if hc_store cf then keep sid' eid m (at_stream k (λ _, MkStream sid' q (out ++ [(eid, m)]) true) s) else at_stream k (λ _, MkStream sid' q (out ++ [(eid, m)]) true) s)
        = alter (λ _, MkStream sid' q (out ++ [(eid, m)]) true) k (sx_opened s)) as -> by (by destruct (hc_store cf)).
      destruct (decide (k = n)) as [->|Hk].
      + rewrite list_lookup_alter, E. cbn. rewrite Hx in E. injection E as ->. eexists. split; [done|]. split; [done|]. right. right. split; [done|]. split; [done|]. right. by exists eid, m, q.
      + rewrite list_lookup_alter_ne by done. exists x. split; [done|]. split; [done|]. right. right. eauto.
    - cbn. destruct (decide (k = n)) as [->|Hk].
      + rewrite list_lookup_alter, Hx. eexists. split; [done|]. split; [done|]. by left.
      + rewrite list_lookup_alter_ne by done. exists x. split; [done|]. split; [done|]. right. right. split; [congruence|]. split; [done|]. by left.
  Qed.
  (** while its client reads *)
  Lemma stream_carries os s n x : sx_opened s !! n = Some x → st_open x = true → HDisconnect n ∉ os →
    ∃ x', sx_opened (fold_left (λ s o, (step s o).1) os s) !! n = Some x' ∧ st_open x' = true ∧ st_session x' = st_session x ∧
      contents x' = contents x ++ omap (routed cf answer n) (h_trace cf answer s os) ∧ ∃ l, st_events x' = st_events x ++ l.
  Proof.
    revert s x. induction os as [|o os IH]; intros s x Hx Ho Hn.
    { exists x. cbn. rewrite app_nil_r. do 4 (split; [done|]). exists []. by rewrite app_nil_r. }
    apply not_elem_of_cons in Hn as [Hne Hn]. cbn [fold_left h_trace omap list_omap].
    destruct (stream_step s o n x Hx) as (x1 & Hx1 & Hs1 & [[-> _]|[(_ & m & Hr & ->)|(_ & Hr & H)]]); [done|..].
    - destruct (IH _ _ Hx1) as (x' & ? & ? & ? & Hc & l & Hl); [unfold queue; by rewrite Ho|done|]. exists x'. split; [done|]. split; [done|]. split; [congruence|]. rewrite Hr, Hc.
      unfold queue in Hl |- *. rewrite Ho in Hl |- *. cbn in Hl. split; [|by exists l]. unfold contents. cbn. by rewrite <-!app_assoc.
    - rewrite Hr. destruct H as [->|(eid & m & q & -> & _ & Hq & ->)].
      + by apply IH.
      + destruct (IH _ _ Hx1) as (x' & ? & ? & ? & Hc & l & Hl); [done|done|]. exists x'. split; [done|]. split; [done|]. split; [done|]. cbn in Hl. rewrite Hc. split.
        * unfold contents. cbn. rewrite Hq, fmap_app. cbn. by repeat (rewrite <-app_assoc; cbn [app]).
        * exists ((eid, m) :: l). by rewrite Hl, <-app_assoc.
  Qed.
  (** after it has gone *)
  Lemma stream_gone os s n x : sx_opened s !! n = Some x → st_open x = false → ∃ x', sx_opened (fold_left (λ s o, (step s o).1) os s) !! n = Some x' ∧ st_open x' = false ∧ st_events x' = st_events x.
  Proof.
    revert s x. induction os as [|o os IH]; intros s x Hx Ho; [by exists x|]. cbn [fold_left].
    destruct (stream_step s o n x Hx) as (x1 & Hx1 & _ & [[_ ->]|[(_ & m & _ & ->)|(_ & _ & [->|(eid & m & q & _ & ? & _)])]]).
    - destruct (IH _ _ Hx1 eq_refl) as (x' & ?). by exists x'.
    - unfold queue in Hx1. rewrite Ho in Hx1. by apply (IH _ x).
    - by apply (IH _ x).
    - congruence.
  Qed.
  (** the task of a stream writes what waits *)
  Lemma stream_written es s n x : sx_opened s !! n = Some x → st_open x = true → length es = length (st_queue x) →
    ∃ x', sx_opened (fold_left (λ s o, (step s o).1) (HEmit n <$> es) s) !! n = Some x' ∧ st_queue x' = [] ∧ st_events x' = st_events x ++ zip es (st_queue x).
  Proof.
    revert s x. induction es as [|e es IH]; intros s x Hx Ho He.
    { exists x. cbn. destruct (st_queue x) eqn:E; [|done]. by rewrite app_nil_r. }
    destruct x as [sid [|m q] out op]; [done|]. cbn in Ho. subst op. cbn [fmap list_fmap fold_left].
    assert (sx_opened (step s (HEmit n e)).1 !! n = Some (MkStream sid q (out ++ [(e, m)]) true)) as H1.
    { cbn [h_step fst]. unfold emit. rewrite Hx. by destruct (hc_store cf); cbn; rewrite list_lookup_alter, Hx. }
    destruct (IH _ _ H1) as (x' & ? & ? & E); [done|cbn in He |- *; lia|]. exists x'. split; [done|]. split; [done|]. rewrite E. cbn. by rewrite <-app_assoc.
  Qed.
End http.
