(** Proofs about a server on a WebSocket connection. *)
From stdpp Require Import gmap strings list.
From Verif Require Import TextLib JsonLib SerdeLib TypesModel RpcModel ManagersModel ServerModel WsModel WsSpec WsProofs WsProofs2 WsServerModel WsServerSpec.
From Verif Require ServerProofs.

Section wserver.
  Context (cf : config) (behave : list invocation → hresult) (key : list N → string).
  Notation w_step := (w_step cf behave key).
  Notation w_run := (w_run cf behave key).
  Notation frames_read := (frames_read cf behave key).
  Notation after_all := (after_all cf behave key).
  Notation handle_request := (handle_request cf behave key).
  Lemma after_snoc ms m : after_all (ms ++ [m]) = v_step cf behave key (after_all ms) (EMessage m true).
  Proof. unfold WsServerSpec.after_all. rewrite fmap_app. unfold v_run. by rewrite fold_left_app. Qed.
  Lemma handle_keeps id q s s' r : handle_request id q s = (s', r) → sv_sent s' = sv_sent s ∧ sv_listening s' = sv_listening s.
  Proof.
    unfold ServerModel.handle_request. destruct q as [c p|c p]; [|by intros [= <- <-]]. destruct c; cbn [process_client_request]; unfold invoke; repeat case_match; intros E; by simplify_eq.
  Qed.
  Lemma sent_grows ms ms' : sv_sent (after_all ms) `prefix_of` sv_sent (after_all (ms ++ ms')).
  Proof.
    induction ms' as [|m ms' IH] using rev_ind; [by rewrite app_nil_r|]. rewrite app_assoc, after_snoc. etransitivity; [exact IH|]. cbn [v_step]. destruct (sv_listening _); [|done].
    destruct m as [id q| |]; [|done..]. cbn [handle_message]. destruct (handle_request id q (after_all (ms ++ ms'))) as [s [r|]] eqn:E; apply handle_keeps in E as [E _]; cbn [sent stop sv_sent]; rewrite E; [by eexists|done].
  Qed.
  Lemma listening_before ms ms' : sv_listening (after_all (ms ++ ms')) = true → sv_listening (after_all ms) = true.
  Proof.
    induction ms' as [|m ms' IH] using rev_ind; [by rewrite app_nil_r|]. rewrite app_assoc, after_snoc. intros H. apply IH. cbn [v_step] in H. destruct (sv_listening (after_all (ms ++ ms'))) eqn:El; [done|congruence].
  Qed.
  Lemma frames_snoc x os o : frames_read x (os ++ [o]) = frames_read x os ++ frames_read (fold_left w_step os x) [o].
  Proof. revert x. induction os as [|a os IH]; intros x; [done|]. cbn [app WsServerSpec.frames_read fold_left]. by rewrite IH, app_assoc. Qed.

  (** What the message task has done with what it received *)
  Definition place (G S : list message) (x : wserver) (c : sconn) : Prop :=
    S = MsgResponse <$> sv_sent (wv_server x) ∧
    if sv_listening (wv_server x) then
      match wv_reply x with
      | None => wv_server x = after_all G
      | Some r => ∃ G' id q, G = G' ++ [MsgRequest id q] ∧ handle_request id q (after_all G') = (wv_server x, Some r)
      end
    else wv_reply x = None ∧ sv_calls (wv_server x) = sv_calls (after_all G) ∧ sv_sent (wv_server x) `prefix_of` sv_sent (after_all G) ∧
      (sc_writer c = false ∨ sv_listening (after_all G) = false ∨ sc_in c = [] ∧ sc_reader c = RDone ∧ sv_sent (wv_server x) = sv_sent (after_all G)).
  Definition wok (F : list frame) (x : wserver) : Prop :=
    ∃ os c, wv_tp x = s_run st_new os ∧ st_cur (wv_tp x) = Some 0 ∧ st_conns (wv_tp x) !! 0 = Some c ∧ taken_by 0 (s_trace st_new os) = F ∧
      place (got_from 0 (s_trace st_new os)) (sent_to 0 (s_trace st_new os)) x c.
  Lemma wok_new : wok [] wserver_new.
  Proof. exists [SBind true; SAccept true], conn_new. by repeat split. Qed.
  (** A task of the connection runs *)
  Lemma wok_task F x o f : wok F x → (o = SAgain 0 ∨ (∃ p ok, o = SWrite 0 p ok) ∨ ∃ g, o = SRead 0 g) → (∀ s, (s_step s o).1 = on_conn 0 f s) →
    (∀ c, sc_writer c = false → sc_writer (f c) = false) → (∀ c, sc_in c = [] → sc_reader c = RDone → sc_in (f c) = [] ∧ sc_reader (f c) = RDone) →
    wok (F ++ taken_by 0 [(wv_tp x, o, (s_step (wv_tp x) o).2)]) (on_tp o x).
  Proof.
    intros (os & c & E & Hcur & Hc & HF & HS & HP) Ho Hf Hw Hr. exists (os ++ [o]), (f c). unfold on_tp. cbn [wv_tp]. rewrite Hf.
    split; [rewrite s_run_snoc, <-E; by rewrite Hf|]. split; [done|]. split; [cbn [on_conn st_conns]; by rewrite list_lookup_alter, Hc|].
    rewrite s_trace_snoc, taken_by_app, got_from_app, sent_to_app, <-E, HF. split; [done|].
    assert (got_from 0 [(wv_tp x, o, (s_step (wv_tp x) o).2)] = [] ∧ sent_to 0 [(wv_tp x, o, (s_step (wv_tp x) o).2)] = []) as [-> ->] by (destruct Ho as [->|[(p & ok & ->)|(g & ->)]]; done).
    rewrite !app_nil_r. split; [done|]. cbn [wv_server wv_reply]. destruct (sv_listening (wv_server x)); [done|]. destruct HP as (H1 & H2 & H3 & H4). do 3 (split; [done|]).
    destruct H4 as [H|[H|(H5 & H6 & H7)]]; [left; by apply Hw|by right; left|]. right. right. destruct (Hr c H5 H6). done.
  Qed.
  Lemma wok_loop F x : wok F x → wok F (w_loop cf behave key x).
  Proof.
    intros (os & c & E & Hcur & Hc & HF & HS & HP). unfold w_loop. destruct (sv_listening (wv_server x)) eqn:Hl; [|exists os, c; do 4 (split; [done|]); split; [done|]; by rewrite Hl].
    assert (is_cur 0 (wv_tp x) = true) as Hic by (unfold is_cur; by rewrite Hcur).
    destruct (wv_reply x) as [r|] eqn:Hr.
    - destruct HP as (G' & id & q & HG & Hh). pose proof (handle_keeps _ _ _ _ _ Hh) as [K1 K2]. cbn [s_step]. rewrite Hcur. cbn [mbind option_bind]. rewrite Hc. cbn [fmap option_fmap option_map].
      assert (after_all (got_from 0 (s_trace st_new os)) = sent r (wv_server x)) as HA. { rewrite HG, after_snoc. cbn [v_step handle_message]. rewrite <-K2, Hl, Hh. done. }
      destruct (sc_writer c) eqn:Hw; cbn [negb].
      + destruct (length (sc_out c) <? out_cap) eqn:Hlen.
        * exists (os ++ [SSend (MsgResponse r)]). eexists. cbn [wv_tp]. split. { rewrite s_run_snoc, <-E. cbn [s_step]. rewrite Hcur. cbn [mbind option_bind]. rewrite Hc. cbn [fmap option_fmap option_map]. by rewrite Hw, Hlen. }
          split; [done|]. split; [cbn [on_conn st_conns]; by rewrite list_lookup_alter, Hc|]. rewrite s_trace_snoc, taken_by_app, got_from_app, sent_to_app, <-E. cbn [s_step]. rewrite Hcur. cbn [mbind option_bind]. rewrite Hc. cbn [fmap option_fmap option_map]. rewrite Hw, Hlen. cbn [negb snd].
          split; [by rewrite HF, app_nil_r|]. unfold got_from at 2, sent_to at 2. cbn [omap list_omap]. rewrite Hic, app_nil_r. split. { cbn [wv_server sent sv_sent]. by rewrite fmap_app, HS. }
          cbn [wv_server sent sv_listening wv_reply]. rewrite Hl. by rewrite HA.
        * exists os, c. do 4 (split; [done|]). split; [done|]. cbn [wv_server wv_reply]. rewrite Hl. by exists G', id, q.
      + exists os, c. do 4 (split; [done|]). split; [done|]. cbn [wv_server wv_reply stop sv_listening sv_calls sv_sent]. rewrite HA. cbn [sent sv_calls sv_sent]. split; [done|]. split; [done|]. split; [by eexists|by left].
    - cbn [s_step]. rewrite Hcur. cbn [mbind option_bind]. rewrite Hc. cbn [fmap option_fmap option_map]. destruct (sc_in c) as [|m q] eqn:Hin.
      + destruct (sc_reader c) eqn:Hrd; cycle 3.
        * exists os, c. do 4 (split; [done|]). split; [done|]. cbn [wv_server wv_reply stop sv_listening sv_calls sv_sent]. rewrite HP. do 3 (split; [done|]). by right; right.
        * exists os, c. do 4 (split; [done|]). split; [done|]. cbn [wv_server wv_reply]. by rewrite Hl.
        * exists os, c. do 4 (split; [done|]). split; [done|]. cbn [wv_server wv_reply]. by rewrite Hl.
        * exists os, c. do 4 (split; [done|]). split; [done|]. cbn [wv_server wv_reply]. by rewrite Hl.
      + set (t' := on_conn 0 (λ c, SConn q (sc_rx c) (sc_out c) (sc_tx c) (sc_pongs c) (sc_reader c) (sc_writer c) (sc_wire c)) (wv_tp x)).
        set (c' := SConn q (sc_rx c) (sc_out c) (sc_tx c) (sc_pongs c) (sc_reader c) (sc_writer c) (sc_wire c)).
        assert (s_step (wv_tp x) SReceive = (t', SGot m)) as Es. { cbn [s_step]. rewrite Hcur. cbn [mbind option_bind]. rewrite Hc. cbn [fmap option_fmap option_map]. by rewrite Hin. }
        assert (∀ x', wv_tp x' = t' → place (got_from 0 (s_trace st_new os) ++ [m]) (sent_to 0 (s_trace st_new os)) x' c' → wok F x') as W.
        { intros x' Et Hp. exists (os ++ [SReceive]), c'. rewrite s_run_snoc, <-E, Es. split; [done|]. rewrite Et. split; [done|]. split; [cbn [t' on_conn st_conns]; by rewrite list_lookup_alter, Hc|].
          rewrite s_trace_snoc, taken_by_app, got_from_app, sent_to_app, <-E, Es. cbn [snd]. unfold got_from at 2, sent_to at 2. cbn [omap list_omap]. rewrite Hic. split; [by rewrite HF, app_nil_r|by rewrite app_nil_r]. }
        assert (after_all (got_from 0 (s_trace st_new os) ++ [m]) = handle_message cf behave key m true (wv_server x)) as HA. { rewrite after_snoc, <-HP. cbn [v_step]. by rewrite Hl. }
        destruct m as [id qq|rr|nn].
        * destruct (handle_request id qq (wv_server x)) as [s [r|]] eqn:Hh; pose proof (handle_keeps _ _ _ _ _ Hh) as [K1 K2]; apply W; try done.
          -- split; cbn [wv_server wv_reply]; [by rewrite K1|]. rewrite K2, Hl. exists (got_from 0 (s_trace st_new os)), id, qq. by rewrite <-HP.
          -- split; cbn [wv_server wv_reply stop sv_listening sv_calls sv_sent]; [by rewrite K1|]. rewrite HA. cbn [handle_message]. rewrite Hh. cbn [stop sv_listening sv_calls sv_sent]. do 3 (split; [done|]). by right; left.
        * apply W; [done|]. split; [done|]. cbn [wv_server wv_reply]. by rewrite Hl, HA.
        * apply W; [done|]. split; [done|]. cbn [wv_server wv_reply]. by rewrite Hl, HA.
  Qed.
  Lemma frames_taken x f : taken_by 0 [(wv_tp x, SRead 0 f, SOk)] = match sc_reader <$> st_conns (wv_tp x) !! 0 with Some RIdle => [f] | _ => [] end.
  Proof. unfold taken_by. cbn [omap list_omap]. destruct (sc_reader <$> st_conns (wv_tp x) !! 0) as [[]|]; done. Qed.
  Lemma wok_run os : wok (frames_read wserver_new os) (w_run os).
  Proof.
    induction os as [|o os IH] using rev_ind; [apply wok_new|]. rewrite frames_snoc. unfold WsServerModel.w_run in *. rewrite fold_left_app. cbn [fold_left]. set (x := fold_left w_step os wserver_new) in *. cbn [WsServerSpec.frames_read]. rewrite app_nil_r.
    destruct o as [f| |p ok|]; cbn [WsServerModel.w_step].
    - rewrite <-frames_taken. apply (wok_task _ _ (SRead 0 f) (read_frame f) IH); [by right; right; eexists|done| |].
      + intros c H. unfold read_frame, put_in, put_pong. repeat case_match; cbn; congruence.
      + intros c H1 H2. unfold read_frame. by rewrite H2.
    - rewrite <-(app_nil_r (frames_read wserver_new os)) in IH |- *. rewrite !app_nil_r in *. pose proof (wok_task _ _ (SAgain 0) read_again IH) as W. unfold taken_by in W. cbn in W. rewrite app_nil_r in W. apply W; [by left|done| |].
      + intros c H. unfold read_again, put_in, put_pong. repeat case_match; cbn; congruence.
      + intros c H1 H2. unfold read_again. by rewrite H2.
    - pose proof (wok_task _ _ (SWrite 0 p ok) (write_frame p ok) IH) as W. unfold taken_by in W. cbn in W. rewrite app_nil_r in *. apply W; [right; left; by eexists _, _|done| |].
      + intros c H. unfold write_frame. by rewrite H.
      + intros c H1 H2. unfold write_frame. repeat case_match; cbn; done.
    - rewrite app_nil_r. by apply wok_loop.
  Qed.

  (** *** What the peer gets *)
  Lemma conn_facts os c : st_cur (s_run st_new os) = Some 0 → st_conns (s_run st_new os) !! 0 = Some c →
    cinv true (got_from 0 (s_trace st_new os)) (taken_by 0 (s_trace st_new os)) (sent_to 0 (s_trace st_new os)) c.
  Proof. intros H1 H2. destruct (s_run_inv os) as [I _]. specialize (I 0 c H2). unfold is_cur in I. by rewrite H1 in I. Qed.
  Lemma place_sent G S x c : place G S x c → sv_sent (wv_server x) `prefix_of` sv_sent (after_all G) ∧ sv_calls (wv_server x) = sv_calls (after_all G).
  Proof.
    intros [_ HP]. destruct (sv_listening (wv_server x)) eqn:Hl; [|by destruct HP as (_ & ? & ? & _)]. destruct (wv_reply x) as [r|]; [|by rewrite HP].
    destruct HP as (G' & id & q & -> & Hh). pose proof (handle_keeps _ _ _ _ _ Hh) as [K1 K2]. rewrite after_snoc. cbn [v_step handle_message]. rewrite <-K2, Hl, Hh. cbn [sent sv_sent sv_calls]. split; [by eexists|done].
  Qed.
  Lemma w_answers os : let x := w_run os in let F := frames_read wserver_new os in
    texts_written x `prefix_of` ((λ r, serialize_message (MsgResponse r)) <$> sv_sent (after_all (said F))) ∧
    ∃ ms, ms `prefix_of` said F ∧ sv_calls (wv_server x) = sv_calls (after_all ms).
  Proof.
    cbn zeta. destruct (wok_run os) as (ops & c & E & Hcur & Hc & HF & HP). rewrite E in Hcur, Hc. pose proof (conn_facts ops c Hcur Hc) as (_ & _ & C1 & _ & C2 & _). destruct (place_sent _ _ _ _ HP) as [P1 P2]. destruct HP as [HS _].
    unfold texts_written. rewrite E, Hc. rewrite HF in C1. split; [|by exists (got_from 0 (s_trace st_new ops))]. etransitivity; [exact C2|]. rewrite HS, <-list_fmap_compose. destruct C1 as [l ->].
    assert (∀ A B (f : A → B) l l', l `prefix_of` l' → f <$> l `prefix_of` f <$> l') as Hpre by (intros A B f l1 l2 [k ->]; rewrite fmap_app; by eexists).
    apply Hpre. etransitivity; [exact P1|apply sent_grows].
  Qed.
  Lemma settled_all os : let x := w_run os in let F := frames_read wserver_new os in settled cf behave key x → writable x → sv_listening (after_all (said F)) = true →
    texts_written x = (λ r, serialize_message (MsgResponse r)) <$> sv_sent (after_all (said F)) ∧ sv_calls (wv_server x) = sv_calls (after_all (said F)).
  Proof.
    cbn zeta. intros Hst (c0 & Hc0 & Hw) Hl. destruct (wok_run os) as (ops & c & E & Hcur & Hc & HF & HP). rewrite Hc in Hc0. injection Hc0 as <-.
    set (x := w_run os) in *. assert (∀ f, (λ s, (on_conn 0 f s)) (wv_tp x) = wv_tp x → f c = c) as Hon.
    { intros f H. cbn in H. apply (f_equal (λ t, st_conns t !! 0)) in H. cbn [on_conn st_conns] in H. rewrite list_lookup_alter, Hc in H. by injection H. }
    assert (sc_out c = []) as Ho. { assert (write_frame false true c = c) as H by (apply Hon; exact (f_equal wv_tp (Hst (WWrite false true) (or_introl (ex_intro _ false eq_refl))))).
      unfold write_frame in H. rewrite Hw in H. cbn [negb] in H. destruct (sc_out c) as [|m out]; [done|]. apply (f_equal sc_wire) in H. cbn [sc_wire] in H. apply (f_equal length) in H. rewrite app_length in H. cbn in H. lia. }
    assert (read_again c = c) as Hra by (apply Hon; exact (f_equal wv_tp (Hst WAgain (or_intror (or_introl eq_refl))))).
    pose proof (Hst WLoop (or_intror (or_intror eq_refl))) as Hlo. cbn [WsServerModel.w_step] in Hlo.
    pose proof E as E'. assert (Hcur' := Hcur). assert (Hc' := Hc). rewrite E in Hcur', Hc'. pose proof (conn_facts ops c Hcur' Hc') as (Crx & _ & _ & C1 & _ & C2 & _). specialize (C1 eq_refl). specialize (C2 Hw). rewrite Ho, app_nil_r in C2.
    assert (sc_in c = [] ∧ wv_reply x = None ∧ (sv_sent (wv_server x) = sv_sent (after_all (got_from 0 (s_trace st_new ops))) ∧ sv_calls (wv_server x) = sv_calls (after_all (got_from 0 (s_trace st_new ops))))) as (Hin & Hrp & Hse & Hca).
    { destruct HP as [_ HP]. unfold w_loop in Hlo. destruct (sv_listening (wv_server x)) eqn:Hli.
      - destruct (wv_reply x) as [r|] eqn:Hr.
        + exfalso. cbn [s_step] in Hlo. rewrite Hcur in Hlo. cbn [mbind option_bind] in Hlo. rewrite Hc in Hlo. cbn [fmap option_fmap option_map] in Hlo. rewrite Hw, Ho in Hlo. cbn [negb length] in Hlo. rewrite (eq_refl : (0 <? out_cap) = true) in Hlo. apply (f_equal wv_reply) in Hlo. cbn [wv_reply] in Hlo. congruence.
        + cbn [s_step] in Hlo. rewrite Hcur in Hlo. cbn [mbind option_bind] in Hlo. rewrite Hc in Hlo. cbn [fmap option_fmap option_map] in Hlo. destruct (sc_in c) as [|m q] eqn:Hin; [by rewrite HP|].
          exfalso. assert (∀ y, y = x → wv_tp y ≠ on_conn 0 (λ c, SConn q (sc_rx c) (sc_out c) (sc_tx c) (sc_pongs c) (sc_reader c) (sc_writer c) (sc_wire c)) (wv_tp x)) as Hne.
          { intros y -> H. symmetry in H. apply (Hon (λ c, SConn q (sc_rx c) (sc_out c) (sc_tx c) (sc_pongs c) (sc_reader c) (sc_writer c) (sc_wire c))) in H. apply (f_equal sc_in) in H. cbn in H. rewrite Hin in H. apply (f_equal length) in H. cbn in H. lia. }
          apply (Hne _ Hlo). destruct m as [id qq|rr|nn]; [|done..]. by destruct (handle_request id qq (wv_server x)) as [s [r|]].
      - destruct HP as (Hr & H2 & _ & [H|[H|(H3 & H4 & H5)]]); [congruence| |done]. exfalso. rewrite HF in C1. rewrite <-C1 in Hl. apply listening_before in Hl. congruence. }
    assert (held_msg c = []) as Hh. { unfold held_msg. destruct (sc_reader c) as [|m| |] eqn:Er; try done. exfalso. unfold read_again, put_in in Hra. rewrite Er, Crx, Hin in Hra. cbn [negb length] in Hra. rewrite (eq_refl : (0 <? in_cap) = true) in Hra. apply (f_equal sc_in) in Hra. cbn in Hra. by rewrite Hin in Hra. }
    rewrite Hin, Hh, !app_nil_r in C1. rewrite HF in C1. rewrite <-C1. split; [|done]. unfold texts_written. rewrite Hc, C2. destruct HP as [HS _]. by rewrite HS, <-list_fmap_compose, Hse.
  Qed.

  (** *** It comes to rest *)
  Definition weight (c : sconn) : nat := 5 * length (held_msg c) + 4 * length (sc_in c) + 2 * length (held_pong c) + length (sc_pongs c) + length (sc_out c) + match sc_reader c with RDone => 0 | _ => 1 end.
  Definition load (x : wserver) : nat :=
    match st_conns (wv_tp x) !! 0 with Some c => weight c | None => 0 end + match wv_reply x with Some _ => 2 | None => 0 end + (if sv_listening (wv_server x) then 1 else 0).
  Lemma again_weight c : read_again c = c ∨ weight (read_again c) < weight c.
  Proof.
    unfold read_again. destruct (sc_reader c) as [|m|d|] eqn:Er; [by left| | |by left].
    - unfold put_in. destruct (sc_rx c) eqn:Erx; cbn [negb]; [|right; unfold weight, held_msg, held_pong; cbn; rewrite Er; cbn; lia]. destruct (length (sc_in c) <? in_cap); [right; unfold weight, held_msg, held_pong; cbn; rewrite Er, app_length; cbn; lia|]. left. rewrite <-Er, <-Erx at 1. by destruct c; cbn in *; subst.
    - unfold put_pong. destruct (sc_writer c) eqn:Ew; cbn [negb]; [|right; unfold weight, held_msg, held_pong; cbn; rewrite Er; cbn; lia]. destruct (length (sc_pongs c) <? pong_cap); [right; unfold weight, held_msg, held_pong; cbn; rewrite Er, app_length; cbn; lia|]. left. by destruct c; cbn in *; subst.
  Qed.
  Lemma write_weight p c : sc_tx c = true → write_frame p true c = c ∨ weight (write_frame p true c) < weight c.
  Proof.
    intros Ht. unfold write_frame. destruct (sc_writer c); cbn [negb]; [|by left]. rewrite Ht. cbn [negb andb].
    destruct p, (sc_out c) as [|m out] eqn:Eo, (sc_pongs c) as [|d ps] eqn:Ep; try (by left); right; unfold weight, held_msg, held_pong; cbn; rewrite ?Eo, ?Ep; cbn; lia.
  Qed.
  Lemma write_writer p c : sc_tx c = true → sc_writer c = true → sc_writer (write_frame p true c) = true.
  Proof. intros Ht Hw. unfold write_frame. rewrite Hw, Ht. cbn [negb andb]. by destruct p, (sc_out c), (sc_pongs c). Qed.
  Lemma same_conn f t c : st_conns t !! 0 = Some c → f c = c → on_conn 0 f t = t.
  Proof. intros H E. destruct t as [b [|c0 cs] k]; [done|]. cbn in H. injection H as ->. unfold on_conn. cbn. by rewrite E. Qed.
  Definition rests (o : wop) : Prop := (∃ p, o = WWrite p true) ∨ o = WAgain ∨ o = WLoop.
  Lemma step_load F x o : wok F x → rests o → w_step x o = x ∨ load (w_step x o) < load x.
  Proof.
    intros (os & c & E & Hcur & Hc & _) Ho. assert (sc_tx c = true) as Ht. { rewrite E in Hcur, Hc. by destruct (conn_facts os c Hcur Hc) as (_ & ? & _). }
    destruct Ho as [[p ->]|[->| ->]]; cbn [WsServerModel.w_step].
    - destruct (write_weight p c Ht) as [H|H]; [left|right].
      + unfold on_tp. cbn [s_step fst]. rewrite (same_conn _ _ c Hc H). by destruct x.
      + unfold load, on_tp. cbn [s_step fst wv_tp on_conn st_conns wv_reply wv_server]. rewrite list_lookup_alter, Hc. cbn [fmap option_fmap option_map]. lia.
    - destruct (again_weight c) as [H|H]; [left|right].
      + unfold on_tp. cbn [s_step fst]. rewrite (same_conn _ _ c Hc H). by destruct x.
      + unfold load, on_tp. cbn [s_step fst wv_tp on_conn st_conns wv_reply wv_server]. rewrite list_lookup_alter, Hc. cbn [fmap option_fmap option_map]. lia.
    - unfold w_loop. destruct (sv_listening (wv_server x)) eqn:Hl; [|by left]. destruct (wv_reply x) as [r|] eqn:Hr; cbn [s_step]; rewrite Hcur; cbn [mbind option_bind]; rewrite Hc; cbn [fmap option_fmap option_map].
      + destruct (sc_writer c); cbn [negb]; [destruct (length (sc_out c) <? out_cap)|].
        * right. unfold load. cbn [wv_tp on_conn st_conns wv_reply wv_server sent sv_listening]. rewrite list_lookup_alter, Hc, Hr, Hl. cbn [fmap option_fmap option_map]. unfold weight, held_msg, held_pong. cbn. rewrite app_length. cbn. lia.
        * left. rewrite <-Hr. by destruct x.
        * right. unfold load. cbn [wv_tp wv_reply wv_server stop sv_listening]. rewrite Hc, Hr, Hl. lia.
      + destruct (sc_in c) as [|m q] eqn:Hin.
        * destruct (sc_reader c) eqn:Hrd; cycle 3; [|left; rewrite <-Hr; by destruct x..]. right. unfold load. cbn [wv_tp wv_reply wv_server stop sv_listening]. rewrite Hc, Hr, Hl. lia.
        * right. assert (∀ s r, load (MkWServer (on_conn 0 (λ c, SConn q (sc_rx c) (sc_out c) (sc_tx c) (sc_pongs c) (sc_reader c) (sc_writer c) (sc_wire c)) (wv_tp x)) s r) < load x) as L.
          { intros s r. unfold load. cbn [wv_tp on_conn st_conns wv_reply wv_server]. rewrite list_lookup_alter, Hc, Hr, Hl. cbn [fmap option_fmap option_map]. unfold weight, held_msg, held_pong. cbn. rewrite Hin. cbn. destruct r, (sv_listening s); lia. }
          destruct m as [id qq|rr|nn]; [destruct (handle_request id qq (wv_server x)) as [s [r|]]|..]; apply L.
  Qed.
  Lemma rests_writable F x o : wok F x → rests o → writable x → writable (w_step x o).
  Proof.
    intros (os & c & E & Hcur & Hc & _) Ho (c0 & Hc0 & Hw). rewrite Hc in Hc0. injection Hc0 as <-. assert (sc_tx c = true) as Ht. { rewrite E in Hcur, Hc. by destruct (conn_facts os c Hcur Hc) as (_ & ? & _). }
    destruct Ho as [[p ->]|[->| ->]]; cbn [WsServerModel.w_step].
    - exists (write_frame p true c). split; [cbn; by rewrite list_lookup_alter, Hc|]. by apply write_writer.
    - exists (read_again c). split; [cbn; by rewrite list_lookup_alter, Hc|]. unfold read_again, put_in, put_pong. repeat case_match; done.
    - unfold w_loop. destruct (sv_listening (wv_server x)); [|by exists c]. destruct (wv_reply x) as [r|]; cbn [s_step]; rewrite Hcur; cbn [mbind option_bind]; rewrite Hc; cbn [fmap option_fmap option_map].
      + rewrite Hw. cbn [negb]. destruct (length (sc_out c) <? out_cap); [|by exists c]. eexists. cbn [wv_tp on_conn st_conns]. rewrite list_lookup_alter, Hc. by split.
      + destruct (sc_in c) as [|m q]; [destruct (sc_reader c); by exists c|].
        assert (∀ s r, writable (MkWServer (on_conn 0 (λ c, SConn q (sc_rx c) (sc_out c) (sc_tx c) (sc_pongs c) (sc_reader c) (sc_writer c) (sc_wire c)) (wv_tp x)) s r)) as L.
        { intros s r. eexists. cbn [wv_tp on_conn st_conns]. rewrite list_lookup_alter, Hc. by split. }
        destruct m as [id qq|rr|nn]; [destruct (handle_request id qq (wv_server x)) as [s [r|]]|..]; apply L.
  Qed.
  Lemma rests_frames x os o : rests o → frames_read x (os ++ [o]) = frames_read x os.
  Proof. intros Ho. rewrite frames_snoc. destruct Ho as [[p ->]|[->| ->]]; cbn; by rewrite app_nil_r. Qed.
  Lemma comes_to_rest os : writable (w_run os) → ∃ os', Forall rests os' ∧ settled cf behave key (w_run (os ++ os')) ∧ writable (w_run (os ++ os')) ∧ frames_read wserver_new (os ++ os') = frames_read wserver_new os.
  Proof.
    remember (load (w_run os)) as n eqn:En. revert os En. induction n as [n IH] using lt_wf_ind. intros os -> Hw. pose proof (wok_run os) as K.
    assert (∀ o, rests o → load (w_step (w_run os) o) < load (w_run os) → ∃ os', Forall rests os' ∧ settled cf behave key (w_run (os ++ os')) ∧ writable (w_run (os ++ os')) ∧ frames_read wserver_new (os ++ os') = frames_read wserver_new os) as next.
    { intros o Ho Hlt. assert (w_run (os ++ [o]) = w_step (w_run os) o) as E by (unfold WsServerModel.w_run; by rewrite fold_left_app).
      destruct (IH (load (w_run (os ++ [o])))) with (os := os ++ [o]) as (os' & H1 & H2 & H3 & H4); [by rewrite E|done|rewrite E; by eapply rests_writable|]. rewrite <-app_assoc in *. exists ([o] ++ os'). split; [by apply Forall_cons|]. do 2 (split; [done|]). rewrite H4. by apply rests_frames. }
    destruct (step_load _ _ (WWrite false true) K) as [H1|H1]; [left; by eexists| |apply (next (WWrite false true)); [left; by eexists|done]].
    destruct (step_load _ _ (WWrite true true) K) as [H2|H2]; [left; by eexists| |apply (next (WWrite true true)); [left; by eexists|done]].
    destruct (step_load _ _ WAgain K) as [H3|H3]; [by right; left| |apply (next WAgain); [by right; left|done]].
    destruct (step_load _ _ WLoop K) as [H4|H4]; [by right; right| |apply (next WLoop); [by right; right|done]].
    exists []. rewrite app_nil_r. split; [by apply Forall_nil_2|]. split; [|done]. intros o [[[] ->]|[->| ->]]; done.
  Qed.

  (** *** It goes on reading *)
  Definition done_why (F : list frame) (x : wserver) : Prop :=
    ∀ c, st_conns (wv_tp x) !! 0 = Some c → sc_reader c = RDone → sc_writer c = false ∨ Exists (λ f, f = FClose ∨ f = FError ∨ f = FEnd) F.
  Lemma loop_conn x c : st_conns (wv_tp (w_loop cf behave key x)) !! 0 = Some c →
    ∃ c', st_conns (wv_tp x) !! 0 = Some c' ∧ sc_reader c = sc_reader c' ∧ sc_writer c = sc_writer c'.
  Proof.
    unfold w_loop. destruct (sv_listening (wv_server x)); [|by exists c]. assert (∀ o c, o = SReceive ∨ (∃ m, o = SSend m) → st_conns (s_step (wv_tp x) o).1 !! 0 = Some c → ∃ c', st_conns (wv_tp x) !! 0 = Some c' ∧ sc_reader c = sc_reader c' ∧ sc_writer c = sc_writer c') as G.
    { clear c. intros o c Ho. assert (∀ k f, (∀ c, sc_reader (f c) = sc_reader c ∧ sc_writer (f c) = sc_writer c) → st_conns (on_conn k f (wv_tp x)) !! 0 = Some c → ∃ c', st_conns (wv_tp x) !! 0 = Some c' ∧ sc_reader c = sc_reader c' ∧ sc_writer c = sc_writer c') as A.
      { intros k f Hf H. cbn [on_conn st_conns] in H. destruct (decide (k = 0)) as [->|Hk]; [|rewrite list_lookup_alter_ne in H by done; by exists c]. rewrite list_lookup_alter in H. destruct (st_conns (wv_tp x) !! 0) as [c'|]; [|done]. injection H as <-. exists c'. split; [done|apply Hf]. }
      destruct Ho as [->|[m ->]]; cbn [s_step]; destruct (st_cur (wv_tp x) ≫= _) as [[k c1]|]; try (intros H; by exists c).
      - destruct (sc_in c1); [destruct (sc_reader c1); intros H; by exists c|]. cbn [fst]. by apply A.
      - destruct (negb (sc_writer c1)); [intros H; by exists c|]. destruct (length (sc_out c1) <? out_cap); [|intros H; by exists c]. cbn [fst]. by apply A. }
    destruct (wv_reply x) as [r|].
    - intros H. apply (G (SSend (MsgResponse r))); [right; by eexists|]. destruct (s_step (wv_tp x) (SSend (MsgResponse r))) as [t []]; exact H.
    - intros H. apply (G SReceive); [by left|]. destruct (s_step (wv_tp x) SReceive) as [t [| |[id q| |]|]]; try exact H. destruct (handle_request id q (wv_server x)) as [s [r|]]; exact H.
  Qed.
  Lemma done_run os : done_why (frames_read wserver_new os) (w_run os).
  Proof.
    induction os as [|o os IH] using rev_ind; [intros c [= <-]; done|]. pose proof (wok_run os) as (ops & c0 & Et & Hcur & Hc0 & _). assert (sc_rx c0 = true) as Hrx. { rewrite Et in Hcur, Hc0. by destruct (conn_facts ops c0 Hcur Hc0) as (? & _). }
    rewrite frames_snoc. unfold WsServerModel.w_run in *. rewrite fold_left_app. cbn [fold_left]. set (x := fold_left w_step os wserver_new) in *. cbn [WsServerSpec.frames_read]. rewrite app_nil_r. specialize (IH c0 Hc0).
    intros c Hc Hd. rewrite Exists_app.
    destruct o as [f| |p ok|]; cbn [WsServerModel.w_step] in Hc; [..|apply loop_conn in Hc as (c' & Hc' & E1 & E2); rewrite Hc0 in Hc'; injection Hc' as <-; rewrite E2; destruct IH; [congruence|by left|by right; left]];
      unfold on_tp in Hc; cbn [s_step fst wv_tp on_conn st_conns] in Hc; rewrite list_lookup_alter, Hc0 in Hc; cbn [fmap option_fmap option_map] in Hc; injection Hc as <-.
    - rewrite Hc0. cbn [fmap option_fmap option_map]. unfold read_frame in Hd |- *. destruct (sc_reader c0) eqn:Er; [|congruence|congruence|destruct (IH eq_refl); [by left|by right; left]].
      destruct f as [bs| |d|d| | |]; [| | | |right; right; apply Exists_cons_hd; naive_solver..].
      + destruct (parse_message bs); [|congruence]. unfold put_in in Hd. rewrite Hrx in Hd. cbn [negb] in Hd. destruct (length (sc_in c0) <? in_cap); done.
      + congruence.
      + unfold put_pong in Hd |- *. destruct (sc_writer c0) eqn:Ew; cbn [negb] in Hd |- *; [destruct (length (sc_pongs c0) <? pong_cap); done|by left].
      + congruence.
    - unfold read_again in Hd |- *. destruct (sc_reader c0) eqn:Er; [congruence| | |destruct (IH eq_refl); [by left|by right; left]].
      + unfold put_in in Hd. rewrite Hrx in Hd. cbn [negb] in Hd. destruct (length (sc_in c0) <? in_cap); done.
      + unfold put_pong in Hd |- *. destruct (sc_writer c0) eqn:Ew; cbn [negb] in Hd |- *; [destruct (length (sc_pongs c0) <? pong_cap); done|by left].
    - assert (sc_reader (write_frame p ok c0) = sc_reader c0 ∧ (sc_writer c0 = false → sc_writer (write_frame p ok c0) = false)) as [E1 E2].
      { unfold write_frame. destruct (sc_writer c0) eqn:Ew; [|by cbn [negb]; rewrite Ew]. cbn [negb]. split; [|done]. repeat case_match; done. }
      rewrite E1 in Hd. destruct (IH Hd) as [H|H]; [left; by apply E2|by right; left].
  Qed.
  Lemma reads_on os f : let x := w_run os in let F := frames_read wserver_new os in settled cf behave key x → writable x → sv_listening (after_all (said F)) = true →
    (∀ g, g ∈ F → g ≠ FClose ∧ g ≠ FError ∧ g ≠ FEnd) → frames_read wserver_new (os ++ [WRead f]) = F ++ [f].
  Proof.
    cbn zeta. intros Hst Hwr Hl HF. pose proof (settled_all os Hst Hwr Hl) as HA. destruct Hwr as (c & Hc & Hw). rewrite frames_snoc. cbn [WsServerSpec.frames_read]. unfold WsServerModel.w_run in *. rewrite Hc. cbn [fmap option_fmap option_map]. rewrite app_nil_r. f_equal.
    set (x := fold_left w_step os wserver_new) in *.
    assert (∀ f, on_conn 0 f (wv_tp x) = wv_tp x → f c = c) as Hon.
    { intros g H. apply (f_equal (λ t, st_conns t !! 0)) in H. cbn [on_conn st_conns] in H. rewrite list_lookup_alter, Hc in H. by injection H. }
    assert (sc_in c = [] ∧ sc_rx c = true) as [Hin Hrx].
    { destruct (wok_run os) as (ops & c' & E & Hcur & Hc' & HF' & HP). unfold WsServerModel.w_run in *. fold x in E, Hcur, Hc', HP. rewrite Hc in Hc'. injection Hc' as <-. assert (Hcur' := Hcur). assert (Hc' := Hc). rewrite E in Hcur', Hc'. destruct (conn_facts ops c Hcur' Hc') as (Crx & _ & C1 & _). split; [|done].
      pose proof (Hst WLoop (or_intror (or_intror eq_refl))) as Hlo. cbn [WsServerModel.w_step] in Hlo. destruct HP as [_ HP]. unfold w_loop in Hlo. destruct (sv_listening (wv_server x)) eqn:Hli.
      - assert (wv_reply x = None) as Hr. { destruct (wv_reply x) as [r|] eqn:Hr; [|done]. exfalso. assert (sc_out c = []) as Ho. { assert (write_frame false true c = c) as H by (apply Hon; exact (f_equal wv_tp (Hst (WWrite false true) (or_introl (ex_intro _ false eq_refl))))). unfold write_frame in H. rewrite Hw in H. cbn [negb] in H. destruct (sc_out c) as [|m out]; [done|]. apply (f_equal sc_wire) in H. cbn [sc_wire] in H. apply (f_equal length) in H. rewrite app_length in H. cbn in H. lia. }
          cbn [s_step] in Hlo. rewrite Hcur in Hlo. cbn [mbind option_bind] in Hlo. rewrite Hc in Hlo. cbn [fmap option_fmap option_map] in Hlo. rewrite Hw, Ho in Hlo. cbn [negb length] in Hlo. rewrite (eq_refl : (0 <? out_cap) = true) in Hlo. apply (f_equal wv_reply) in Hlo. cbn [wv_reply] in Hlo. congruence. }
        rewrite Hr in Hlo. cbn [s_step] in Hlo. rewrite Hcur in Hlo. cbn [mbind option_bind] in Hlo. rewrite Hc in Hlo. cbn [fmap option_fmap option_map] in Hlo. destruct (sc_in c) as [|m q] eqn:Hin; [done|]. exfalso.
        assert (∀ y, y = x → wv_tp y ≠ on_conn 0 (λ c, SConn q (sc_rx c) (sc_out c) (sc_tx c) (sc_pongs c) (sc_reader c) (sc_writer c) (sc_wire c)) (wv_tp x)) as Hne.
        { intros y -> H. symmetry in H. apply (Hon (λ c, SConn q (sc_rx c) (sc_out c) (sc_tx c) (sc_pongs c) (sc_reader c) (sc_writer c) (sc_wire c))) in H. apply (f_equal sc_in) in H. cbn in H. rewrite Hin in H. apply (f_equal length) in H. cbn in H. lia. }
        apply (Hne _ Hlo). destruct m as [id qq|rr|nn]; [|done..]. by destruct (handle_request id qq (wv_server x)) as [s [r|]].
      - destruct HP as (_ & _ & _ & [H|[H|(H3 & _)]]); [congruence| |done]. exfalso. rewrite HF' in C1. destruct C1 as [l C1]. rewrite C1 in Hl. apply listening_before in Hl. congruence. }
    destruct (sc_reader c) as [|m|d|] eqn:Er; [done| | |].
    - exfalso. assert (read_again c = c) as H by (apply Hon; exact (f_equal wv_tp (Hst WAgain (or_intror (or_introl eq_refl))))). unfold read_again, put_in in H. rewrite Er, Hrx, Hin in H. cbn [negb length] in H. rewrite (eq_refl : (0 <? in_cap) = true) in H. apply (f_equal sc_in) in H. cbn in H. by rewrite Hin in H.
    - exfalso. assert (sc_pongs c = []) as Hp. { assert (write_frame true true c = c) as H by (apply Hon; exact (f_equal wv_tp (Hst (WWrite true true) (or_introl (ex_intro _ true eq_refl))))). unfold write_frame in H. rewrite Hw in H. cbn [negb] in H. destruct (sc_pongs c) as [|d' ps]; [done|]. apply (f_equal sc_wire) in H. cbn [sc_wire] in H. apply (f_equal length) in H. destruct (sc_out c); cbn [sc_wire] in H; rewrite app_length in H; cbn in H; lia. }
      assert (read_again c = c) as H by (apply Hon; exact (f_equal wv_tp (Hst WAgain (or_intror (or_introl eq_refl))))). unfold read_again, put_pong in H. rewrite Er, Hw, Hp in H. cbn [negb length] in H. rewrite (eq_refl : (0 <? pong_cap) = true) in H. apply (f_equal sc_pongs) in H. cbn in H. by rewrite Hp in H.
    - exfalso. destruct (done_run os c Hc Er) as [H|H]; [congruence|]. apply Exists_exists in H as (g & Hg & H). destruct (HF g Hg) as (? & ? & ?). naive_solver.
  Qed.
End wserver.
