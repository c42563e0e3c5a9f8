(** Proofs about a client and a server connected over stdio. *)
From stdpp Require Import gmap strings list.
From Verif Require Import ListLib TextLib JsonLib SerdeLib TypesModel RpcModel RpcSpec RpcProofs ManagersModel ServerModel ServerSpec ServerProofs ClientModel ClientSpec ClientProofs StdioModel StdioSpec StdioProofs StackModel StackSpec.

Definition wire (ms : list message) : list N := concat ((λ m, frame (serialize_message m)) <$> ms).
Lemma wire_app a b : wire (a ++ b) = wire a ++ wire b.
Proof. unfold wire. by rewrite fmap_app, concat_app. Qed.
Lemma wire_cons m ms : wire (m :: ms) = frame (serialize_message m) ++ wire ms.
Proof. done. Qed.
Lemma frame_cons p : ∃ b l, frame p = b :: l.
Proof. unfold frame. rewrite header_cons. cbn [app]. by eexists _, _. Qed.
Lemma wire_length ms : (length ms ≤ length (wire ms))%nat.
Proof.
  induction ms as [|m ms IH]; [done|]. rewrite wire_cons, app_length. destruct (frame_cons (serialize_message m)) as (b & l & ->). cbn [length]. lia.
Qed.
Lemma send_all_open ms t : sd_closed t = false → send_all ms t = {| sd_in := sd_in t; sd_out := sd_out t ++ wire ms; sd_closed := false |}.
Proof.
  revert t. induction ms as [|m ms IH]; intros t Ht.
  - unfold wire. cbn. rewrite app_nil_r. destruct t; cbn in *; by subst.
  - unfold send_all in *. cbn [fold_left]. unfold StdioModel.send. rewrite Ht. cbn [snd]. rewrite IH by done. cbn [sd_in sd_out]. by rewrite wire_cons, app_assoc.
Qed.
Lemma receive_msg m r out : sendable m →
  StdioModel.receive {| sd_in := frame (serialize_message m) ++ r; sd_out := out; sd_closed := false |} = (RMsg (msg_seen_as m), {| sd_in := r; sd_out := out; sd_closed := false |}).
Proof.
  intros (Hg & Hn & Hs & Hl). rewrite receive_frame by done. unfold reading. by rewrite message_bytes.
Qed.
Lemma collect_wire ms : Forall sendable ms → ∀ fuel out, (length ms < fuel)%nat →
  collect fuel {| sd_in := wire ms; sd_out := out; sd_closed := false |} = (msg_seen_as <$> ms, {| sd_in := []; sd_out := out; sd_closed := false |}).
Proof.
  induction 1 as [|m ms Hm _ IH]; intros fuel out Hf; (destruct fuel as [|fuel]; [cbn in Hf; lia|]).
  - done.
  - rewrite wire_cons. pose proof (receive_msg m (wire ms) out Hm) as Hr. destruct (frame_cons (serialize_message m)) as (b & l & E). rewrite E in *. cbn [app] in *.
    cbn [collect sd_in]. rewrite Hr. cbn [length] in Hf. rewrite IH by lia. done.
Qed.

Section stack.
  Context (cf : config) (behave : list invocation → hresult) (key : list N → string).
  Notation step := (v_step cf behave key).
  Notation handle := (handle_request cf behave key).
  Definition takes (s : server) (ms : list message) : server := fold_left (λ s m, step s (EMessage (msg_seen_as m) true)) ms s.

  Lemma step_sent s e : sv_sent s `prefix_of` sv_sent (step s e).
  Proof.
    destruct (sv_listening s) eqn:El.
    - destruct e as [m ok| |i r|u c|u c]; cbn [v_step]; rewrite ?El; try (by repeat case_match); [].
      destruct m as [id r|x|n]; cbn [handle_message]; [|done..].
      destruct (handle id r s) as [s' [x|]] eqn:E; pose proof (handle_rest _ _ _ _ _ _ _ _ E) as (_ & _ & Hs & _).
      + destruct ok; cbn; rewrite Hs; [by eexists|done].
      + cbn. by rewrite Hs.
    - destruct (stopped_step cf behave key s e El) as (_ & -> & _). done.
  Qed.
  Lemma takes_sent ms s : sv_sent s `prefix_of` sv_sent (takes s ms).
  Proof.
    revert s. induction ms as [|m ms IH]; intros s; [done|]. unfold takes in *. cbn [fold_left]. etrans; [apply (step_sent s (EMessage (msg_seen_as m) true))|apply IH].
  Qed.
  Lemma serve_sent fuel s t : sv_sent s `prefix_of` sv_sent (serve cf behave key fuel s t).1.
  Proof.
    revert s t. induction fuel as [|fuel IH]; intros s t; [by destruct (sd_in t)|]. cbn [serve].
    destruct (sd_in t); [done|]. destruct (StdioModel.receive t) as [[m| | | |] t1]; [|by cbn..].
    etrans; [apply (step_sent s (EMessage m true))|apply IH].
  Qed.
  Lemma serve_wire ms : Forall sendable ms → ∀ s fuel out, (length ms < fuel)%nat →
    serve cf behave key fuel s {| sd_in := wire ms; sd_out := out; sd_closed := false |} =
    (takes s ms, {| sd_in := []; sd_out := out ++ wire (MsgResponse <$> drop (length (sv_sent s)) (sv_sent (takes s ms))); sd_closed := false |}).
  Proof.
    induction 1 as [|m ms Hm _ IH]; intros s fuel out Hf; (destruct fuel as [|fuel]; [cbn in Hf; lia|]).
    - cbn. rewrite drop_all. cbn. unfold wire. cbn. by rewrite app_nil_r.
    - rewrite wire_cons. pose proof (receive_msg m (wire ms) out Hm) as Hr. destruct (frame_cons (serialize_message m)) as (b & l & E). rewrite E in *. cbn [app] in *.
      cbn [serve sd_in]. rewrite Hr. rewrite send_all_open by done. cbn [sd_in sd_out length] in *. rewrite IH by lia. cbn [takes fold_left]. f_equal. f_equal.
      change (fold_left _ ms (step s (EMessage (msg_seen_as m) true))) with (takes (step s (EMessage (msg_seen_as m) true)) ms).
      destruct (step_sent s (EMessage (msg_seen_as m) true)) as [a Ha]. destruct (takes_sent ms (step s (EMessage (msg_seen_as m) true))) as [b' Hb].
      rewrite Hb, Ha, !drop_app, <-!app_assoc, <-wire_app, drop_app, <-fmap_app. done.
  Qed.
  (** both transports are open and have read all there is *)
  Definition quiet (y : stack) : Prop :=
    sd_in (y_ct y) = [] ∧ sd_closed (y_ct y) = false ∧ sd_in (y_st y) = [] ∧ sd_closed (y_st y) = false.
  Lemma carry_sent ms y : sv_sent (y_server y) `prefix_of` sv_sent (y_server (carry cf behave key ms y).2).
  Proof.
    unfold carry. match goal with |- context [serve ?a ?b ?c ?f ?s ?t] => pose proof (serve_sent f s t) as H; destruct (serve a b c f s t) as [s' t'] end.
    destruct (collect _ _) as [g ct]. exact H.
  Qed.
  Lemma carry_client ms y : y_client (carry cf behave key ms y).2 = y_client y.
  Proof. unfold carry. destruct (serve _ _ _ _ _ _) as [s' t']. by destruct (collect _ _) as [g ct]. Qed.
  Lemma carry_server ms y : quiet y → Forall sendable ms → y_server (carry cf behave key ms y).2 = takes (y_server y) ms.
  Proof.
    intros (H1 & H2 & H3 & H4) Hm. unfold carry, pipe. rewrite send_all_open by done. cbn [sd_out sd_in sd_closed].
    rewrite H3, H4, drop_app. cbn [app]. rewrite serve_wire; [|done|pose proof (wire_length ms); lia].
    by destruct (collect _ _) as [g ct].
  Qed.
  Lemma carry_all ms y l : quiet y → Forall sendable ms → sv_sent (takes (y_server y) ms) = sv_sent (y_server y) ++ l → Forall (λ x, sendable (MsgResponse x)) l →
    ∃ ct st, carry cf behave key ms y = (MsgResponse <$> l, MkStack (y_client y) ct (takes (y_server y) ms) st) ∧ quiet (MkStack (y_client y) ct (takes (y_server y) ms) st).
  Proof.
    intros (H1 & H2 & H3 & H4) Hm Hl Hs. unfold carry, pipe. rewrite send_all_open by done. cbn [sd_out sd_in sd_closed].
    rewrite H3, H4, drop_app. cbn [app]. rewrite serve_wire; [|done|pose proof (wire_length ms); lia].
    cbn [sd_in sd_out sd_closed]. rewrite H1, drop_app, Hl, drop_app. cbn [app].
    rewrite collect_wire; [|by apply Forall_fmap|pose proof (wire_length (MsgResponse <$> l)); lia].
    assert (msg_seen_as <$> (MsgResponse <$> l) = MsgResponse <$> l) as -> by (rewrite <-list_fmap_compose; by apply list_fmap_ext).
    eexists _, _. split; [reflexivity|]. by split_and!.
  Qed.

  (** ** One call *)
  Definition opening (c : client) (o : cop) (id : rid) : option message :=
    match o with
    | OInitialize caps info => if cl_initialized c then None else Some (MsgRequest id (RClient CInitialize (initialize_params caps info)))
    | OCall k p => if is_method k then match refused k c with None => Some (MsgRequest id (RClient k p)) | Some _ => None end else None
    | ORootsChanged => head (drop (length (cl_sent c)) (cl_sent (c_step c (MkEvent o id true [] true)).1))
    | OCancel i => Some (MsgNotification (NCancelled (cancel_params i)))
    | OProgress p => Some (MsgNotification (NProgress p))
    end.
  Lemma opened c o id ms : ∃ l, cl_sent (c_step c (MkEvent o id true ms true)).1 = cl_sent c ++ option_list (opening c o id) ++ l ∧
    (l = [] ∨ l = [MsgNotification (NClient CInitialized JNull)]) ∧ (opening c o id = None → l = []).
  Proof.
    unfold opening, c_step. cbn [e_op e_id e_ok e_arrived e_nok]. destruct o as [caps info|k p| |i|p].
    - destruct (initialize caps info id true ms true c) as [c' r] eqn:E. cbn [fst].
      apply initialize_cases in E as [(-> & -> & _)|(-> & c1 & res & Hs & H)]; [exists []; rewrite app_nil_r; naive_solver|].
      apply sending in Hs as (_ & _ & _ & _ & Hsent & _). cbn [cl_sent set_caps] in Hsent.
      destruct H as [(-> & _)|(x & v & w & _ & _ & _ & _ & -> & _)].
      + exists []. rewrite Hsent. cbn. naive_solver.
      + exists [MsgNotification (NClient CInitialized JNull)]. cbn [cl_sent ClientModel.send set_server]. rewrite Hsent, <-app_assoc. cbn. naive_solver.
    - exists []. rewrite app_nil_r. split; [|by auto]. destruct (is_method k); [|cbn; by rewrite app_nil_r]. destruct (refused k c); [cbn; by rewrite app_nil_r|].
      destruct (send_request _ _ _ _ _) as [c1 res] eqn:E. apply sending in E as (_ & _ & _ & _ & E & _). exact E.
    - exists []. rewrite app_nil_r. split; [|by auto]. destruct (cl_initialized c); [|cbn; by rewrite drop_all, app_nil_r].
      repeat (case_match; cbn; rewrite ?drop_all, ?drop_app, ?app_nil_r; try done).
    - exists []. rewrite app_nil_r. split; [done|by auto].
    - exists []. rewrite app_nil_r. split; [done|by auto].
  Qed.
  Lemma deliver_nil c : deliver [] c = c.
  Proof. destruct c. unfold deliver. cbn. by rewrite app_nil_r. Qed.
  Lemma ignored s l : l = [] ∨ l = [MsgNotification (NClient CInitialized JNull)] → takes s l = s.
  Proof. intros [->| ->]; [done|]. cbn. by destruct (sv_listening s). Qed.
  Lemma call_any y o id y' r : quiet y → call cf behave key y o id = (y', r) → travels y' →
    let s1 := takes (y_server y) (option_list (opening (y_client y) o id)) in
    Forall sendable (option_list (opening (y_client y) o id)) ∧
    ∃ l, sv_sent s1 = sv_sent (y_server y) ++ l ∧ c_step (y_client y) (MkEvent o id true (MsgResponse <$> l) true) = (y_client y', r) ∧ y_server y' = s1 ∧ quiet y'.
  Proof.
    intros Hq H [T1 T2]. unfold call in H.
    destruct (opened (y_client y) o id []) as (l0 & E0 & L0 & N0).
    assert (take 1 (sent_by (y_client y) (c_step (y_client y) (MkEvent o id true [] true)).1) = option_list (opening (y_client y) o id)) as Ef.
    { unfold sent_by. rewrite E0, drop_app. destruct (opening (y_client y) o id); [done|]. by rewrite (N0 eq_refl). }
    rewrite Ef in H. clear Ef E0 L0 N0 l0.
    destruct (carry cf behave key (option_list (opening (y_client y) o id)) y) as [got y1] eqn:E1.
    destruct (c_step (y_client y) (MkEvent o id true got true)) as [c' r'] eqn:Ec.
    destruct (opened (y_client y) o id got) as (l1 & E & L & _). rewrite Ec in E. cbn [fst] in E.
    assert (drop (length (option_list (opening (y_client y) o id))) (sent_by (y_client y) c') = l1) as El by (unfold sent_by; by rewrite E, !drop_app).
    rewrite El in H. destruct (carry cf behave key l1 y1) as [got2 y2] eqn:E2.
    assert (Forall sendable (option_list (opening (y_client y) o id) ++ l1)) as Hs.
    { injection H as <- <-. cbn [y_client cl_sent deliver] in T1. rewrite E, !Forall_app in T1. rewrite Forall_app. tauto. }
    rewrite Forall_app in Hs. destruct Hs as [Hs1 Hs2]. split; [done|].
    pose proof (carry_server _ y Hq Hs1) as Hv. rewrite E1 in Hv. cbn [snd] in Hv.
    pose proof (takes_sent (option_list (opening (y_client y) o id)) (y_server y)) as [l Hl]. exists l. split; [done|].
    pose proof (carry_sent l1 y1) as [l' Hl']. rewrite E2 in Hl'. cbn [snd] in Hl'.
    assert (Forall (λ x, sendable (MsgResponse x)) l) as Hrl.
    { injection H as <- <-. cbn [y_server] in T2. rewrite Hl', Hv, Hl, !Forall_app in T2. tauto. }
    destruct (carry_all _ y l Hq Hs1 Hl Hrl) as (ct & st & E1' & Hq1). rewrite E1 in E1'. injection E1' as -> ->.
    destruct (carry_all l1 _ [] Hq1 Hs2) as (ct2 & st2 & E2' & Hq2); [cbn [y_server]; by rewrite ignored, app_nil_r|done|].
    rewrite E2 in E2'. injection E2' as -> ->. cbn [fmap list_fmap y_ct y_st y_server y_client] in *. rewrite deliver_nil in H. injection H as <- <-.
    cbn [y_client y_server]. rewrite (ignored _ _ L) in *. split; [done|]. split; [done|]. exact Hq2.
  Qed.
End stack.
