(** Proofs about sessions of a client and a server connected over stdio. *)
From stdpp Require Import gmap strings list.
From Verif Require Import ListLib TextLib JsonLib SerdeLib TypesModel RpcModel RpcSpec RpcProofs ManagersModel ServerModel ServerSpec ServerProofs ClientModel ClientSpec ClientProofs StdioModel StdioSpec StdioProofs StackModel StackSpec StackProofs.

Lemma requests_app a b : requests (a ++ b) = requests a ++ requests b.
Proof. apply omap_app. Qed.

Section stack.
  Context (os : list bop) (cf : config) (behave : list invocation → hresult) (key : list N → string).
  Context (Hb : build os = inl cf) (Hp : never_panics behave).
  Notation handle := (handle_request cf behave key).
  Notation takes := (takes cf behave key).

  Lemma takes_request s id k p : sv_listening s = true → ∃ s1 x, handle id (RClient k p) s = (s1, Some x) ∧ takes s [MsgRequest id (RClient k p)] = sent x s1 ∧ sv_sent (sent x s1) = sv_sent s ++ [x] ∧ sv_listening (sent x s1) = true ∧ rs_id x = id.
  Proof.
    intros Hl. destruct (handle_answers cf behave key id (RClient k p) s Hp) as [x Hx]. destruct (handle id (RClient k p) s) as [s1 o] eqn:E. cbn in Hx. subst o.
    exists s1, x. split; [done|]. unfold StackProofs.takes. cbn [fold_left msg_seen_as v_step]. rewrite Hl. cbn [handle_message]. rewrite E.
    pose proof (handle_rest _ _ _ _ _ _ _ _ E) as (_ & _ & Hs & Hl'). pose proof (handle_id _ _ _ _ _ _ _ _ E) as [Hid _]. split; [done|]. cbn. rewrite Hs, Hl'. done.
  Qed.
  Lemma opening_cases c o id m : opening c o id = Some m → (∃ n, m = MsgNotification n ∧ ∀ k p, o ≠ OCall k p) ∨
    (∃ caps info, o = OInitialize caps info ∧ cl_initialized c = false ∧ m = MsgRequest id (RClient CInitialize (initialize_params caps info))) ∨
    (∃ k p, o = OCall k p ∧ is_method k = true ∧ refused k c = None ∧ m = MsgRequest id (RClient k p)).
  Proof.
    unfold opening. destruct o as [caps info|k p| |i|p].
    - destruct (cl_initialized c); [done|]. intros [= <-]. right. left. by exists caps, info.
    - destruct (is_method k) eqn:E; [|done]. destruct (refused k c) eqn:E2; [done|]. intros [= <-]. right. right. by exists k, p.
    - intros H. left. unfold c_step in H. cbn [e_op e_id e_ok e_nok e_arrived] in H. unfold send_notification in H.
      repeat (case_match; cbn in H; rewrite ?drop_all, ?drop_app in H; simplify_eq; try done); cbn in H; simplify_eq; by eexists.
    - intros [= <-]. left. by eexists.
    - intros [= <-]. left. by eexists.
  Qed.
  (** between calls *)
  Record ready (y : stack) : Prop := {
    rd_quiet : quiet y; rd_in : cl_in (y_client y) = []; rd_listening : sv_listening (y_server y) = true;
    rd_calls : invoked <$> sv_calls (y_server y) = omap (destination os) (requests (cl_sent (y_client y))) }.
  Lemma ready_new : ready stack_new. Proof. by split. Qed.
  Lemma untouched c o id : opening c o id = None ∨ (∃ n, opening c o id = Some (MsgNotification n)) → ∀ c' r, c_step c (MkEvent o id true [] true) = (c', r) →
    cl_in c' = cl_in c ∧ requests (cl_sent c') = requests (cl_sent c).
  Proof.
    intros H c' r Hs. destruct (opened c o id []) as (l & E & L & N). rewrite Hs in E. cbn [fst] in E. split.
    - unfold opening, c_step in *. cbn [e_op e_id e_ok e_arrived e_nok] in *. unfold initialize, send_notification in *. destruct o as [caps info|k p| |i|p].
      + destruct (cl_initialized c); [by injection Hs as <- _|]. destruct H as [H|(n & H)]; discriminate H.
      + destruct (is_method k); [|by injection Hs as <- _]. destruct (refused k c); [by injection Hs as <- _|]. destruct H as [H|(n & H)]; discriminate H.
      + clear E H N. by repeat case_match; simplify_eq.
      + by simplify_eq.
      + by simplify_eq.
    - rewrite E, !requests_app. assert (requests l = []) as -> by (by destruct L as [->| ->]). rewrite app_nil_r.
      destruct H as [->|(n & ->)]; cbn; by rewrite app_nil_r.
  Qed.
  Lemma request_step c o id k p x c' r : opening c o id = Some (MsgRequest id (RClient k p)) → cl_in c = [] → c_step c (MkEvent o id true [MsgResponse x] true) = (c', r) →
    cl_in c' = [] ∧ requests (cl_sent c') = requests (cl_sent c) ++ [RClient k p].
  Proof.
    intros Ho Hin Hs. destruct (opened c o id [MsgResponse x]) as (l & E & L & N). rewrite Hs in E. cbn [fst] in E. split.
    - apply opening_cases in Ho as [(n & [=] & _)|[(caps & info & -> & Hi & [= -> ->])|(k' & p' & -> & Hm & Hr & [= <- <-])]].
      + unfold c_step in Hs. cbn [e_op e_id e_ok e_arrived e_nok] in Hs. apply initialize_cases in Hs as [(Hi' & _)|(_ & c1 & res & Hs & H)]; [congruence|].
        destruct (send_request_exact id (RClient CInitialize (initialize_params caps info)) [MsgResponse x] (set_caps caps c) (MsgResponse x) []) as (c2 & Hs2 & Hin2 & _); [cbn; by rewrite Hin|].
        rewrite Hs in Hs2. injection Hs2 as <- ->. destruct H as [(-> & _)|(? & ? & ? & _ & _ & _ & _ & -> & _)]; done.
      + destruct (call_exact c (MkEvent (OCall k p) id true [MsgResponse x] true) k p (MsgResponse x) []) as (c2 & Hs2 & Hin2 & _); [done..|cbn; by rewrite Hin|].
        rewrite Hs in Hs2. by injection Hs2 as <- ->.
    - rewrite E, !requests_app, Ho. assert (requests l = []) as -> by (by destruct L as [->| ->]). done.
  Qed.
  Lemma call_ready y o id y' r : ready y → call cf behave key y o id = (y', r) → travels y' → ready y' ∧
    match opening (y_client y) o id with
    | Some (MsgRequest i (RClient k p)) => ∃ s1 x, handle id (RClient k p) (y_server y) = (s1, Some x) ∧ y_server y' = sent x s1 ∧ rs_id x = id ∧
        c_step (y_client y) (MkEvent o id true [MsgResponse x] true) = (y_client y', r) ∧ good_request (RClient k p)
    | _ => y_server y' = y_server y ∧ c_step (y_client y) (MkEvent o id true [] true) = (y_client y', r)
    end.
  Proof.
    intros [Hq Hin Hl Hc] H Ht. destruct (call_any cf behave key y o id y' r Hq H Ht) as (Hs & l & E1 & E2 & E3 & Hq').
    destruct (opening (y_client y) o id) as [m|] eqn:Eo.
    - pose proof (opening_cases _ _ _ _ Eo) as Hm. assert ((∃ n, m = MsgNotification n) ∨ ∃ k p, m = MsgRequest id (RClient k p)) as [[n ->]|(k & p & ->)].
      { destruct Hm as [(n & -> & _)|[(caps & info & _ & _ & ->)|(k & p & _ & _ & _ & ->)]]; [by left; eexists|right; by eexists _, _..]. }
      + assert (takes (y_server y) (option_list (Some (MsgNotification n))) = y_server y) as Et by (cbn; by destruct (sv_listening (y_server y))).
        rewrite Et in *. rewrite <-(app_nil_r (sv_sent (y_server y))) in E1 at 1. apply app_inv_head in E1 as <-. cbn [fmap list_fmap] in E2.
        destruct (untouched _ _ _ (or_intror (ex_intro _ n Eo)) _ _ E2) as [U1 U2].
        split; [split; [done|by rewrite U1|by rewrite E3|by rewrite E3, U2]|done].
      + destruct (takes_request (y_server y) id k p Hl) as (s1 & x & Hh & Et & Hx & Hl1 & Hid). change (option_list (Some (MsgRequest id (RClient k p)))) with [MsgRequest id (RClient k p)] in *. rewrite Et in E1, E3. rewrite Hx in E1. apply app_inv_head in E1 as <-.
        destruct (request_step _ _ _ _ _ _ _ _ Eo Hin E2) as [U1 U2].
        assert (good_request (RClient k p)) as Hg. { rewrite Forall_singleton in Hs. destruct Hs as [Hs _]. cbn in Hs. by destruct Hs as [_ Hs]. }
        split.
        * split; [done..|by rewrite E3|]. rewrite E3, U2, omap_app. cbn [sent sv_calls].
          pose proof (routed cf behave key os id (RClient k p) (y_server y) (built _ _ Hb) Hg) as Hr. rewrite Hh in Hr. cbn [fst] in Hr. by rewrite Hr, Hc.
        * exists s1, x. done.
    - assert (takes (y_server y) (option_list None) = y_server y) as Et by done. rewrite Et in E1, E3.
      rewrite <-(app_nil_r (sv_sent (y_server y))) in E1 at 1. apply app_inv_head in E1 as <-. cbn [fmap list_fmap] in E2.
      destruct (untouched _ _ _ (or_introl Eo) _ _ E2) as [U1 U2].
      split; [split; [done|by rewrite U1|by rewrite E3|by rewrite E3, U2]|done].
  Qed.
  (** ** Sessions *)
  Lemma only_initialize c e c' r : c_step c e = (c', r) → cl_initialized c = false → cl_initialized c' = true → ∃ caps info, e_op e = OInitialize caps info.
  Proof.
    unfold c_step, send_notification. destruct (e_op e) as [caps info|k p| |i|p]; intros H Hi Hi'; [by eexists _, _| | | |]; exfalso.
    - destruct (is_method k); [|injection H as <- _; congruence]. rewrite not_initialized_refused in H by done. injection H as <- _; congruence.
    - rewrite Hi in H. injection H as <- _; congruence.
    - destruct (e_nok e); injection H as <- _; cbn in Hi'; congruence.
    - destruct (e_nok e); injection H as <- _; cbn in Hi'; congruence.
  Qed.
  Lemma call_grows y o id y' r : call cf behave key y o id = (y', r) →
    cl_sent (y_client y) `prefix_of` cl_sent (y_client y') ∧ sv_sent (y_server y) `prefix_of` sv_sent (y_server y').
  Proof.
    unfold call. destruct (carry cf behave key _ y) as [got y1] eqn:E1. destruct (c_step (y_client y) (MkEvent o id true got true)) as [c' r'] eqn:Ec.
    destruct (carry cf behave key _ y1) as [got2 y2] eqn:E2. intros [= <- <-]. cbn [y_client y_server cl_sent deliver]. split.
    - destruct (opened (y_client y) o id got) as (l1 & E & _). rewrite Ec in E. cbn [fst] in E. rewrite E. by eexists.
    - eapply (f_equal snd) in E1. eapply (f_equal snd) in E2. cbn [snd] in E1, E2. subst y1. subst y2. etrans; apply carry_sent.
  Qed.
  Lemma travels_back y y' : cl_sent (y_client y) `prefix_of` cl_sent (y_client y') → sv_sent (y_server y) `prefix_of` sv_sent (y_server y') → travels y' → travels y.
  Proof. intros [a Ha] [b Hb'] [T1 T2]. rewrite Ha, Forall_app in T1. rewrite Hb', Forall_app in T2. split; tauto. Qed.
  Lemma session_grows ops y y' rs : session cf behave key y ops = (y', rs) →
    cl_sent (y_client y) `prefix_of` cl_sent (y_client y') ∧ sv_sent (y_server y) `prefix_of` sv_sent (y_server y').
  Proof.
    revert y rs. induction ops as [|[o id] ops IH]; intros y rs; cbn [session]; [by intros [= <- <-]|].
    destruct (call cf behave key y o id) as [y1 r] eqn:E1. destruct (session cf behave key y1 ops) as [y2 rs2] eqn:E2. intros [= <- <-].
    destruct (call_grows _ _ _ _ _ E1) as [H1 H2]. destruct (IH _ _ E2) as [H3 H4]. split; by etrans.
  Qed.
  Lemma session_ready ops y y' rs : ready y → session cf behave key y ops = (y', rs) → travels y' → ready y'.
  Proof.
    revert y rs. induction ops as [|[o id] ops IH]; intros y rs Hr; cbn [session]; [by intros [= <- <-]|].
    destruct (call cf behave key y o id) as [y1 r] eqn:E1. destruct (session cf behave key y1 ops) as [y2 rs2] eqn:E2. intros [= <- <-] Ht.
    destruct (session_grows _ _ _ _ E2) as [H3 H4]. apply (IH y1 rs2); [|done..]. eapply call_ready; [done..|]. by eapply travels_back.
  Qed.
  (** the client goes by what this server said *)
  Lemma session_caps ops y y' rs : scaps_ok (cf_caps cf) → ready y → (cl_initialized (y_client y) = true → cl_server (y_client y) = Some (scaps_json (cf_caps cf))) →
    session cf behave key y ops = (y', rs) → travels y' → cl_initialized (y_client y') = true → cl_server (y_client y') = Some (scaps_json (cf_caps cf)).
  Proof.
    intros Hok. revert y rs. induction ops as [|[o id] ops IH]; intros y rs Hr Hi; cbn [session]; [by intros [= <- <-]|].
    destruct (call cf behave key y o id) as [y1 r] eqn:E1. destruct (session cf behave key y1 ops) as [y2 rs2] eqn:E2. intros [= <- <-] Ht.
    destruct (session_grows _ _ _ _ E2) as [H3 H4]. pose proof (travels_back _ _ H3 H4 Ht) as Ht1.
    destruct (call_ready _ _ _ _ _ Hr E1 Ht1) as [Hr1 Hc]. apply (IH y1 rs2); [done| |done..]. clear IH E2 H3 H4 Ht y2 rs2.
    assert (∃ ms, c_step (y_client y) (MkEvent o id true ms true) = (y_client y1, r) ∧ (∀ caps info, o = OInitialize caps info → cl_initialized (y_client y) = false →
      ms = match (handle id (RClient CInitialize (initialize_params caps info)) (y_server y)).2 with Some x => [MsgResponse x] | None => [] end)) as (ms & Hs & Hms).
    { destruct (opening (y_client y) o id) as [[i [k p|k p]|x|n]|] eqn:Eo.
      - destruct Hc as (s1 & x & Hh & _ & _ & Hs & _). exists [MsgResponse x]. split; [done|]. intros caps info -> Hi0. unfold opening in Eo. rewrite Hi0 in Eo. injection Eo as -> <- <-. by rewrite Hh.
      - exfalso. apply opening_cases in Eo as [(? & ? & _)|[(? & ? & _ & _ & ?)|(? & ? & _ & _ & _ & ?)]]; discriminate.
      - exfalso. apply opening_cases in Eo as [(? & ? & _)|[(? & ? & _ & _ & ?)|(? & ? & _ & _ & _ & ?)]]; discriminate.
      - destruct Hc as [_ Hc]. exists []. split; [done|]. intros caps info -> Hi0. unfold opening in Eo. rewrite Hi0 in Eo. discriminate Eo.
      - destruct Hc as [_ Hc]. exists []. split; [done|]. intros caps info -> Hi0. unfold opening in Eo. rewrite Hi0 in Eo. discriminate Eo. }
    destruct (cl_initialized (y_client y)) eqn:Ei.
    - destruct (step_grows _ _ _ _ Hs) as (_ & _ & Hg). destruct (Hg Ei) as [_ ->]. auto.
    - intros Hi1. destruct (only_initialize _ _ _ _ Hs Ei Hi1) as (caps & info & Ho). cbn [e_op] in Ho. subst o.
      destruct (handshake_works cf behave key (y_server y) (y_client y) (MkEvent (OInitialize caps info) id true ms true) caps info) as (c' & Hs' & _ & Hsv); [done|done|by apply Hr|done|done|done|by apply Hms|].
      rewrite Hs in Hs'. by injection Hs' as <- _.
  Qed.

  (** ** What a request comes to *)
  Lemma handle_other id k p s : k ≠ CInitialize → handle id (RClient k p) s =
    let '(s', r) := process_client_request cf behave key id k p s in
    (s', match r with Ok v => Some (create_response id (inl v)) | Err e => Some (create_response id (inr e)) | Panicked => None end).
  Proof. intros H. by destruct k. Qed.
  Definition outcome (id : rid) (kd : hkind) (h : hresult) : option rpc_response :=
    match h with
    | HOk v => Some (success id (shown_as kd v))
    | HErr e => Some (failure id {| er_code := -32603; er_message := error_display e; er_data := None |})
    | HPanic => None
    end.
  Lemma fate id k p s s1 o kd h args : good_request (RClient k p) → destination os (RClient k p) = Some (kd, h, args) → handle id (RClient k p) s = (s1, o) →
    ∃ i, sv_calls s1 = sv_calls s ++ [i] ∧ invoked i = (kd, h, args) ∧ i_request i = rid_show id ∧ o = outcome id kd (behave (sv_calls s1)).
  Proof.
    intros Hg Hd Hh. destruct (built _ _ Hb) as [H1 H2 H3 H4 _ _]. cbn [good_request] in Hg.
    assert (∀ wrap, wrap = shown_as kd → (let '(s', r) := invoke behave key kd h args id wrap s in (s', match r with Ok v => Some (create_response id (inl v)) | Err e => Some (create_response id (inr e)) | Panicked => None end)) = (s1, o) →
      ∃ i, sv_calls s1 = sv_calls s ++ [i] ∧ invoked i = (kd, h, args) ∧ i_request i = rid_show id ∧ o = outcome id kd (behave (sv_calls s1))) as Hi.
    { intros wrap ->. unfold invoke. intros E. apply pair_equal_spec in E as [<- <-]. eexists. split; [reflexivity|]. split; [done|]. split; [done|]. cbn [sv_calls]. by destruct (behave _). }
    destruct k; try discriminate Hd; rewrite handle_other in Hh by done; cbn [process_client_request] in Hh.
    - destruct (call_shape _ Hg) as (name & args' & ->). cbn [destination call_params] in Hd. rewrite <-H1 in Hd.
      change (text_of (field "name" (call_params name args'))) with name in Hh. destruct (cf_tools cf !! name) as [h'|]; [|discriminate Hd]. injection Hd as <- <- <-. by eapply Hi; [|exact Hh].
    - destruct (prompt_shape _ Hg) as (name & args' & ->). cbn [destination call_params] in Hd. rewrite <-H2 in Hd.
      change (text_of (field "name" (call_params name args'))) with name in Hh. destruct (cf_prompts cf !! name) as [h'|]; [|discriminate Hd]. injection Hd as <- <- <-. by eapply Hi; [|exact Hh].
    - destruct (list_shape _ Hg) as [->|(c & ->)]; cbn [destination] in Hd; rewrite <-H3 in Hd; (destruct (cf_resources cf) as [h'|]; [|discriminate Hd]); injection Hd as <- <- <-; by eapply Hi; [|exact Hh].
    - destruct (uri_shape _ Hg) as (u & ->); cbn [destination] in Hd; rewrite <-H3 in Hd; (destruct (cf_resources cf) as [h'|]; [|discriminate Hd]); injection Hd as <- <- <-; by eapply Hi; [|exact Hh].
    - cbn [destination] in Hd; rewrite <-H4 in Hd. destruct (cf_sampling cf) as [h'|]; [|discriminate Hd]. injection Hd as <- <- <-. by eapply Hi; [|exact Hh].
  Qed.
  (** a permitted call *)
  Lemma call_permitted y k p id y' r : ready y → is_method k = true → refused k (y_client y) = None → call cf behave key y (OCall k p) id = (y', r) → travels y' →
    ∃ s1 x, handle id (RClient k p) (y_server y) = (s1, Some x) ∧ y_server y' = sent x s1 ∧ r = finish k (inl x) ∧ good_request (RClient k p).
  Proof.
    intros Hr Hm Hk Hc Ht. destruct (call_ready _ _ _ _ _ Hr Hc Ht) as [_ H]. unfold opening in H. rewrite Hm, Hk in H. destruct H as (s1 & x & Hh & Hs & _ & Hst & Hg).
    exists s1, x. split; [done|]. split; [done|]. split; [|done].
    destruct (call_exact (y_client y) (MkEvent (OCall k p) id true [MsgResponse x] true) k p (MsgResponse x) []) as (c2 & Hs2 & _); [done..|cbn; by rewrite (rd_in _ Hr)|].
    rewrite Hst in Hs2. by injection Hs2 as _ ->.
  Qed.
  Lemma call_reaches y k p id y' r kd h args : typed behave → ready y → is_method k = true → k ≠ CComplete → refused k (y_client y) = None → call cf behave key y (OCall k p) id = (y', r) → travels y' →
    destination os (RClient k p) = Some (kd, h, args) →
    ∃ i, sv_calls (y_server y') = sv_calls (y_server y) ++ [i] ∧ invoked i = (kd, h, args) ∧ i_request i = rid_show id ∧
      match behave (sv_calls (y_server y')) with
      | HOk v => r = COk (shown_as kd v)
      | HErr e => r = CErr (EProtocol (-32603) (error_display e) None)
      | HPanic => False
      end.
  Proof.
    intros Hty Hr Hm Hnc Hk Hc Ht Hd. destruct (call_permitted _ _ _ _ _ _ Hr Hm Hk Hc Ht) as (s1 & x & Hh & -> & -> & Hg).
    destruct (fate _ _ _ _ _ _ _ _ _ Hg Hd Hh) as (i & H1 & H2 & H3 & H4). exists i. cbn [sent sv_calls]. split; [done|]. split; [done|]. split; [done|].
    destruct (behave (sv_calls s1)) as [v|e|] eqn:E; cbn [outcome] in H4; [| |discriminate H4].
    - injection H4 as ->. rewrite finish_typed by (by eapply server_result_typed). f_equal. destruct k; cbn [result_ty]; try done; discriminate Hd.
    - injection H4 as ->. done.
  Qed.
End stack.
