(** Proofs about the client. *)
From stdpp Require Import gmap strings list.
From Verif Require Import ListLib TextLib JsonLib SerdeLib TypesModel RpcModel RpcSpec RpcProofs ManagersModel ServerModel ServerSpec ServerProofs ClientModel ClientSpec.

(** ** Steps *)
Lemma sending id r ok ms c c' res : send_request id r ok ms c = (c', res) →
  cl_caps c' = cl_caps c ∧ cl_server c' = cl_server c ∧ cl_version c' = cl_version c ∧ cl_initialized c' = cl_initialized c ∧
  cl_sent c' = cl_sent c ++ (if ok then [MsgRequest id r] else []) ∧
  (∃ g, cl_got c' = cl_got c ++ g ∧ (g = [] ∨ ∃ m, g = [(id, m)] ∧ (∀ x, res = inl x ↔ m = MsgResponse x)) ∧ (∀ x, res = inl x → ok = true ∧ g = [(id, MsgResponse x)])).
Proof.
  unfold send_request. destruct ok; [|].
  - cbn [cl_in deliver send track]. destruct (cl_in c ++ ms) as [|m rest] eqn:E; cbn [cl_in].
    + intros [= <- <-]. repeat split. exists []. cbn. rewrite app_nil_r. split; [done|]. split; [by left|]. done.
    + intros [= <- <-]. repeat split. cbn. exists [(id, m)]. split; [done|]. split.
      * right. exists m. split; [done|]. intros x. split; intros Hx; destruct m; by simplify_eq.
      * intros x Hx. destruct m; by simplify_eq.
  - intros [= <- <-]. cbn. repeat split; [by rewrite app_nil_r|]. exists []. rewrite app_nil_r. split; [done|]. split; [by left|done].
Qed.
Lemma needed_wants k : needed k = wants k. Proof. by destruct k. Qed.
Lemma refused_allows k c : refused k c = None → is_method k = true → cl_initialized c = true ∧
  (wants k = None ∨ ∃ caps, cl_server c = Some caps ∧ allows caps k).
Proof.
  unfold refused. intros H Hm. destruct (cl_initialized c); [|done]. split; [done|].
  rewrite needed_wants in H. destruct (wants k) as [cap|] eqn:W; [|by left]. right.
  destruct (has_capability c cap) eqn:Hc; [|done].
  unfold has_capability in Hc. destruct (cl_server c) as [caps|] eqn:Es; [|done]. exists caps. split; [done|].
  apply andb_true_iff in Hc as [_ Hc]. split; [intros cap'; rewrite W; by intros [= <-]|].
  intros ->. destruct (subscribable c) eqn:Hs; [|done]. unfold subscribable in Hs. rewrite Es in Hs. cbn in W. injection W as <-. rewrite Hc in Hs.
  by destruct (field "subscribe" (field "resources" caps)) as [|[]| | | | |].
Qed.
Lemma refused_wants k c : cl_initialized c = true → wants k = None → refused k c = None.
Proof. intros Hi Hw. unfold refused. by rewrite Hi, needed_wants, Hw. Qed.
Lemma not_allowed k c : is_method k = true →
  cl_initialized c = false ∨ (∃ cap, wants k = Some cap ∧ ∀ caps, cl_server c = Some caps → ¬ allows caps k) → is_Some (refused k c).
Proof.
  intros Hm H. destruct (refused k c) eqn:E; [done|]. exfalso.
  apply refused_allows in E as [Hi [Hw|(caps & Hs & Ha)]]; [| |done].
  - destruct H as [H|(cap & Hw' & _)]; congruence.
  - destruct H as [H|(cap & _ & H)]; [congruence|]. by apply (H caps).
Qed.
Lemma allowed k c caps : is_method k = true → k ≠ CCreateMessage → cl_initialized c = true → cl_server c = Some caps → allows caps k → refused k c = None.
Proof.
  intros Hm Hk Hi Hs [Ha Hsub]. unfold refused. rewrite Hi, needed_wants. destruct (wants k) as [cap|] eqn:W; [|done].
  assert (has_capability c cap = true) as ->.
  { unfold has_capability. rewrite Hs. rewrite (Ha cap eq_refl), andb_true_r. apply bool_decide_eq_true.
    destruct k; cbn in W; simplify_eq; repeat (first [apply elem_of_list_here | apply elem_of_list_further]). }
  destruct k; try done.
  assert (subscribable c = true) as ->; [|done].
  unfold subscribable. rewrite Hs. cbn in W. injection W as <-. rewrite (Ha _ eq_refl). by rewrite (Hsub eq_refl).
Qed.
Lemma open_allowed k c : open_to k c → is_method k = true ∧ refused k c = None.
Proof.
  intros (Hk & Hi & caps & Hs & Ha). assert (is_method k = true ∧ k ≠ CCreateMessage) as [Hm Hc] by (destruct k; first [done|exfalso; apply Hk; apply (bool_decide_unpack _); by vm_compute]).
  split; [done|]. by eapply allowed.
Qed.
Lemma sampling_refused c : is_Some (refused CCreateMessage c).
Proof.
  unfold refused. destruct (cl_initialized c); [|by eexists]. cbn [needed].
  assert (has_capability c "sampling" = false) as ->; [|by eexists].
  unfold has_capability. destruct (cl_server c); [|done]. by rewrite bool_decide_eq_false_2 by (rewrite !elem_of_cons, elem_of_nil; intros H; naive_solver).
Qed.
Lemma not_initialized_refused k c : cl_initialized c = false → refused k c = Some not_initialized.
Proof. unfold refused. by intros ->. Qed.

(** What a step does: everything later proofs need. *)
Lemma c_run_snoc c es e : c_run c (es ++ [e]) = (let '(c1, rs) := c_run c es in let '(c2, r) := c_step c1 e in (c2, rs ++ [r])).
Proof.
  revert c. induction es as [|e' es IH]; intros c; cbn [app c_run].
  - destruct (c_step c e). done.
  - destruct (c_step c e') as [c1 r1]. rewrite IH. destruct (c_run c1 es) as [c2 rs]. destruct (c_step c2 e). done.
Qed.
Lemma c_run_app c es1 es2 : c_run c (es1 ++ es2) = (let '(c1, rs1) := c_run c es1 in let '(c2, rs2) := c_run c1 es2 in (c2, rs1 ++ rs2)).
Proof.
  revert c. induction es1 as [|e es1 IH]; intros c; cbn [app c_run]; [by destruct (c_run c es2)|].
  destruct (c_step c e) as [c1 r1]. rewrite IH. destruct (c_run c1 es1) as [c2 rs]. by destruct (c_run c2 es2).
Qed.

(** ** The handshake *)
Lemma initialize_cases caps info id ok ms nok c c' r : initialize caps info id ok ms nok c = (c', r) →
  (cl_initialized c = true ∧ c' = c ∧ ∃ e, r = CErr e) ∨
  (cl_initialized c = false ∧ ∃ c1 res, send_request id (RClient CInitialize (initialize_params caps info)) ok ms (set_caps caps c) = (c1, res) ∧
    ((c' = c1 ∧ (∃ e, r = CErr e) ∧ ∀ x v w, res = inl x → rs_payload x = PResult v → decode t_initialize_result v = Some w → text_of (field "protocolVersion" w) ∉ supported_versions) ∨
     ∃ x v w, res = inl x ∧ rs_payload x = PResult v ∧ decode t_initialize_result v = Some w ∧ text_of (field "protocolVersion" w) ∈ supported_versions ∧
       if nok then c' = send (MsgNotification (NClient CInitialized JNull)) (set_server (field "capabilities" w) (field "serverInfo" w) c1) ∧ r = COk w
       else c' = set_server (field "capabilities" w) (field "serverInfo" w) c1 ∧ r = CErr send_failed)).
Proof.
  unfold initialize. destruct (cl_initialized c) eqn:Hi.
  - intros [= <- <-]. left. split; [done|]. split; [done|]. by eexists.
  - destruct (send_request _ _ ok ms (set_caps caps c)) as [c1 res] eqn:Es. intros H. right. split; [done|]. exists c1, res. split; [done|].
    destruct res as [x|e].
    + destruct (rs_payload x) as [v|e] eqn:Ep.
      * destruct (decode t_initialize_result v) as [w|] eqn:Ed.
        -- destruct (decide (text_of (field "protocolVersion" w) ∈ supported_versions)) as [Hv|Hv].
           ++ right. exists x, v, w. repeat (split; [done|]). destruct nok; by injection H as <- <-.
           ++ injection H as <- <-. left. split; [done|]. split; [by eexists|]. intros x' v' w' [= <-] E1 E2. rewrite Ep in E1. injection E1 as <-. rewrite Ed in E2. by injection E2 as <-.
        -- injection H as <- <-. left. split; [done|]. split; [by eexists|]. intros x' v' w' [= <-] E1 E2. rewrite Ep in E1. injection E1 as <-. by rewrite Ed in E2.
      * injection H as <- <-. left. split; [done|]. split; [by eexists|]. intros x' v' w' [= <-] E1 E2. by rewrite Ep in E1.
    + injection H as <- <-. left. split; [done|]. split; [by eexists|]. by intros x' v' w'.
Qed.

(** ** Growth: the record of messages only grows *)
Lemma step_grows c e c' r : c_step c e = (c', r) →
  (∃ l, cl_sent c' = cl_sent c ++ l ∧ ∀ id k p, MsgRequest id (RClient k p) ∈ l → id = e_id e ∧ (k = CInitialize ∧ cl_initialized c = false ∨ is_method k = true ∧ refused k c = None)) ∧
  (∃ g, cl_got c' = cl_got c ++ g ∧ ∀ x, x ∈ g → x.1 = e_id e) ∧ (cl_initialized c = true → cl_initialized c' = true ∧ cl_server c' = cl_server c).
Proof.
  unfold c_step. destruct (e_op e) as [caps info|k p| |id|p] eqn:Eo; intros H.
  - apply initialize_cases in H as [(Hi & -> & _)|(Hi & c1 & res & Hs & H)].
    { split; [exists []; rewrite app_nil_r; split; [done|]; intros ? ? ?; by rewrite elem_of_nil|]. split; [exists []; rewrite app_nil_r; split; [done|]; intros ?; by rewrite elem_of_nil|done]. }
    apply sending in Hs as (_ & Hsv & _ & Hi1 & Hsent & g & Hg & Hg1 & Hg2). cbn [cl_sent cl_got cl_server cl_initialized cl_version cl_caps set_caps] in *.
    assert (∀ x, x ∈ g → x.1 = e_id e) as Hgg.
    { intros x Hx. destruct Hg1 as [->|(m & -> & _)]; [by apply elem_of_nil in Hx|]. by apply elem_of_list_singleton in Hx as ->. }
    split; [|split].
    + set (l0 := if e_ok e then _ else []) in *.
      assert (∀ id k p, MsgRequest id (RClient k p) ∈ l0 → id = e_id e ∧ (k = CInitialize ∧ cl_initialized c = false ∨ is_method k = true ∧ refused k c = None)) as H0.
      { intros id k p. subst l0. destruct (e_ok e); [|by rewrite elem_of_nil]. rewrite elem_of_list_singleton. intros [= -> -> ->]. split; [done|by left]. }
      clearbody l0. destruct H as [(-> & _)|(x & v & w & _ & _ & _ & _ & H)]; [exists l0; exact (conj Hsent H0)|].
      destruct (e_nok e); destruct H as [-> _]; cbn; [|exists l0; exact (conj Hsent H0)].
      rewrite Hsent. exists (l0 ++ [MsgNotification (NClient CInitialized JNull)]). rewrite app_assoc. split; [done|].
      intros id k p. rewrite elem_of_app, elem_of_list_singleton. intros [Hin|Hin]; [by apply (H0 _ _ p)|done].
    + exists g. split; [|done]. destruct H as [(-> & _)|(x & v & w & _ & _ & _ & _ & H)]; [done|].
      destruct (e_nok e); by destruct H as [-> _].
    + by rewrite Hi.
  - destruct (is_method k) eqn:Hm.
    2: { injection H as <- <-. split; [exists []; rewrite app_nil_r; split; [done|]; intros ? ? ?; by rewrite elem_of_nil|]. split; [exists []; rewrite app_nil_r; split; [done|]; intros ?; by rewrite elem_of_nil|done]. }
    destruct (refused k c) eqn:Hr.
    { injection H as <- <-. split; [exists []; rewrite app_nil_r; split; [done|]; intros ? ? ?; by rewrite elem_of_nil|]. split; [exists []; rewrite app_nil_r; split; [done|]; intros ?; by rewrite elem_of_nil|done]. }
    destruct (send_request _ _ _ _ c) as [c1 res] eqn:Hs. injection H as <- <-.
    apply sending in Hs as (_ & Hsv & _ & Hi1 & Hsent & g & Hg & Hg1 & Hg2).
    split; [|split].
    + eexists. split; [done|]. intros id k' p'. destruct (e_ok e); [|by rewrite elem_of_nil]. rewrite elem_of_list_singleton. intros [= -> -> ->]. split; [done|by right].
    + exists g. split; [done|]. intros x Hx. destruct Hg1 as [->|(m & -> & _)]; [by apply elem_of_nil in Hx|]. by apply elem_of_list_singleton in Hx as ->.
    + intros Hi. by rewrite Hi1, Hsv.
  - assert (c' = c ∨ c' = send (MsgNotification (NClient CRootsListChanged JNull)) c) as Hc.
    { unfold send_notification in H. repeat match type of H with context [match ?x with _ => _ end] => destruct x end; simplify_eq; auto. }
    destruct Hc as [->| ->].
    + split; [exists []; rewrite app_nil_r; split; [done|]; intros ? ? ?; by rewrite elem_of_nil|]. split; [exists []; rewrite app_nil_r; split; [done|]; intros ?; by rewrite elem_of_nil|done].
    + split; [eexists; split; [done|]; intros ? ? ?; by rewrite elem_of_list_singleton|]. split; [exists []; rewrite app_nil_r; split; [done|]; intros ?; by rewrite elem_of_nil|done].
  - unfold send_notification in H. destruct (e_nok e); injection H as <- <-.
    + split; [eexists; split; [done|]; intros ? ? ?; by rewrite elem_of_list_singleton|]. split; [exists []; cbn; rewrite app_nil_r; split; [done|]; intros ?; by rewrite elem_of_nil|done].
    + split; [exists []; rewrite app_nil_r; split; [done|]; intros ? ? ?; by rewrite elem_of_nil|]. split; [exists []; rewrite app_nil_r; split; [done|]; intros ?; by rewrite elem_of_nil|done].
  - unfold send_notification in H. destruct (e_nok e); injection H as <- <-.
    + split; [eexists; split; [done|]; intros ? ? ?; by rewrite elem_of_list_singleton|]. split; [exists []; cbn; rewrite app_nil_r; split; [done|]; intros ?; by rewrite elem_of_nil|done].
    + split; [exists []; rewrite app_nil_r; split; [done|]; intros ? ? ?; by rewrite elem_of_nil|]. split; [exists []; rewrite app_nil_r; split; [done|]; intros ?; by rewrite elem_of_nil|done].
Qed.
(** Only initialize initializes. *)
Lemma step_uninit c e c' r : c_step c e = (c', r) → cl_initialized c = false → cl_initialized c' = true →
  ∃ w, handshake c' w ∧ cl_server c' = Some (field "capabilities" w).
Proof.
  unfold c_step. destruct (e_op e) as [caps info|k p| |id|p] eqn:Eo; intros H Hi Hi'.
  - apply initialize_cases in H as [(Hi2 & _)|(_ & c1 & res & Hs & H)]; [congruence|].
    apply sending in Hs as (_ & Hsv & _ & Hi1 & Hsent & g & Hg & Hg1 & Hg2). cbn [cl_sent cl_got cl_server cl_initialized cl_version cl_caps set_caps] in *.
    destruct H as [(-> & _)|(x & v & w & -> & Hv & Hd & Hver & H)]; [congruence|].
    exists w. destruct (Hg2 x eq_refl) as [Hok ->].
    rewrite Hok in Hsent.
    assert (cl_got c' = cl_got c ++ [(e_id e, MsgResponse x)] ∧ MsgRequest (e_id e) (RClient CInitialize (initialize_params caps info)) ∈ cl_sent c' ∧ cl_server c' = Some (field "capabilities" w)) as (Hg' & Hin & Hs').
    { destruct (e_nok e); destruct H as [-> _]; cbn [cl_sent cl_got cl_server send set_server]; rewrite Hsent; (split; [exact Hg|split; [|reflexivity]]); rewrite ?elem_of_app, elem_of_list_singleton; [left|]; by right. }
    split; [|exact Hs']. exists (e_id e), (initialize_params caps info), x, v. split; [exact Hin|]. split; [rewrite Hg', elem_of_app, elem_of_list_singleton; by right|]. split; [exact Hv|]. split; [exact Hd|exact Hver].
  - destruct (is_method k); [|by injection H as <- <-; congruence]. rewrite (not_initialized_refused k c Hi) in H. injection H as <- <-. congruence.
  - rewrite Hi in H. injection H as <- <-. congruence.
  - unfold send_notification in H. destruct (e_nok e); injection H as <- <-; cbn in Hi'; congruence.
  - unfold send_notification in H. destruct (e_nok e); injection H as <- <-; cbn in Hi'; congruence.
Qed.
Lemma handshake_grows c e c' r w : c_step c e = (c', r) → handshake c w → handshake c' w.
Proof.
  intros H (id & p & x & v & H1 & H2 & H3).
  destruct (step_grows _ _ _ _ H) as ((l & Hl & _) & (g & Hg & _) & _).
  exists id, p, x, v. rewrite Hl, Hg. split; [apply elem_of_app; by left|]. split; [apply elem_of_app; by left|exact H3].
Qed.
Lemma initialized_by es c rs : c_run client_new es = (c, rs) → cl_initialized c = true → ∃ w, handshake c w ∧ cl_server c = Some (field "capabilities" w).
Proof.
  revert c rs. induction es as [|e es IH] using rev_ind; intros c rs H Hi.
  - injection H as <- <-. done.
  - rewrite c_run_snoc in H. destruct (c_run client_new es) as [c1 rs1]. destruct (c_step c1 e) as [c2 r] eqn:Es. injection H as <- <-.
    destruct (cl_initialized c1) eqn:Hi1.
    + destruct (IH _ _ eq_refl Hi1) as (w & Hw & Hs). exists w. split; [by eapply handshake_grows|].
      apply step_grows in Es as (_ & _ & Hm). rewrite (proj2 (Hm Hi1)). done.
    + by eapply step_uninit.
Qed.
Lemma gated es c rs e c' r id k p : c_run client_new es = (c, rs) → c_step c e = (c', r) → MsgRequest id (RClient k p) ∈ news c c' →
  k = CInitialize ∨ ∃ w, handshake c w ∧ cl_server c = Some (field "capabilities" w) ∧ allows (field "capabilities" w) k.
Proof.
  intros Hr Hs Hin. destruct (step_grows _ _ _ _ Hs) as ((l & Hl & Hk) & _ & _). unfold news in Hin. rewrite Hl, drop_app in Hin.
  destruct (Hk _ _ _ Hin) as [_ [[-> _]|[Hm Hf]]]; [by left|]. right.
  apply refused_allows in Hf as [Hi Ha]; [|done]. destruct (initialized_by _ _ _ Hr Hi) as (w & Hw & Hc). exists w. split; [done|]. split; [done|].
  destruct Ha as [Ha|(caps & Hc' & Ha)].
  - split; [by intros cap; rewrite Ha|]. by intros ->.
  - rewrite Hc in Hc'. by injection Hc' as <-.
Qed.

(** The handshake is unique when no id is used twice. *)
Definition ids_in (ids : list rid) (c : client) : Prop :=
  (∀ id r, MsgRequest id r ∈ cl_sent c → id ∈ ids) ∧ (∀ x, x ∈ cl_got c → x.1 ∈ ids).
Lemma step_sent_ids c e c' r : c_step c e = (c', r) → ∃ l, cl_sent c' = cl_sent c ++ l ∧ ∀ id q, MsgRequest id q ∈ l → id = e_id e ∧ ∃ k p, q = RClient k p.
Proof.
  unfold c_step. intros H.
  assert (∀ l : list message, cl_sent c' = cl_sent c ++ l → (∀ id q, MsgRequest id q ∈ l → id = e_id e ∧ ∃ k p, q = RClient k p) →
    ∃ l, cl_sent c' = cl_sent c ++ l ∧ ∀ id q, MsgRequest id q ∈ l → id = e_id e ∧ ∃ k p, q = RClient k p) as W by (intros l; by exists l).
  assert (c' = c → ∃ l, cl_sent c' = cl_sent c ++ l ∧ ∀ id q, MsgRequest id q ∈ l → id = e_id e ∧ ∃ k p, q = RClient k p) as W0.
  { intros ->. apply (W []); [by rewrite app_nil_r|]. intros ? ?. by rewrite elem_of_nil. }
  assert (∀ n, cl_sent c' = cl_sent c ++ [MsgNotification n] → ∃ l, cl_sent c' = cl_sent c ++ l ∧ ∀ id q, MsgRequest id q ∈ l → id = e_id e ∧ ∃ k p, q = RClient k p) as W1.
  { intros n Hn. apply (W _ Hn). intros ? ?. by rewrite elem_of_list_singleton. }
  destruct (e_op e) as [caps info|k p| |id|p] eqn:Eo.
  - apply initialize_cases in H as [(_ & -> & _)|(Hi & c1 & res & Hs & H)]; [by apply W0|].
    apply sending in Hs as (_ & _ & _ & _ & Hsent & _). cbn [cl_sent set_caps] in Hsent.
    set (l0 := if e_ok e then _ else []) in Hsent.
    assert (∀ id q, MsgRequest id q ∈ l0 → id = e_id e ∧ ∃ k p, q = RClient k p) as H0.
    { intros id q. subst l0. destruct (e_ok e); [|by rewrite elem_of_nil]. rewrite elem_of_list_singleton. intros [= -> ->]. split; [done|]. by eexists _, _. }
    clearbody l0. destruct H as [(-> & _)|(x & v & w & _ & _ & _ & _ & H)]; [by apply (W l0)|].
    destruct (e_nok e); destruct H as [-> _]; [|by apply (W l0)].
    apply (W (l0 ++ [MsgNotification (NClient CInitialized JNull)])); [by cbn [cl_sent send set_server]; rewrite Hsent, app_assoc|].
    intros id q. rewrite elem_of_app, elem_of_list_singleton. intros [Hin|Hin]; [by apply H0|done].
  - destruct (is_method k); [|by apply W0; injection H].
    destruct (refused k c); [by apply W0; injection H|].
    destruct (send_request _ _ _ _ c) as [c1 res] eqn:Hs. injection H as <- <-.
    apply sending in Hs as (_ & _ & _ & _ & Hsent & _). apply (W _ Hsent). intros id q. destruct (e_ok e); [|by rewrite elem_of_nil].
    rewrite elem_of_list_singleton. intros [= -> ->]. split; [done|]. by eexists _, _.
  - assert (c' = c ∨ c' = send (MsgNotification (NClient CRootsListChanged JNull)) c) as [Hc|Hc].
    { unfold send_notification in H. repeat match type of H with context [match ?x with _ => _ end] => destruct x end; simplify_eq; auto. }
    + by apply W0.
    + eapply W1. by rewrite Hc.
  - unfold send_notification in H. destruct (e_nok e); injection H as <- <-; [by eapply W1|by apply W0].
  - unfold send_notification in H. destruct (e_nok e); injection H as <- <-; [by eapply W1|by apply W0].
Qed.
Lemma run_ids es c rs : c_run client_new es = (c, rs) → ids_in (e_id <$> es) c.
Proof.
  revert c rs. induction es as [|e es IH] using rev_ind; intros c rs H.
  - injection H as <- <-. split; intros ?; [intros ?|]; by rewrite elem_of_nil.
  - rewrite c_run_snoc in H. destruct (c_run client_new es) as [c1 rs1]. destruct (c_step c1 e) as [c2 r] eqn:Es. injection H as <- <-.
    destruct (IH _ _ eq_refl) as [I1 I2]. destruct (step_sent_ids _ _ _ _ Es) as (l & Hl & Hin). destruct (step_grows _ _ _ _ Es) as (_ & (g & Hg & Hgin) & _).
    rewrite fmap_app. split.
    + intros id q. rewrite Hl, !elem_of_app. cbn. rewrite elem_of_list_singleton. intros [H|H]; [left; by eapply I1|right]. by apply (Hin _ q).
    + intros x. rewrite Hg, !elem_of_app. cbn. rewrite elem_of_list_singleton. intros [H|H]; [left; by apply I2|right; by apply Hgin].
Qed.
Lemma handshake_unique es c rs : NoDup (e_id <$> es) → c_run client_new es = (c, rs) →
  (∀ w, handshake c w → cl_initialized c = true ∧ cl_server c = Some (field "capabilities" w)).
Proof.
  revert c rs. induction es as [|e es IH] using rev_ind; intros c rs Hnd H w Hw.
  - injection H as <- <-. destruct Hw as (id & p & x & v & H & _). by apply elem_of_nil in H.
  - rewrite c_run_snoc in H. destruct (c_run client_new es) as [c1 rs1] eqn:Er. destruct (c_step c1 e) as [c2 r] eqn:Es. injection H as <- <-.
    rewrite fmap_app in Hnd. apply NoDup_app in Hnd as (Hnd & Hfresh & _).
    assert (e_id e ∉ e_id <$> es) as Hf. { intros Hin. apply (Hfresh _ Hin). cbn. by apply elem_of_list_singleton. }
    specialize (IH _ _ Hnd eq_refl). destruct (run_ids _ _ _ Er) as [I1 I2].
    destruct Hw as (id & p & x & v & H1 & H2 & H3).
    destruct (step_grows _ _ _ _ Es) as ((l & Hl & Hlin) & (g & Hg & Hgin) & Hm).
    rewrite Hl, elem_of_app in H1. rewrite Hg, elem_of_app in H2.
    destruct H1 as [H1|H1], H2 as [H2|H2].
    + destruct (IH w) as [Hi Hs]; [exists id, p, x, v; done|]. destruct (Hm Hi) as [-> ->]. done.
    + exfalso. apply Hf. apply Hgin in H2. cbn in H2. subst id. by eapply I1.
    + exfalso. apply Hf. destruct (Hlin _ _ _ H1) as [-> _]. apply (I2 _ H2).
    + destruct (Hlin _ _ _ H1) as [-> [[_ Hi]|[Hm' _]]]; [|done]. clear Hm Hlin Hgin.
      unfold c_step in Es. destruct (e_op e) as [caps info|k q| |id|q] eqn:Eo.
      * apply initialize_cases in Es as [(Hi2 & _)|(_ & c3 & res & Hs & H)]; [congruence|].
        apply sending in Hs as (_ & _ & _ & _ & _ & g' & Hg' & Hg1 & Hg2). cbn [cl_got set_caps] in Hg'.
        assert (cl_got c2 = cl_got c3) as Hgot. { destruct H as [(-> & _)|(?&?&?&_&_&_&_&H)]; [done|]. destruct (e_nok e); by destruct H as [-> _]. }
        assert (g = g') as ->. { rewrite Hgot, Hg' in Hg. by apply app_inv_head in Hg. }
        destruct Hg1 as [->|(m & -> & Hres)]; [by apply elem_of_nil in H2|].
        apply elem_of_list_singleton in H2. injection H2 as <-.
        destruct H as [(-> & _ & Hno)|(x' & v' & w' & Hr & Hv & Hd & _ & H)].
        -- exfalso. destruct H3 as (H3 & H4 & H5). by apply (Hno x v w (proj2 (Hres x) eq_refl) H3 H4).
        -- apply Hres in Hr. injection Hr as ->. destruct H3 as (H3 & H4 & _). rewrite H3 in Hv. injection Hv as <-. rewrite H4 in Hd. injection Hd as <-.
           destruct (e_nok e); destruct H as [-> _]; done.
      * exfalso. destruct (is_method k); [|injection Es as <- <-; rewrite <- (app_nil_r (cl_sent c1)) in Hl at 1; apply app_inv_head in Hl as <-; by apply elem_of_nil in H1].
        rewrite (not_initialized_refused k _ Hi) in Es. injection Es as <- <-. rewrite <- (app_nil_r (cl_sent c1)) in Hl at 1; apply app_inv_head in Hl as <-; by apply elem_of_nil in H1.
      * exfalso. rewrite Hi in Es. injection Es as <- <-. rewrite <- (app_nil_r (cl_sent c1)) in Hl at 1; apply app_inv_head in Hl as <-; by apply elem_of_nil in H1.
      * exfalso. unfold send_notification in Es. destruct (e_nok e); injection Es as <- <-; [|rewrite <- (app_nil_r (cl_sent c1)) in Hl at 1]; apply app_inv_head in Hl as <-; [|by apply elem_of_nil in H1]. by apply elem_of_list_singleton in H1.
      * exfalso. unfold send_notification in Es. destruct (e_nok e); injection Es as <- <-; [|rewrite <- (app_nil_r (cl_sent c1)) in Hl at 1]; apply app_inv_head in Hl as <-; [|by apply elem_of_nil in H1]. by apply elem_of_list_singleton in H1.
Qed.

(** ** Which message a call receives *)
Lemma send_request_exact id r ms c m rest : cl_in c ++ ms = m :: rest →
  ∃ c', send_request id r true ms c = (c', match m with MsgResponse x => inl x | _ => inr (EProtocol (-32603) (lit "Expected response, got different message type") None) end) ∧
    cl_in c' = rest ∧ cl_got c' = cl_got c ++ [(id, m)] ∧ cl_initialized c' = cl_initialized c ∧ cl_server c' = cl_server c ∧ cl_sent c' = cl_sent c ++ [MsgRequest id r].
Proof.
  intros E. unfold send_request. cbn [cl_in deliver send track]. rewrite E. eexists. split; [reflexivity|]. done.
Qed.
Lemma call_exact c e k p m rest : e_op e = OCall k p → is_method k = true → refused k c = None → e_ok e = true → cl_in c ++ e_arrived e = m :: rest →
  ∃ c', c_step c e = (c', finish k (match m with MsgResponse x => inl x | _ => inr (EProtocol (-32603) (lit "Expected response, got different message type") None) end)) ∧
    cl_in c' = rest ∧ cl_got c' = cl_got c ++ [(e_id e, m)] ∧ cl_initialized c' = cl_initialized c ∧ cl_server c' = cl_server c ∧ cl_sent c' = cl_sent c ++ [MsgRequest (e_id e) (RClient k p)].
Proof.
  intros Ho Hm Hr Hok Hin. unfold c_step. rewrite Ho, Hm, Hr, Hok.
  destruct (send_request_exact (e_id e) (RClient k p) (e_arrived e) c m rest Hin) as (c' & -> & H). by exists c'.
Qed.
(** a stray message in front shifts every later answer *)
Definition ping (id : rid) (x : rpc_response) : cevent := MkEvent (OCall CPing JNull) id true [MsgResponse x] true.
Lemma shifted c m l : cl_initialized c = true → cl_in c = [m] →
  cl_got (c_run c ((λ ix, ping ix.1 ix.2) <$> l)).1 = cl_got c ++ zip (fst <$> l) (m :: (MsgResponse <$> (snd <$> l))).
Proof.
  revert c m. induction l as [|[i x] l IH]; intros c m Hi Hin; cbn [fmap list_fmap c_run].
  - cbn. by rewrite app_nil_r.
  - destruct (call_exact c (ping i x) CPing JNull m [MsgResponse x]) as (c' & Hs & Hin' & Hg & Hi' & _); [done..|by apply refused_wants|done|by rewrite Hin|].
    cbn [fst snd]. rewrite Hs. specialize (IH c' (MsgResponse x)). destruct (c_run c' _) as [c2 rs]. cbn [fst] in *.
    rewrite IH by (rewrite ?Hi'; done). rewrite Hg, <- app_assoc. done.
Qed.
Lemma own_responses es c rs : answered_only es → c_run client_new es = (c, rs) →
  cl_in c = [] ∧ Forall (λ x, response_to x.1 x.2) (cl_got c).
Proof.
  revert c rs. induction es as [|e es IH] using rev_ind; intros c rs He H.
  - injection H as <- <-. split; [done|]. by constructor.
  - apply Forall_app in He as [He Hl]. apply Forall_singleton in Hl as (Hok & x & Har & Hid).
    rewrite c_run_snoc in H. destruct (c_run client_new es) as [c1 rs1]. destruct (c_step c1 e) as [c2 r] eqn:Es. injection H as <- <-.
    destruct (IH _ _ He eq_refl) as [Hin Hg]. clear IH.
    assert (∀ q c0, cl_in c0 = [] → Forall (λ x, response_to x.1 x.2) (cl_got c0) → ∀ c' res, send_request (e_id e) q (e_ok e) (e_arrived e) c0 = (c', res) → cl_in c' = [] ∧ Forall (λ x, response_to x.1 x.2) (cl_got c')) as Hreq.
    { intros q c0 Hin0 Hg0 c' res Hs. rewrite Hok, Har in Hs.
      destruct (send_request_exact (e_id e) q [MsgResponse x] c0 (MsgResponse x) []) as (c3 & Hs' & Hin3 & Hg3 & _); [by rewrite Hin0|].
      rewrite Hs in Hs'. injection Hs' as <- _. split; [done|]. rewrite Hg3, Forall_app, Forall_singleton. split; [done|]. by exists x. }
    unfold c_step in Es. destruct (e_op e) as [caps info|k p| |id|p] eqn:Eo.
    + apply initialize_cases in Es as [(_ & -> & _)|(Hi & c3 & res & Hs & H)]; [done|].
      apply Hreq in Hs as [H1 H2]; [|done..]. destruct H as [(-> & _)|(?&?&?&_&_&_&_&H)]; [done|]. destruct (e_nok e); by destruct H as [-> _].
    + destruct (is_method k); [|by injection Es as <- <-]. destruct (refused k c1); [by injection Es as <- <-|].
      destruct (send_request _ _ _ _ c1) as [c3 res] eqn:Hs. injection Es as <- <-. by apply Hreq in Hs.
    + assert (c2 = c1 ∨ c2 = send (MsgNotification (NClient CRootsListChanged JNull)) c1) as [->| ->]; [|done..].
      unfold send_notification in Es. repeat match type of Es with context [match ?x with _ => _ end] => destruct x end; simplify_eq; auto.
    + unfold send_notification in Es. destruct (e_nok e); by injection Es as <- <-.
    + unfold send_notification in Es. destruct (e_nok e); by injection Es as <- <-.
Qed.

(** ** Active requests *)
Lemma filter_self (id : rid) l : filter (λ i, i ≠ id) (l ++ [id]) = filter (λ i, i ≠ id) l.
Proof. rewrite filter_app, filter_cons_False by naive_solver. cbn. by rewrite app_nil_r. Qed.
Lemma no_leak es c rs : works es → c_run client_new es = (c, rs) → cl_active c = [].
Proof.
  revert c rs. induction es as [|e es IH] using rev_ind; intros c rs He H.
  - by injection H as <- <-.
  - apply Forall_app in He as [He Hl]. apply Forall_singleton in Hl as (Hok & Har).
    rewrite c_run_snoc in H. destruct (c_run client_new es) as [c1 rs1]. destruct (c_step c1 e) as [c2 r] eqn:Es. injection H as <- <-.
    specialize (IH _ _ He eq_refl).
    assert (∀ q c0, cl_active c0 = [] → ∀ c' res, send_request (e_id e) q (e_ok e) (e_arrived e) c0 = (c', res) → cl_active c' = []) as Hreq.
    { intros q c0 H0 c' res. unfold send_request. rewrite Hok. cbn [cl_in deliver send track].
      destruct (cl_in c0 ++ e_arrived e) as [|m rest] eqn:E; [by apply app_eq_nil in E as [_ E]|].
      intros [= <- _]. cbn [cl_active untrack took deliver send track]. by rewrite filter_self, H0. }
    unfold c_step in Es. destruct (e_op e) as [caps info|k p| |id|p] eqn:Eo.
    + apply initialize_cases in Es as [(_ & -> & _)|(Hi & c3 & res & Hs & H)]; [done|].
      apply Hreq in Hs; [|done..]. destruct H as [(-> & _)|(?&?&?&_&_&_&_&H)]; [done|]. destruct (e_nok e); by destruct H as [-> _].
    + destruct (is_method k); [|by injection Es as <- <-]. destruct (refused k c1); [by injection Es as <- <-|].
      destruct (send_request _ _ _ _ c1) as [c3 res] eqn:Hs. injection Es as <- <-. by apply Hreq in Hs.
    + assert (c2 = c1 ∨ c2 = send (MsgNotification (NClient CRootsListChanged JNull)) c1) as [->| ->]; [|done..].
      unfold send_notification in Es. repeat match type of Es with context [match ?x with _ => _ end] => destruct x end; simplify_eq; auto.
    + unfold send_notification in Es. destruct (e_nok e); injection Es as <- <-; [|done]. cbn. by rewrite IH.
    + unfold send_notification in Es. destruct (e_nok e); by injection Es as <- <-.
Qed.
Lemma stays_active es c id : id ∈ cl_active c → Forall (λ e, e_id e ≠ id ∧ ¬ cancels id e) es → id ∈ cl_active (c_run c es).1.
Proof.
  revert c. induction es as [|e es IH]; intros c Hin He; [done|]. apply Forall_cons in He as [[Hid Hc] He]. cbn [c_run].
  destruct (c_step c e) as [c1 r] eqn:Es. specialize (IH c1). destruct (c_run c1 es) as [c2 rs]. apply IH; [|done]. clear IH.
  assert (∀ q c0 c' res, send_request (e_id e) q (e_ok e) (e_arrived e) c0 = (c', res) → id ∈ cl_active c0 → id ∈ cl_active c') as Hreq.
  { intros q c0 c' res Hs H0. unfold send_request in Hs. destruct (e_ok e); [|injection Hs as <- _; cbn; apply elem_of_app; by left].
    cbn [cl_in deliver send track] in Hs. destruct (cl_in c0 ++ e_arrived e); injection Hs as <- _; cbn [cl_active untrack took deliver send track]; [apply elem_of_app; by left|].
    rewrite filter_self. by apply elem_of_list_filter. }
  unfold c_step in Es. destruct (e_op e) as [caps info|k p| |id'|p] eqn:Eo.
  - apply initialize_cases in Es as [(_ & -> & _)|(Hi & c3 & res & Hs & H)]; [done|].
    apply Hreq in Hs; [|done..]. destruct H as [(-> & _)|(?&?&?&_&_&_&_&H)]; [done|]. destruct (e_nok e); by destruct H as [-> _].
  - destruct (is_method k); [|by injection Es as <- <-]. destruct (refused k c); [by injection Es as <- <-|].
    destruct (send_request _ _ _ _ c) as [c3 res] eqn:Hs. injection Es as <- <-. by eapply Hreq in Hs.
  - assert (c1 = c ∨ c1 = send (MsgNotification (NClient CRootsListChanged JNull)) c) as [->| ->]; [|done..].
    unfold send_notification in Es. repeat match type of Es with context [match ?x with _ => _ end] => destruct x end; simplify_eq; auto.
  - unfold send_notification in Es. destruct (e_nok e); injection Es as <- <-; [|done]. cbn. apply elem_of_list_filter. split; [|done].
    intros ->. by apply Hc.
  - unfold send_notification in Es. destruct (e_nok e); by injection Es as <- <-.
Qed.
Lemma failed_send_active c e k p : e_op e = OCall k p → is_method k = true → refused k c = None → e_ok e = false → e_id e ∈ cl_active (c_step c e).1.
Proof. intros Ho Hm Hr Hok. unfold c_step. rewrite Ho, Hm, Hr. unfold send_request. rewrite Hok. cbn. apply elem_of_app. right. by apply elem_of_list_singleton. Qed.

(** ** Half a handshake *)
Lemma stays_initialized es c : cl_initialized c = true → cl_initialized (c_run c es).1 = true.
Proof.
  revert c. induction es as [|e es IH]; intros c Hi; [done|]. cbn [c_run]. destruct (c_step c e) as [c1 r] eqn:Es.
  specialize (IH c1). destruct (c_run c1 es) as [c2 rs]. apply IH. destruct (step_grows _ _ _ _ Es) as (_ & _ & H). by apply H.
Qed.
Definition announces (m : message) : Prop := m = MsgNotification (NClient CInitialized JNull).
Lemma not_announced es c : cl_initialized c = true → (∀ m, m ∈ cl_sent c → ¬ announces m) → ∀ m, m ∈ cl_sent (c_run c es).1 → ¬ announces m.
Proof.
  revert c. induction es as [|e es IH]; intros c Hi Hno; [done|]. cbn [c_run]. destruct (c_step c e) as [c1 r] eqn:Es.
  specialize (IH c1). destruct (c_run c1 es) as [c2 rs]. apply IH; [destruct (step_grows _ _ _ _ Es) as (_ & _ & H); by apply H|].
  clear IH. unfold c_step in Es. destruct (e_op e) as [caps info|k p| |id'|p] eqn:Eo.
  - apply initialize_cases in Es as [(_ & -> & _)|(Hi' & _)]; [done|congruence].
  - destruct (is_method k); [|by injection Es as <- <-]. destruct (refused k c); [by injection Es as <- <-|].
    destruct (send_request _ _ _ _ c) as [c3 res] eqn:Hs. injection Es as <- <-. apply sending in Hs as (_ & _ & _ & _ & -> & _).
    intros m. rewrite elem_of_app. intros [H|H]; [by apply Hno|]. destruct (e_ok e); [|by apply elem_of_nil in H]. by apply elem_of_list_singleton in H as ->.
  - assert (c1 = c ∨ c1 = send (MsgNotification (NClient CRootsListChanged JNull)) c) as [->| ->]; [|done|].
    { unfold send_notification in Es. repeat match type of Es with context [match ?x with _ => _ end] => destruct x end; simplify_eq; auto. }
    intros m. cbn. rewrite elem_of_app, elem_of_list_singleton. intros [H| ->]; [by apply Hno|done].
  - unfold send_notification in Es. destruct (e_nok e); injection Es as <- <-; [|done]. cbn. intros m. rewrite elem_of_app, elem_of_list_singleton. intros [H| ->]; [by apply Hno|done].
  - unfold send_notification in Es. destruct (e_nok e); injection Es as <- <-; [|done]. cbn. intros m. rewrite elem_of_app, elem_of_list_singleton. intros [H| ->]; [by apply Hno|done].
Qed.

(** ** Concurrent calls *)
Lemma x_snoc os o : x_run (os ++ [o]) = x_step (x_run os) o.
Proof. unfold x_run. by rewrite fold_left_app. Qed.
Lemma omap_snoc {A B} (f : A → option B) l x : omap f (l ++ [x]) = omap f l ++ match f x with Some y => [y] | None => [] end.
Proof. rewrite omap_app. cbn. by destruct (f x). Qed.
Lemma conserved os : (snd <$> x_got (x_run os)) ++ x_in (x_run os) = arrivals os ∧ (fst <$> x_got (x_run os)) ++ x_waiting (x_run os) ≡ₚ sends os.
Proof.
  induction os as [|o os [IH1 IH2]] using rev_ind; [done|]. rewrite x_snoc. unfold arrivals, sends in *. rewrite !omap_snoc.
  destruct o as [w id|m|i]; cbn [x_step].
  - cbn. rewrite app_nil_r. split; [done|]. by rewrite app_assoc, IH2.
  - cbn. rewrite app_nil_r. split; [|done]. by rewrite app_assoc, IH1.
  - rewrite !app_nil_r. destruct (x_waiting (x_run os) !! i) as [[w id]|] eqn:Ew; [|done]. destruct (x_in (x_run os)) as [|m rest] eqn:Ei; [by rewrite Ei|]. cbn.
    rewrite !fmap_app. cbn. split; [by rewrite <- app_assoc|].
    rewrite <- IH2, <- app_assoc. f_equiv. symmetry. by apply delete_Permutation.
Qed.
Lemma turn_by_turn os : in_turn os → (fst <$> x_got (x_run os)) ++ x_waiting (x_run os) = sends os.
Proof.
  induction os as [|o os IH] using rev_ind; [done|]. intros [Ht Ho]%Forall_app. rewrite Forall_singleton in Ho. specialize (IH Ht). rewrite x_snoc. unfold sends in *. rewrite omap_snoc.
  destruct o as [w id|m|i]; cbn [x_step].
  - cbn. by rewrite app_assoc, IH.
  - cbn. by rewrite app_nil_r.
  - rewrite app_nil_r. rewrite (Ho i eq_refl). destruct (x_waiting (x_run os)) as [|[w id] l] eqn:Ew; [cbn; by rewrite Ew|]. cbn [lookup list_lookup]. destruct (x_in (x_run os)) as [|m rest] eqn:Ei; [by rewrite Ew|]. cbn.
    rewrite fmap_app. cbn. by rewrite <- app_assoc.
Qed.
Lemma turn_pairs os i w id m : in_turn os → x_got (x_run os) !! i = Some (w, id, m) → sends os !! i = Some (w, id) ∧ arrivals os !! i = Some m.
Proof.
  intros Ht Hi. rewrite <- (turn_by_turn os Ht), <- (proj1 (conserved os)). split; apply lookup_app_l_Some; by rewrite list_lookup_fmap, Hi.
Qed.

(** ** Client and server *)
Lemma is_str s : is_of TStr (JStr s). Proof. by exists s. Qed.
Lemma layout_opt_none n t fs l : layout is_of fs l → layout is_of (opt n t :: fs) l.
Proof. by left. Qed.
Lemma is_struct fs l : layout is_of fs l → is_of (struct fs) (JObj l).
Proof. intros H. exists l, []. rewrite app_nil_r. done. Qed.
Lemma is_vec t l : Forall (is_of t) l → is_of (TVec t) (JArr l).
Proof. intros H. by exists l. Qed.
Lemma layout_nil : layout is_of [] []. Proof. done. Qed.
Lemma tools_typed cf : is_of t_list_tools_result (handle_list_tools cf).
Proof.
  unfold handle_list_tools, t_list_tools_result. apply is_struct, layout_req, layout_opt_none, layout_nil. apply is_vec.
  apply Forall_fmap, Forall_true. intros n. unfold tool_info, compose. apply is_struct. apply layout_req; [apply is_str|]. apply layout_opt_none. apply layout_req; [exact I|apply layout_nil].
Qed.
Lemma prompts_typed cf : is_of t_list_prompts_result (handle_list_prompts cf).
Proof.
  unfold handle_list_prompts, t_list_prompts_result. apply is_struct, layout_req, layout_opt_none, layout_nil. apply is_vec.
  apply Forall_fmap, Forall_true. intros n. unfold prompt_info, compose. apply is_struct. apply layout_req; [apply is_str|]. apply layout_opt_none, layout_opt_none, layout_nil.
Qed.
Lemma layout_dflt n d t fs v l : is_of t v → layout is_of fs l → layout is_of (dflt n d t :: fs) ((lit n, v) :: l).
Proof. intros H1 H2. exists v, l. done. Qed.
Lemma call_typed v : is_of t_call_tool_result (call_result v).
Proof.
  unfold call_result, t_call_tool_result. apply is_struct. apply layout_dflt; [|apply layout_dflt; [by exists false|apply layout_nil]].
  apply is_vec, Forall_singleton. exists (lit "text"), [(lit "text", JStr (show v))]. split; [done|]. left. split; [done|]. apply layout_req; [apply is_str|apply layout_nil].
Qed.
Lemma result_ty_ok k t : result_ty k = Some t → ty_ok t.
Proof.
  intros H. assert (t ∈ protocol_types) as Hin.
  { destruct k; try done; injection H as <-; unfold protocol_types; repeat (first [apply elem_of_list_here | apply elem_of_list_further]). }
  eapply Forall_forall; [apply protocol_types_ok|done].
Qed.
Lemma finish_typed k id v : (∀ t, result_ty k = Some t → is_of t v) → finish k (inl (success id v)) = COk (match result_ty k with Some _ => v | None => JNull end).
Proof.
  intros H. unfold finish. cbn [rs_payload success]. destruct (result_ty k) as [t|] eqn:E; [|done].
  rewrite (decode_is_of t (result_ty_ok _ _ E) v (H t eq_refl)). done.
Qed.
Lemma success_inj id v v' : success id v = success id v' → v = v'.
Proof. by intros [= ->]. Qed.
Lemma server_result_typed cf behave key id k p s s' v : typed behave → is_method k = true → k ≠ CComplete →
  handle_request cf behave key id (RClient k p) s = (s', Some (success id v)) → ∀ t, result_ty k = Some t → is_of t v.
Proof.
  intros Ht Hm Hk H t Hty.
  assert (∃ s1 , process_client_request cf behave key id k p s = (s1, Ok v)) as (s1 & Hp).
  { unfold handle_request in H. destruct k; try done;
    (match type of H with context [process_client_request ?a ?b ?c ?d ?e ?f ?g] => destruct (process_client_request a b c d e f g) as [s1 [w|e'|]] end;
    [injection H as _ Hv; subst w; by eexists|exfalso; cbn [create_response] in H; unfold failure, success in H; by simplify_eq|done]). }
  clear H. destruct k; try done; cbn [result_ty] in Hty; try discriminate; apply (inj Some) in Hty; subst t; cbn [process_client_request] in Hp.
  - injection Hp as _ <-. apply tools_typed.
  - destruct (cf_tools cf !! _); [|done]. unfold invoke in Hp. destruct (behave _) as [w| |]; [|done..]. injection Hp as _ <-. apply call_typed.
  - injection Hp as _ <-. apply prompts_typed.
  - destruct (cf_prompts cf !! _); [|done]. unfold invoke in Hp. destruct (behave _) as [w| |] eqn:E; [|done..]. injection Hp as _ <-. by apply Ht in E.
  - destruct (cf_resources cf).
    + unfold invoke in Hp. destruct (behave _) as [w| |] eqn:E; [|done..]. injection Hp as _ <-. by apply Ht in E.
    + injection Hp as _ <-. apply is_struct. apply layout_req; [by apply is_vec|]. apply layout_opt_none, layout_nil.
  - injection Hp as _ <-. apply is_struct. apply layout_req; [by apply is_vec|]. apply layout_opt_none, layout_nil.
  - destruct (cf_resources cf); [|done]. unfold invoke in Hp. destruct (behave _) as [w| |] eqn:E; [|done..]. injection Hp as _ <-. by apply Ht in E.
  - destruct (cf_sampling cf); [|done]. unfold invoke in Hp. destruct (behave _) as [w| |] eqn:E; [|done..]. injection Hp as _ <-. by apply Ht in E.
Qed.
Lemma initialize_typed cf : scaps_ok (cf_caps cf) → is_of t_initialize_result (initialize_result cf).
Proof.
  intros Hc. unfold initialize_result, t_initialize_result. apply is_struct. apply layout_req; [apply is_str|]. apply layout_req; [done|]. apply layout_req.
  - apply is_struct. apply layout_req; [apply is_str|]. apply layout_req; [apply is_str|]. apply layout_nil.
  - apply layout_opt_none, layout_nil.
Qed.
Lemma initialize_ok : ty_ok t_initialize_result.
Proof. repeat constructor. Qed.
Lemma handshake_works cf behave key sv c e caps info : scaps_ok (cf_caps cf) → cl_initialized c = false → cl_in c = [] → e_op e = OInitialize caps info → e_ok e = true → e_nok e = true →
  e_arrived e = match (handle_request cf behave key (e_id e) (RClient CInitialize (initialize_params caps info)) sv).2 with Some x => [MsgResponse x] | None => [] end →
  ∃ c', c_step c e = (c', COk (initialize_result cf)) ∧ cl_initialized c' = true ∧ cl_server c' = Some (scaps_json (cf_caps cf)).
Proof.
  intros Hc Hi Hin Ho Hok Hnok Har. unfold handle_request in Har. cbn [snd] in Har.
  unfold c_step. rewrite Ho. unfold initialize. rewrite Hi, Hok, Hnok.
  destruct (send_request_exact (e_id e) (RClient CInitialize (initialize_params caps info)) (e_arrived e) (set_caps caps c) (MsgResponse (success (e_id e) (initialize_result cf))) []) as (c' & -> & _); [cbn; by rewrite Hin, Har|].
  cbn [rs_payload success]. rewrite (decode_is_of _ initialize_ok _ (initialize_typed _ Hc)).
  assert (text_of (field "protocolVersion" (initialize_result cf)) = lit "2024-11-05") as -> by done.
  rewrite decide_True by (unfold supported_versions; repeat (first [apply elem_of_list_here | apply elem_of_list_further])).
  eexists. split; [done|]. split; [done|]. cbn [cl_server send set_server]. f_equal.
Qed.
