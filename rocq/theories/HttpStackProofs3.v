(** Proofs about sessions over HTTP: what a request comes to, and sessions over stdio. *)
From stdpp Require Import gmap strings list sets.
From Verif Require Import ListLib TextLib JsonLib SerdeLib TypesModel ManagersModel HttpModel HttpClientModel HttpClientSpec RpcModel RpcSpec RpcProofs ServerModel ServerSpec ClientModel ClientSpec HttpStackModel HttpStackSpec HttpStackProofs HttpStackProofs2.
From Verif Require ServerProofs ClientProofs StackModel StackSpec StackProofs StackProofs2.

(** A server apart from what its message task has sent *)
Definition unsent (s : server) : server := MkServer (sv_client s) (sv_initialized s) (sv_canceller s) (sv_subs s) (sv_calls s) [] (sv_listening s).
Section stack.
  Context (os : list bop) (cf : config) (behave : list invocation → hresult) (key : list N → string) (tcf : tconfig) (hcf : hconfig).
  Context (Hb : build os = inl cf) (Hp : never_panics behave) (Hclash : no_clash tcf) (Hst : hc_stateful hcf = true) (Hok : scaps_ok (cf_caps cf)).
  Notation handle := (handle_request cf behave key).
  Notation behind := (behind cf behave key).
  Notation web_call := (web_call cf behave key tcf hcf).
  Notation web_session := (web_session cf behave key tcf hcf).
  Notation answers_travel := (answers_travel cf behave key).
  Notation web_ready := (web_ready os cf behave key hcf).
  Notation ready := (StackProofs2.ready os).

  Lemma session_call ops y rs o id u1 u2 y' r : Forall (usable_call tcf) ops → web_session web_new ops = (y, rs) → web_call y o id u1 u2 = (y', r) → answers_travel y' → web_ready y.
  Proof.
    intros Hu Hs Hc Ht. pose proof (web_call_log cf behave key tcf hcf Hst y o id u1 u2) as Hl. rewrite Hc in Hl. cbn [fst] in Hl.
    by apply (web_session_ready os cf behave key tcf hcf Hb Hp Hclash Hst Hok ops web_new y rs Hu (web_ready_new _ _ _ _ _) Hs), (travel_back _ _ _ _ _ Hl).
  Qed.
  Lemma web_permitted y k p id u1 u2 y' r : web_ready y → usable_call tcf (OCall k p, id, (u1, u2)) → is_method k = true → refused k (g_client y) = None → web_call y (OCall k p) id u1 u2 = (y', r) → answers_travel y' →
    ∃ x, handle id (RClient k p) (behind y) = (behind y', Some x) ∧ r = finish k (inl x) ∧ good_request (RClient k p).
  Proof.
    intros Hr (Hpo & Hu1 & Hu2) Hm Hk Hc Ht. cbn [fst snd] in *. destruct (web_call_ready os cf behave key tcf hcf Hb Hp Hclash Hst Hok _ _ _ _ _ _ _ Hr Hpo Hu1 Hu2 Hc Ht) as [_ H].
    unfold StackProofs.opening in H. rewrite Hm, Hk in H. destruct H as (s1 & x & Hh & Hs & _ & Hst' & Hg).
    exists x. split; [by rewrite Hs|]. split; [|done].
    destruct (ClientProofs.call_exact (g_client y) (MkEvent (OCall k p) id true [MsgResponse x] true) k p (MsgResponse x) []) as (c2 & Hs2 & _); [done..|cbn; by rewrite (wr_in _ _ _ _ _ _ Hr)|].
    rewrite Hst' in Hs2. by injection Hs2 as _ ->.
  Qed.

  (** *** The same session over stdio *)
  Lemma handle_unsent id r s s' s1 x : unsent s = unsent s' → handle id r s = (s1, x) → ∃ s1', handle id r s' = (s1', x) ∧ unsent s1 = unsent s1'.
  Proof.
    intros E H. destruct s as [a b c d e f g], s' as [a' b' c' d' e' f' g']. unfold unsent in E. cbn in E. injection E as -> -> -> -> -> ->.
    revert H. unfold handle_request. destruct r as [k p|k p]; [|intros H; apply pair_equal_spec in H as [<- <-]; by eexists].
    assert (∀ k p s1 x, process_client_request cf behave key id k p (MkServer a' b' c' d' e' f g') = (s1, x) →
      ∃ s1', process_client_request cf behave key id k p (MkServer a' b' c' d' e' f' g') = (s1', x) ∧ unsent s1 = unsent s1') as W0.
    { clear. intros k p s1 x. unfold process_client_request, invoke, unsent. cbn [sv_client sv_initialized sv_canceller sv_subs sv_calls sv_sent sv_listening].
      destruct k; repeat case_match; intros HH; apply pair_equal_spec in HH as [<- <-]; eexists; (split; [reflexivity|done]). }
    assert (∀ k p s1 x, (let '(s, r) := process_client_request cf behave key id k p (MkServer a' b' c' d' e' f g') in (s, match r with Ok v => Some (create_response id (inl v)) | Err e => Some (create_response id (inr e)) | Panicked => None end)) = (s1, x) →
      ∃ s1', (let '(s, r) := process_client_request cf behave key id k p (MkServer a' b' c' d' e' f' g') in (s, match r with Ok v => Some (create_response id (inl v)) | Err e => Some (create_response id (inr e)) | Panicked => None end)) = (s1', x) ∧ unsent s1 = unsent s1') as W.
    { clear -W0. intros k p s1 x. destruct (process_client_request cf behave key id k p (MkServer a' b' c' d' e' f g')) as [s r] eqn:E. destruct (W0 _ _ _ _ E) as (s1' & -> & Hu).
      intros HH. apply pair_equal_spec in HH as [<- <-]. by exists s1'. }
    destruct k; try (by apply W). intros H. apply pair_equal_spec in H as [<- <-]. by eexists.
  Qed.
  Lemma same_call (y y' : StackModel.stack) (g g' : web) o id u1 u2 r r' : StackModel.y_client y = g_client g → unsent (StackModel.y_server y) = unsent (behind g) →
    ready y → web_ready g → usable_call tcf (o, id, (u1, u2)) →
    StackModel.call cf behave key y o id = (y', r) → StackSpec.travels y' → web_call g o id u1 u2 = (g', r') → answers_travel g' →
    r = r' ∧ StackModel.y_client y' = g_client g' ∧ unsent (StackModel.y_server y') = unsent (behind g').
  Proof.
    intros Ec Es Hy Hg (Hpo & Hu1 & Hu2) H1 T1 H2 T2. cbn [fst snd] in *. destruct (StackProofs2.call_ready os cf behave key Hb Hp _ _ _ _ _ Hy H1 T1) as [_ K1].
    destruct (web_call_ready os cf behave key tcf hcf Hb Hp Hclash Hst Hok _ _ _ _ _ _ _ Hg Hpo Hu1 Hu2 H2 T2) as [_ K2]. rewrite Ec in K1.
    assert (StackModel.y_server y' = StackModel.y_server y ∧ c_step (g_client g) (MkEvent o id true [] true) = (StackModel.y_client y', r) → g_http g' = g_http g ∧ c_step (g_client g) (MkEvent o id true [] true) = (g_client g', r') →
      r = r' ∧ StackModel.y_client y' = g_client g' ∧ unsent (StackModel.y_server y') = unsent (behind g')) as W.
    { intros [S1 C1] [S2 C2]. rewrite C1 in C2. apply pair_equal_spec in C2 as [-> ->]. split; [done|]. split; [done|]. unfold HttpStackSpec.behind in *. by rewrite S1, S2. }
    destruct (StackProofs.opening (g_client g) o id) as [[i [k p|k p]|x|n]|]; [|by apply W..]. clear W.
    destruct K1 as (s1 & x & Hh & Hs & _ & C1 & _). destruct K2 as (s2 & x2 & Hh2 & Hs2 & _ & C2 & _).
    destruct (handle_unsent _ _ _ _ _ _ Es Hh) as (s3 & Hh3 & E3). rewrite Hh2 in Hh3. apply pair_equal_spec in Hh3 as [-> Hx]. injection Hx as ->.
    rewrite C1 in C2. apply pair_equal_spec in C2 as [-> ->]. split; [done|]. split; [done|]. rewrite Hs, Hs2. exact E3.
  Qed.
  Lemma same_session ops (y y' : StackModel.stack) (g g' : web) rs rs' : StackModel.y_client y = g_client g → unsent (StackModel.y_server y) = unsent (behind g) →
    ready y → web_ready g → Forall (usable_call tcf) ops →
    StackModel.session cf behave key y ops.*1 = (y', rs) → StackSpec.travels y' → web_session g ops = (g', rs') → answers_travel g' →
    rs = rs' ∧ StackModel.y_client y' = g_client g' ∧ unsent (StackModel.y_server y') = unsent (behind g').
  Proof.
    revert y g rs rs'. induction ops as [|[[o id] [u1 u2]] ops IH]; intros y g rs rs' Ec Es Hy Hg Hu.
    - cbn. intros [= <- <-] _ [= <- <-] _. done.
    - apply Forall_cons in Hu as [Hu0 Hu]. cbn [fmap list_fmap fst StackModel.session HttpStackModel.web_session].
      destruct (StackModel.call cf behave key y o id) as [y1 r1] eqn:E1. destruct (StackModel.session cf behave key y1 ops.*1) as [y2 rs2] eqn:E2. intros H T. apply pair_equal_spec in H as [-> <-].
      destruct (web_call g o id u1 u2) as [g1 r3] eqn:E3. destruct (web_session g1 ops) as [g2 rs4] eqn:E4. intros H T'. apply pair_equal_spec in H as [-> <-].
      destruct (StackProofs2.session_grows cf behave key _ _ _ _ E2) as [G1 G2]. pose proof (StackProofs2.travels_back _ _ G1 G2 T) as T1.
      pose proof (session_log cf behave key tcf hcf Hst ops g1) as Hl. rewrite E4 in Hl. cbn [fst] in Hl. pose proof (travel_back _ _ _ _ _ Hl T') as T2.
      destruct (same_call _ _ _ _ _ _ _ _ _ _ Ec Es Hy Hg Hu0 E1 T1 E3 T2) as (-> & Ec1 & Es1).
      destruct (StackProofs2.call_ready os cf behave key Hb Hp _ _ _ _ _ Hy E1 T1) as [Hy1 _]. destruct Hu0 as (Hpo & Hu1 & Hu2).
      destruct (web_call_ready os cf behave key tcf hcf Hb Hp Hclash Hst Hok _ _ _ _ _ _ _ Hg Hpo Hu1 Hu2 E3 T2) as [Hg1 _].
      destruct (IH y1 g1 rs2 rs4 Ec1 Es1 Hy1 Hg1 Hu E2 T E4 T') as (-> & ? & ?). done.
  Qed.
End stack.
(** The answers, as a list *)
Section answers.
  Context (cf : config) (behave : list invocation → hresult) (key : list N → string).
  Fixpoint answers_of (before log : list logged) : list rpc_response :=
    match log with
    | [] => []
    | LProcessed sid id r :: log => answer cf behave key before id r :: answers_of (before ++ [LProcessed sid id r]) log
    | l :: log => answers_of (before ++ [l]) log
    end.
  Lemma answers_of_app b l1 l2 : answers_of b (l1 ++ l2) = answers_of b l1 ++ answers_of (b ++ l1) l2.
  Proof.
    revert b. induction l1 as [|x l1 IH]; intros b; [by rewrite app_nil_r|]. cbn [app]. assert (b ++ x :: l1 = (b ++ [x]) ++ l1) as -> by by rewrite <-app_assoc. destruct x; cbn [answers_of]; by rewrite IH.
  Qed.
  Lemma travel_list y : Forall (λ x, sendable (MsgResponse x)) (answers_of [] (sx_log (g_http y))) → answers_travel cf behave key y.
  Proof. intros H l1 sid id r l2 E. rewrite E, answers_of_app in H. cbn [answers_of app] in H. apply Forall_app in H as [_ H]. by apply Forall_cons in H as [H _]. Qed.
End answers.
