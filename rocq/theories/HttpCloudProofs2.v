(** Proofs about several clients of one HTTP server: what holds of every history. *)
From stdpp Require Import gmap strings list sets.
From Verif Require Import ListLib TextLib JsonLib SerdeLib TypesModel ManagersModel SseModel SseSpec HttpModel HttpSpec HttpProofs HttpClientModel HttpClientSpec HttpClientProofs HttpClientProofs2 HttpClientProofs3 RpcModel RpcSpec RpcProofs ServerModel ServerSpec ClientModel ClientSpec HttpStackModel HttpStackSpec HttpStackProofs HttpStackProofs2 HttpCloudModel HttpCloudSpec HttpCloudProofs.
From Verif Require ServerProofs ClientProofs StackModel StackSpec StackProofs StackProofs2.

(** *** Lists *)
Lemma nodup_delete {A B} (f : A → option B) (l : list A) k x : NoDup (omap f l) → l !! k = Some x →
  NoDup (omap f (delete k l)) ∧ (∀ s, f x = Some s → s ∉ omap f (delete k l)) ∧ ∀ s, s ∈ omap f (delete k l) → s ∈ omap f l.
Proof.
  intros Hn Hk. rewrite <-(take_drop_middle l k x Hk), omap_app in Hn. rewrite delete_take_drop, omap_app.
  change (omap f (x :: drop (S k) l)) with (match f x with Some y => y :: omap f (drop (S k) l) | None => omap f (drop (S k) l) end) in Hn.
  split; [|split].
  - destruct (f x) as [s|]; [|done]. apply NoDup_app in Hn as (H1 & H2 & H3). apply NoDup_cons in H3 as [H3 H4]. apply NoDup_app. split; [done|]. split; [|done]. intros y Hy Hy'. by apply (H2 y Hy), elem_of_list_further.
  - intros s E. rewrite E in Hn. apply NoDup_app in Hn as (H1 & H2 & H3). apply NoDup_cons in H3 as [H3 H4]. intros [Hs|Hs]%elem_of_app; [|done]. apply (H2 s Hs), elem_of_list_here.
  - intros s Hs. rewrite <-(take_drop_middle l k x Hk), omap_app. apply elem_of_app in Hs as [Hs|Hs]; apply elem_of_app; [by left|right].
    change (omap f (x :: drop (S k) l)) with (match f x with Some y => y :: omap f (drop (S k) l) | None => omap f (drop (S k) l) end). destruct (f x); [by apply elem_of_list_further|done].
Qed.
Lemma concat_insert {A B} (f : A → list B) (l : list A) i p p' e : l !! i = Some p → f p' = f p ++ e → concat (f <$> <[i:=p']> l) ≡ₚ concat (f <$> l) ++ e.
Proof.
  intros Hi E. pose proof (lookup_lt_Some _ _ _ Hi) as Hlt. rewrite insert_take_drop by done. rewrite <-(take_drop_middle l i p Hi) at 3.
  rewrite !fmap_app, !fmap_cons, !concat_app. cbn [concat]. rewrite E, <-!app_assoc. f_equiv. f_equiv. apply Permutation_app_comm.
Qed.
Lemma omap_snoc {A B} (f : A → option B) l x : omap f (l ++ [x]) = omap f l ++ option_list (f x).
Proof. rewrite omap_app. cbn. by destruct (f x). Qed.

Lemma concat_seq {B} (f f' : nat → list B) n i e : i < n → (∀ j, j ≠ i → f' j = f j) → f' i = f i ++ e → concat (f' <$> seq 0 n) ≡ₚ concat (f <$> seq 0 n) ++ e.
Proof.
  intros Hi Hj E. assert (n = i + S (n - S i)) as -> by lia. rewrite seq_app. cbn [seq plus]. rewrite !fmap_app, !fmap_cons, !concat_app. cbn [concat]. rewrite E.
  assert (∀ a m, (∀ j, j ∈ seq a m → j ≠ i) → f' <$> seq a m = f <$> seq a m) as Hx. { intros a m H. apply Forall_fmap_ext_1, Forall_forall. intros j Hj'. by apply Hj, H. }
  rewrite (Hx 0 i), (Hx (S i) _) by (intros j Hj'%elem_of_seq; lia). rewrite <-!app_assoc. f_equiv. f_equiv. apply Permutation_app_comm.
Qed.
Definition opens (p : pending) : option text := match p with PPost None (Some s) _ _ => Some s | _ => None end.
Section cloud.
  Context (os : list bop) (cf : config) (behave : list invocation → hresult) (key : list N → string) (tcf : nat → tconfig) (hcf : hconfig).
  Context (Hb : build os = inl cf) (Hclash : ∀ i, no_clash (tcf i)) (Hst : hc_stateful hcf = true) (Hok : scaps_ok (cf_caps cf)).
  Notation answer := (answer cf behave key).
  Notation mcp := (mcp cf behave key).
  Notation core := (core cf behave key).
  Notation ask := (ask cf behave key tcf hcf).
  Notation d_call := (d_call cf behave key tcf hcf).
  Notation d_answer := (d_answer cf behave key tcf hcf).
  Notation d_return := (d_return cf behave key tcf hcf).
  Notation d_step := (d_step cf behave key tcf hcf).
  Notation d_run := (d_run cf behave key tcf hcf).
  Notation all_travel := (all_travel cf behave key).
  Notation caps := (scaps_json (cf_caps cf)).

  (** *** Which requests were answered *)
  Definition back (log : list logged) (id : rid) (r : request) : bool := bool_decide (is_Some (handle_request cf behave key id r (mcp log)).2).
  Fixpoint fates (before log : list logged) : list (bool * option text * (rid * request)) :=
    match log with
    | [] => []
    | l :: log => match l with LProcessed s id r => [(back before id r, s, (id, r))] | _ => [] end ++ fates (before ++ [l]) log
    end.
  Definition part (b : bool) (log : list logged) : list (rid * request) := omap (λ x : bool * option text * (rid * request), if decide (x.1.1 = b) then Some x.2 else None) (fates [] log).
  Definition part_for (b : bool) (sid : text) (log : list logged) : list (rid * request) :=
    omap (λ x : bool * option text * (rid * request), if decide (x.1.1 = b ∧ x.1.2 = Some sid) then Some x.2 else None) (fates [] log).
  Lemma fates_app before l1 l2 : fates before (l1 ++ l2) = fates before l1 ++ fates (before ++ l1) l2.
  Proof. revert before. induction l1 as [|l l1 IH]; intros before; [by rewrite app_nil_r|]. cbn [app fates]. by rewrite IH, <-!app_assoc. Qed.
  Lemma part_snoc b log s id r : part b (log ++ [LProcessed s id r]) = part b log ++ (if decide (back log id r = b) then [(id, r)] else []).
  Proof. unfold part. rewrite fates_app, omap_app. f_equal. cbn. by case_decide. Qed.
  Lemma part_for_snoc b sid log s id r : part_for b sid (log ++ [LProcessed s id r]) = part_for b sid log ++ (if decide (back log id r = b ∧ s = Some sid) then [(id, r)] else []).
  Proof. unfold part_for. rewrite fates_app, omap_app. f_equal. cbn. by case_decide. Qed.
  Lemma part_opened b log s : part b (log ++ [LOpened s]) = part b log.
  Proof. unfold part. rewrite fates_app. cbn. by rewrite app_nil_r. Qed.
  Lemma part_for_opened b sid log s : part_for b sid (log ++ [LOpened s]) = part_for b sid log.
  Proof. unfold part_for. rewrite fates_app. cbn. by rewrite app_nil_r. Qed.
  Lemma fates_for sid before log : handled_for sid log = omap (λ x : bool * option text * (rid * request), if decide (x.1.2 = Some sid) then Some x.2 else None) (fates before log).
  Proof.
    revert before. induction log as [|l log IH]; intros before; [done|]. cbn [fates]. rewrite omap_app, <-IH. unfold handled_for. destruct l as [s|s|[s|] id r]; [done..| |done].
    cbn. destruct (decide (s = sid)) as [->|Hn]; [by rewrite decide_True|]. rewrite decide_False; [done|]. congruence.
  Qed.
  Lemma fates_all before log : handled log = (fates before log).*2.
  Proof. revert before. induction log as [|l log IH]; intros before; [done|]. cbn [fates]. rewrite fmap_app, <-IH. unfold handled. by destruct l. Qed.
  Lemma part_for_handled sid log : part_for true sid log `sublist_of` handled_for sid log ∧ handled_for sid log ≡ₚ part_for true sid log ++ part_for false sid log.
  Proof.
    rewrite (fates_for sid []). unfold part_for. generalize (fates [] log) as l. induction l as [|[[b s] x] l [IH1 IH2]]; [done|].
    change (omap (λ x : bool * option text * (rid * request), if decide (x.1.2 = Some sid) then Some x.2 else None) ((b, s, x) :: l)) with
      (match (if decide (s = Some sid) then Some x else None) with Some y => y :: omap (λ x : bool * option text * (rid * request), if decide (x.1.2 = Some sid) then Some x.2 else None) l | None => omap (λ x : bool * option text * (rid * request), if decide (x.1.2 = Some sid) then Some x.2 else None) l end).
    assert (∀ b', omap (λ x : bool * option text * (rid * request), if decide (x.1.1 = b' ∧ x.1.2 = Some sid) then Some x.2 else None) ((b, s, x) :: l) =
      (if decide (b = b' ∧ s = Some sid) then [x] else []) ++ omap (λ x : bool * option text * (rid * request), if decide (x.1.1 = b' ∧ x.1.2 = Some sid) then Some x.2 else None) l) as Hb'.
    { intros b'. cbn. by case_decide. }
    rewrite !Hb'. destruct (decide (s = Some sid)) as [->|Hn].
    - destruct b.
      + rewrite decide_True, decide_False by (first [done|by intros [? ?]]). cbn [app]. split; [by constructor|]. by constructor.
      + rewrite decide_False, decide_True by (first [done|by intros [? ?]]). cbn [app]. split; [by constructor|]. rewrite IH2. apply Permutation_middle.
    - rewrite !decide_False by (by intros [_ ?]). done.
  Qed.
  Lemma no_part b sid log : handled_for sid log = [] → part_for b sid log = [].
  Proof. intros H. destruct (part_for_handled sid log) as [_ P]. rewrite H in P. symmetry in P. apply Permutation_nil_r in P. apply app_eq_nil in P as [P1 P2]. by destruct b. Qed.
  Lemma back_true log id r : back log id r = true → ∀ sid, handle_request cf behave key id r (mcp log) = (mcp (log ++ [LProcessed sid id r]), Some (answer log id r)).
  Proof.
    intros [x Hx]%bool_decide_eq_true sid. unfold HttpStackModel.answer. rewrite Hx, mcp_snoc. cbn [mcp_step]. rewrite <-Hx. by destruct (handle_request cf behave key id r (mcp log)).
  Qed.
  Lemma back_false log id r : back log id r = false → (handle_request cf behave key id r (mcp log)).2 = None.
  Proof. intros H%bool_decide_eq_false. destruct (handle_request cf behave key id r (mcp log)).2; [|done]. destruct H. by eexists. Qed.
  Lemma back_init log id p : back log id (RClient CInitialize p) = true.
  Proof. done. Qed.

  Definition settled (v : hserver) (c : client) (t : transport) : Prop :=
    (cl_initialized c = false → tp_session t = None) ∧ (cl_initialized c = true → cl_server c = Some caps ∧ ∃ sid, on v t sid).
  Definition no_request (c : client) (o : cop) (id : rid) : Prop :=
    opening c o id = None ∨ (∃ n, opening c o id = Some (MsgNotification n)) ∧ (cl_initialized c = true ∨ signal o).
  Definition peer_ok (v : hserver) (p : peer) : Prop :=
    let c := pe_client p in let t := pe_tp p in cl_in c = [] ∧
    match pe_job p with
    | JIdle => tp_queue t = [] ∧ settled v c t
    | JWaits o id f n => ∃ r t0 q, opening c o id = Some (MsgRequest id r) ∧ sendable (MsgRequest id r) ∧ t = HttpClientModel.request q (XPost (MsgRequest id r)) t0 ∧
        f = length (tp_flight t0) ∧ n = length (tp_streams t0) ∧ tp_queue t0 = [] ∧ settled v c t0
    | JAnswered o id ok got => tp_queue t = [] ∧
        (ok = true ∧
         (no_request c o id ∧ got = [] ∧ settled v c t ∨
          ∃ r l1 s l2, opening c o id = Some (MsgRequest id r) ∧ sx_log v = l1 ++ LProcessed s id r :: l2 ∧ back l1 id r = true ∧ got = [MsgResponse (answer l1 id r)] ∧ good_request r ∧
            (cl_initialized c = true → cl_server c = Some caps) ∧ ∃ sid, on v t sid) ∨
         ok = false ∧ got = [] ∧ settled v c t ∧
          (signal o ∨ ∃ k q l1 s l2, o = OCall k q ∧ opening c o id = Some (MsgRequest id (RClient k q)) ∧ sx_log v = l1 ++ LProcessed s id (RClient k q) :: l2 ∧ back l1 id (RClient k q) = false ∧ good_request (RClient k q)))
    end.
  Definition waits (peers : list peer) (i : nat) (pe : pending) : Prop :=
    ∃ c t o id f n r rsid, peers !! i = Some (MkPeer c t (JWaits o id f n)) ∧ opening c o id = Some (MsgRequest id r) ∧ pe = PPost (tp_session t) rsid id r ∧
      (¬ init_request r ∧ rsid = tp_session t ∧ is_Some (tp_session t) ∨ init_request r ∧ tp_session t = None ∧ is_Some rsid).
  Definition explained (log : list logged) (x : nat * cop * rid * cresult) : Prop :=
    let '(i, o, id, r) := x in
    ∃ c, cl_in c = [] ∧ (cl_initialized c = true → cl_server c = Some caps) ∧
    (no_request c o id ∧ r = (c_step c (MkEvent o id true [] true)).2 ∨
     (∃ rq l1 s l2, opening c o id = Some (MsgRequest id rq) ∧ log = l1 ++ LProcessed s id rq :: l2 ∧ back l1 id rq = true ∧ good_request rq ∧ r = (c_step c (MkEvent o id true [MsgResponse (answer l1 id rq)] true)).2) ∨
     (∃ k q l1 s l2, o = OCall k q ∧ log = l1 ++ LProcessed s id (RClient k q) :: l2 ∧ back l1 id (RClient k q) = false ∧ good_request (RClient k q) ∧ r = CErr send_failed) ∨
     signal o ∧ r = CErr send_failed).
  Record cloud_ok (D : list text) (y : cloud) : Prop := {
    ck_streams : sx_streams (cd_http y) = ∅;
    ck_known : ∀ s, is_Some (sx_sessions (cd_http y) !! s) → s ∈ D;
    ck_log : ∀ s, s ∉ D → handled_for s (sx_log (cd_http y)) = [];
    ck_nodup : NoDup (cd_waiting y);
    ck_wait : Forall2 (waits (cd_peers y)) (cd_waiting y) (sx_pending (cd_http y));
    ck_opens : NoDup (omap opens (sx_pending (cd_http y)));
    ck_new : ∀ s, s ∈ omap opens (sx_pending (cd_http y)) → is_Some (sx_sessions (cd_http y) !! s) ∧ handled_for s (sx_log (cd_http y)) = [] ∧ ∀ i p, cd_peers y !! i = Some p → tp_session (pe_tp p) ≠ Some s;
    ck_peers : ∀ i p, cd_peers y !! i = Some p → peer_ok (cd_http y) p;
    ck_busy : ∀ i c t o id f n, cd_peers y !! i = Some (MkPeer c t (JWaits o id f n)) → i ∈ cd_waiting y;
    ck_apart : ∀ i j p q s, cd_peers y !! i = Some p → cd_peers y !! j = Some q → tp_session (pe_tp p) = Some s → tp_session (pe_tp q) = Some s → i = j;
    ck_own : ∀ i p, cd_peers y !! i = Some p → settled_asks p = match tp_session (pe_tp p) with Some s => part_for true s (sx_log (cd_http y)) | None => [] end;
    ck_once : part true (sx_log (cd_http y)) ≡ₚ concat (settled_asks <$> cd_peers y);
    ck_lost_own : ∀ i p, cd_peers y !! i = Some p → lost_asks y i = match tp_session (pe_tp p) with Some s => part_for false s (sx_log (cd_http y)) | None => [] end;
    ck_lost : part false (sx_log (cd_http y)) ≡ₚ concat (lost_asks y <$> seq 0 (length (cd_peers y)));
    ck_good : Forall (λ x, good_request x.2) (handled (sx_log (cd_http y)));
    ck_returned : Forall (explained (sx_log (cd_http y))) (cd_returned y) }.

  Lemma cloud_ok_new n : cloud_ok [] (cloud_new n).
  Proof.
    assert (∀ i p, replicate n (MkPeer client_new (transport_new None) JIdle) !! i = Some p → p = MkPeer client_new (transport_new None) JIdle) as H by (by intros i p [-> _]%lookup_replicate).
    split; cbn [cloud_new cd_http cd_waiting cd_peers cd_returned]; try done.
    - intros s. cbn. rewrite lookup_empty. by intros [? ?].
    - constructor.
    - constructor.
    - constructor.
    - intros s ?%elem_of_nil. done.
    - intros i p ->%H. split; [done|]. split; [done|]. split; [done|]. done.
    - intros i c t o id f m E%H. discriminate E.
    - intros i j p q s ->%H _ E. discriminate E.
    - by intros i p ->%H.
    - cbn. clear. induction n as [|n IH]; [done|]. cbn. done.
    - intros i p Hi. unfold lost_asks, cloud_new. cbn [cd_returned cd_peers]. rewrite Hi. by apply H in Hi as ->.
    - assert (∀ l : list nat, concat (lost_asks (cloud_new n) <$> l) = []) as E; [|by rewrite E].
      intros l. induction l as [|a l IH]; [done|]. rewrite fmap_cons. cbn [concat]. rewrite IH, app_nil_r. unfold lost_asks, cloud_new. cbn [cd_returned cd_peers omap list_omap app].
      destruct (replicate n (MkPeer client_new (transport_new None) JIdle) !! a) as [p|] eqn:E; [|done]. by apply H in E as ->.
    - constructor.
  Qed.

  (** *** Only what concerns a client changes for it *)
  Lemma settled_mono v v' c t : (∀ s, sx_sessions v !! s = Some (MkSession true (Some V)) → sx_sessions v' !! s = Some (MkSession true (Some V))) → settled v c t → settled v' c t.
  Proof. intros Hs [H1 H2]. split; [done|]. intros Hi. destruct (H2 Hi) as [H3 (sid & [A B C])]. split; [done|]. exists sid. by split; [..|apply Hs]. Qed.
  Lemma peer_mono v v' p : sx_log v `prefix_of` sx_log v' → (∀ s, sx_sessions v !! s = Some (MkSession true (Some V)) → sx_sessions v' !! s = Some (MkSession true (Some V))) → peer_ok v p → peer_ok v' p.
  Proof.
    intros [l Hl] Hs [Hin H]. split; [done|]. destruct (pe_job p) as [|o id f n|o id ok got].
    - destruct H as [H1 H2]. split; [done|]. by eapply settled_mono.
    - destruct H as (r & t0 & q & H1 & H2 & H3 & H4 & H5 & H6 & H7). exists r, t0, q. do 6 (split; [done|]). by eapply settled_mono.
    - destruct H as (H1 & H2). split; [done|]. destruct H2 as [[H2 [(A & B & C)|(r & l1 & s & l2 & A & B & B' & C & D & E & sid & [F G I])]]|(H2 & H3 & H4 & [A|(k & q & l1 & s & l2 & A & B & C & D)])].
      + left. split; [done|]. left. split; [done|]. split; [done|]. by eapply settled_mono.
      + left. split; [done|]. right. exists r, l1, s, (l2 ++ l). split; [done|]. split; [by rewrite Hl, B, <-app_assoc|]. split; [done|]. split; [done|]. split; [done|]. split; [done|]. exists sid. by split; [..|apply Hs].
      + right. split; [done|]. split; [done|]. split; [by eapply settled_mono|by left].
      + right. split; [done|]. split; [done|]. split; [by eapply settled_mono|]. right. exists k, q, l1, s, (l2 ++ l). split; [done|]. split; [done|]. split; [by rewrite Hl, C, <-app_assoc|done].
  Qed.
  Lemma explained_mono log log' x : log `prefix_of` log' → explained log x → explained log' x.
  Proof.
    intros [l ->]. destruct x as [[[i o] id] r]. intros (c & H1 & H2 & H3). exists c. split; [done|]. split; [done|]. destruct H3 as [H3|[(rq & l1 & s & l2 & A & -> & B)|[(k & q & l1 & s & l2 & A & -> & B)|H3]]]; [by left|right; left|right; right; left|by do 3 right].
    - exists rq, l1, s, (l2 ++ l). by rewrite <-app_assoc.
    - exists k, q, l1, s, (l2 ++ l). by rewrite <-app_assoc.
  Qed.
  Lemma waits_insert peers i p j pe : waits peers j pe → j ≠ i → waits (<[i:=p]> peers) j pe.
  Proof. intros (c & t & o & id & f & n & r & rsid & H1 & H) Hj. exists c, t, o, id, f, n, r, rsid. by rewrite list_lookup_insert_ne. Qed.
  Lemma waits_others peers i p w pend : Forall2 (waits peers) w pend → i ∉ w → Forall2 (waits (<[i:=p]> peers)) w pend.
  Proof.
    induction 1 as [|j pe w pend H1 H2 IH]; intros Hi; [constructor|]. apply not_elem_of_cons in Hi as [Hj Hi]. constructor; [|by apply IH]. by apply waits_insert.
  Qed.
  Lemma not_waiting peers i p w pend : Forall2 (waits peers) w pend → peers !! i = Some p → (∀ o id f n, pe_job p ≠ JWaits o id f n) → i ∉ w.
  Proof.
    induction 1 as [|j pe w pend H1 H2 IH]; intros Hi Hj; [apply not_elem_of_nil|]. apply not_elem_of_cons. split; [|by apply IH]. intros ->.
    destruct H1 as (c & t & o & id & f & n & r & rsid & H1 & _). rewrite Hi in H1. injection H1 as ->. by eapply Hj.
  Qed.
  Lemma handled_for_snoc sid log s id r : handled_for sid (log ++ [LProcessed s id r]) = handled_for sid log ++ (if decide (s = Some sid) then [(id, r)] else []).
  Proof.
    unfold handled_for. rewrite omap_snoc. f_equal. destruct s as [s|]; [|done]. destruct (decide (s = sid)) as [->|Hn]; [by rewrite decide_True|]. rewrite decide_False; [done|]. congruence.
  Qed.
  Lemma handled_snoc log s id r : handled (log ++ [LProcessed s id r]) = handled log ++ [(id, r)].
  Proof. unfold handled. by rewrite omap_snoc. Qed.
  Lemma asks_app a b : asks (a ++ b) = asks a ++ asks b. Proof. apply omap_app. Qed.
  Lemma first_is c o id : first_of c o id = opening c o id.
  Proof. apply first_opening. Qed.
  Lemma second_is c o id got : ∃ l, second_of c o id true got = head l ∧ (l = [] ∨ l = [MsgNotification (NClient CInitialized JNull)]) ∧ (opening c o id = None → l = []).
  Proof. destruct (second_opening c o id got) as (l & E & H). exists l. split; [|done]. unfold second_of. by rewrite first_is, E. Qed.
  Lemma asks_step c o id got c' r : c_step c (MkEvent o id true got true) = (c', r) → asks (cl_sent c') = asks (cl_sent c) ++ asks (option_list (opening c o id)).
  Proof.
    intros H. destruct (StackProofs.opened c o id got) as (l & E & L & _). rewrite H in E. cbn [fst] in E. rewrite E, !asks_app. f_equal. assert (asks l = []) as -> by (by destruct L as [->| ->]). by rewrite app_nil_r.
  Qed.
  Lemma quiet_step c o id c' r : no_request c o id → c_step c (MkEvent o id true [] true) = (c', r) → cl_in c' = cl_in c ∧ cl_initialized c' = cl_initialized c ∧ cl_server c' = cl_server c.
  Proof.
    intros Hn Hc. assert (opening c o id = None ∨ ∃ n, opening c o id = Some (MsgNotification n)) as Ho by (destruct Hn as [?|[? _]]; [by left|by right]).
    destruct (StackProofs2.untouched _ _ _ Ho _ _ Hc) as [U _]. split; [done|]. destruct (cl_initialized c) eqn:Ei.
    - destruct (ClientProofs.step_grows _ _ _ _ Hc) as (_ & _ & Hg). by apply Hg.
    - destruct Hn as [Eo|[_ [?|Hsg]]]; [|congruence|destruct o; try done; cbn in Hc; by simplify_eq]. assert (c' = c) as ->; [|done].
      unfold StackProofs.opening, c_step in Eo, Hc. cbn [e_op e_id e_ok e_arrived e_nok] in Hc. destruct o as [cps info|k p| |j|p]; [by rewrite Ei in Eo| | |done..].
      + destruct (is_method k); [|by injection Hc]. destruct (refused k c); [by injection Hc|done].
      + rewrite Ei in Hc. by injection Hc.
  Qed.
  Lemma answered_step c o id rq log c' r : cl_in c = [] → opening c o id = Some (MsgRequest id rq) → (cl_initialized c = true → cl_server c = Some caps) → c_step c (MkEvent o id true [MsgResponse (answer log id rq)] true) = (c', r) →
    cl_in c' = [] ∧ cl_initialized c' = true ∧ cl_server c' = Some caps.
  Proof.
    intros Hin Eo Hs Hc. destruct (StackProofs2.opening_cases _ _ _ _ Eo) as [(n & E & _)|[(cps & info & -> & Hi & E)|(k & p & -> & Hm & Hk & E)]]; [discriminate E|injection E as ->..].
    - destruct (StackProofs2.request_step _ _ _ _ _ _ _ _ Eo Hin Hc) as [U _]. split; [done|]. pose proof (back_true log id (RClient CInitialize (initialize_params cps info)) (back_init _ _ _) None) as Hh.
      destruct (ClientProofs.handshake_works cf behave key (mcp log) c (MkEvent (OInitialize cps info) id true [MsgResponse (answer log id (RClient CInitialize (initialize_params cps info)))] true) cps info) as (c2 & Hs' & Hi' & Hsv);
        [done..|cbn [e_id e_arrived]; by rewrite Hh|]. rewrite Hc in Hs'. apply pair_equal_spec in Hs' as [-> _]. done.
    - destruct (StackProofs2.request_step _ _ _ _ _ _ _ _ Eo Hin Hc) as [U _]. split; [done|].
      assert (cl_initialized c = true) as Hi. { destruct (cl_initialized c) eqn:E; [done|]. by rewrite ClientProofs.not_initialized_refused in Hk. }
      destruct (ClientProofs.step_grows _ _ _ _ Hc) as (_ & _ & Hg). destruct (Hg Hi) as [-> ->]. split; [done|]. by apply Hs.
  Qed.

  Lemma session_known D y i p s : cloud_ok D y → cd_peers y !! i = Some p → tp_session (pe_tp p) = Some s → is_Some (sx_sessions (cd_http y) !! s).
  Proof.
    intros K Hj E. pose proof (ck_peers _ _ K i _ Hj) as [_ Hpj]. assert (∃ c' t', settled (cd_http y) c' t' ∧ tp_session t' = Some s ∨ on (cd_http y) t' s) as (c' & t' & W).
    { destruct (pe_job p) as [|? ? ? ?|? ? ? ?].
      - exists (pe_client p), (pe_tp p). left. split; [by apply Hpj|done].
      - destruct Hpj as (r & t0 & q0 & _ & _ & Et & _ & _ & _ & Hset'). rewrite Et in E. exists (pe_client p), t0. by left.
      - destruct Hpj as (_ & [[_ [(_ & _ & ?)|(r & l1 & s0 & l2 & _ & _ & _ & _ & _ & _ & sid & Hon)]]|(_ & _ & ? & _)]); [exists (pe_client p), (pe_tp p); by left| |exists (pe_client p), (pe_tp p); by left]. exists (pe_client p), (pe_tp p). right. pose proof Hon as [Hs _ _]. rewrite E in Hs. by injection Hs as ->. }
    destruct W as [[[W1 W2] W3]|[_ _ W]]; [|by rewrite W]. destruct (cl_initialized c'); [|by rewrite W1 in W3]. destruct (W2 eq_refl) as [_ (sid & [W4 _ W5])]. rewrite W3 in W4. injection W4 as ->. by rewrite W5.
  Qed.

  Lemma put_lookup (i : nat) (p : peer) (l : list peer) (j : nat) (p' : peer) : <[i:=p]> l !! j = Some p' → j = i ∧ p' = p ∨ j ≠ i ∧ l !! j = Some p'.
  Proof. intros H%list_lookup_insert_Some. naive_solver. Qed.
  (** what a step of one client leaves of the lost requests *)
  Lemma lost_put y i p p' v w j : cd_peers y !! i = Some p → lost_asks (put i p' v w y) j =
    if decide (j = i) then omap (λ '(j, o, id, r), if decide (j = i) then lost_call o id r else None) (cd_returned y) ++ lost_job p' else lost_asks y j.
  Proof.
    intros Hi. unfold lost_asks. cbn [put cd_returned cd_peers]. destruct (decide (j = i)) as [->|Hj]; [|by rewrite list_lookup_insert_ne]. by rewrite list_lookup_insert by (by eapply lookup_lt_Some).
  Qed.
  Lemma lost_same y i p p' v w j : cd_peers y !! i = Some p → lost_job p' = lost_job p → lost_asks (put i p' v w y) j = lost_asks y j.
  Proof.
    intros Hi E. rewrite (lost_put y i p) by done. destruct (decide (j = i)) as [->|Hj]; [|done]. unfold lost_asks. by rewrite Hi, E.
  Qed.
  Lemma lost_all_same y i p p' v w : cd_peers y !! i = Some p → lost_job p' = lost_job p → concat (lost_asks (put i p' v w y) <$> seq 0 (length (<[i:=p']> (cd_peers y)))) = concat (lost_asks y <$> seq 0 (length (cd_peers y))).
  Proof. intros Hi E. rewrite insert_length. f_equal. apply Forall_fmap_ext_1, Forall_forall. intros j _. by apply (lost_same _ _ p). Qed.

  Lemma signal_dec o : signal o ∨ ¬ signal o.
  Proof. destruct o; first [by left|by right; intros []]. Qed.
  (** *** Calling *)
  Lemma call_cases i o id tok fresh y c t : cd_peers y !! i = Some (MkPeer c t JIdle) → peer_ok (cd_http y) (MkPeer c t JIdle) → callable o id → authorized (tcf i) tok →
    let v := cd_http y in
    (no_request c o id ∧ ∃ b t', d_call i o id tok fresh y = put i (MkPeer c t' (JAnswered o id b [])) v (cd_waiting y) y ∧ tp_queue t' = [] ∧ tp_session t' = tp_session t ∧ tp_version t' = tp_version t ∧ (signal o → b = cl_initialized c) ∧ (¬ signal o → b = true)) ∨
    (∃ r q sid, opening c o id = Some (MsgRequest id r) ∧ ¬ init_request r ∧ on v t sid ∧ sendable (MsgRequest id r) ∧
      d_call i o id tok fresh y = put i (MkPeer c (HttpClientModel.request q (XPost (MsgRequest id r)) t) (JWaits o id (length (tp_flight t)) (length (tp_streams t)))) (wait (PPost (Some sid) (Some sid) id r) v) (cd_waiting y ++ [i]) y) ∨
    (∃ p q x, opening c o id = Some (MsgRequest id (RClient CInitialize p)) ∧ cl_initialized c = false ∧ tp_session t = None ∧ sendable (MsgRequest id (RClient CInitialize p)) ∧
      d_call i o id tok fresh y = put i (MkPeer c (HttpClientModel.request q (XPost (MsgRequest id (RClient CInitialize p))) t) (JWaits o id (length (tp_flight t)) (length (tp_streams t))))
        (wait (PPost None (Some fresh) id (RClient CInitialize p)) (note (LOpened fresh) (HttpModel.set_session fresh x v))) (cd_waiting y ++ [i]) y).
  Proof.
    intros Hi (Hin & Hq & Hset) Hpo Ha. cbn zeta. cbn [pe_client pe_tp] in *. unfold HttpCloudModel.d_call. rewrite Hi, first_is.
    destruct (opening c o id) as [m|] eqn:Eo; [|left; split; [by left|]; exists true, t; destruct o; try discriminate Eo; (do 4 (split; [done|]); by split; [intros []|])].
    destruct (StackProofs2.opening_cases _ _ _ _ Eo) as [(n & -> & Hn)|[(cps & info & -> & Hi0 & ->)|(k & p & -> & Hm & Hk & ->)]].
    - destruct (signal_dec o) as [Hsg|Hsg].
      { left. split; [right; split; [by eexists|by right]|]. assert (sendable (MsgNotification n)) as Hse by (by destruct o; try done; injection Eo as <-).
        destruct (cl_initialized c) eqn:Ei.
        - destruct (proj2 Hset Ei) as [_ [sid Hon]]. destruct (ask_note cf behave key tcf hcf Hclash Hst i t (cd_http y) sid _ tok fresh Hon Ha Hse) as [q ->].
          destruct (reply_note tcf i q n t Hq) as (t' & -> & H1 & H2 & H3). exists true, t'. do 4 (split; [done|]). by split.
        - destruct (ask_outside cf behave key tcf hcf Hclash Hst i t (cd_http y) n tok fresh (proj1 Hset Ei) Ha Hse) as [q ->].
          destruct (reply_refused tcf i q n t Hq) as (t' & -> & H1 & H2 & H3). exists false, t'. do 4 (split; [done|]). by split. }
      assert (o = ORootsChanged) as -> by (destruct o; [unfold StackProofs.opening in Eo; by destruct (cl_initialized c)|by destruct (Hn k p)|done|by destruct Hsg..]).
      assert (cl_initialized c = true ∧ n = NClient CRootsListChanged JNull) as [Hi0 ->].
      { unfold StackProofs.opening, c_step, send_notification in Eo. cbn [e_op e_nok] in Eo. repeat (case_match; cbn [fst cl_sent ClientModel.send] in Eo; rewrite ?drop_all, ?drop_app in Eo; try discriminate Eo); cbn in Eo; by simplify_eq. }
      left. split; [right; split; [by eexists|by left]|]. destruct (proj2 Hset Hi0) as [_ [sid Hon]].
      destruct (ask_note cf behave key tcf hcf Hclash Hst i t (cd_http y) sid _ tok fresh Hon Ha sendable_roots) as [q ->].
      destruct (reply_note tcf i q (NClient CRootsListChanged JNull) t Hq) as (t' & -> & H1 & H2 & H3). exists true, t'. do 4 (split; [done|]). by split.
    - right. right. set (q0 := initialize_params cps info) in *. pose proof (proj1 Hset Hi0) as Hs. cbn [callable postable] in Hpo. fold q0 in Hpo.
      destruct (ask_init cf behave key tcf hcf Hclash Hst i t (cd_http y) id q0 tok fresh Hs Ha Hpo) as (q & x & ->). by exists q0, q, x.
    - right. left. assert (cl_initialized c = true) as Hi0. { destruct (cl_initialized c) eqn:E; [done|]. by rewrite ClientProofs.not_initialized_refused in Hk. }
      destruct (proj2 Hset Hi0) as [_ [sid Hon]]. assert (¬ init_request (RClient k p)) as Hni by (intros (? & [= -> _]); discriminate Hm).
      destruct (ask_request cf behave key tcf hcf Hclash Hst i t (cd_http y) sid id (RClient k p) tok fresh Hon Ha Hni Hpo) as [q ->]. by exists (RClient k p), q, sid.
  Qed.
  Lemma call_ok D y i o id tok fresh : cloud_ok D y → fresh ∉ D → callable o id → authorized (tcf i) tok → cloud_ok (D ++ [fresh]) (d_call i o id tok fresh y).
  Proof.
    intros K Hf Hpo Ha.
    assert (cloud_ok (D ++ [fresh]) y) as K0. { destruct K. split; try done; [intros s Hs; apply elem_of_app; left; auto|]. intros s [Hs _]%not_elem_of_app. auto. }
    destruct (cd_peers y !! i) as [[c t j]|] eqn:Hi; [|unfold HttpCloudModel.d_call; by rewrite Hi].
    destruct j as [|o1 id1 f n|o1 id1 ok got]; [|unfold HttpCloudModel.d_call; by rewrite Hi..].
    pose proof (ck_peers _ _ K i _ Hi) as Hpe. pose proof (not_waiting _ _ _ _ _ (ck_wait _ _ K) Hi ltac:(by intros)) as Hnw. destruct Hpe as (Hin & Hq & Hset) eqn:EE. clear EE. cbn [pe_client pe_tp pe_job] in *.
    destruct (call_cases i o id tok fresh y c t Hi (ck_peers _ _ K i _ Hi) Hpo Ha) as [(Hno & b & t' & -> & Hq' & Hs' & Hv' & Hsy & Hsn')|[(r & q & sid & Eo & Hr & Hon & Hse & ->)|(p & q & x & Eo & Hi0 & Hsn & Hse & ->)]].
    - (* nothing waits *)
      assert (lost_job (MkPeer c t' (JAnswered o id b [])) = []) as Hlj by (destruct o; try done; by rewrite Hsn' by (by intros [])).
      destruct K0 as [A1 A2 A3 A4 A5 A6 A7 A8 A9 A10 A11 A12 B11 B12 A13 A14]. split; cbn [put cd_http cd_waiting cd_peers cd_returned]; try done.
      + by apply waits_others.
      + intros s Hs. destruct (A7 s Hs) as (B1 & B2 & B3). split; [done|]. split; [done|]. intros j p' [[-> ->]|[_ Hj]]%put_lookup; [cbn [pe_tp]; rewrite Hs'; exact (B3 i _ Hi)|by eapply B3].
      + intros j p' [[-> ->]|[_ Hj]]%put_lookup; [|by eapply A8]. split; [done|]. cbn [pe_job pe_tp pe_client]. split; [done|]. assert (settled (cd_http y) c t') as Hset'; [split; [rewrite Hs'; by apply Hset|]|].
        2: { destruct b; [by left; split; [|left]|]. right. do 3 (split; [done|]). left. destruct (signal_dec o) as [|Hs]; [done|discriminate (Hsn' Hs)]. }
        intros Hi0. destruct (proj2 Hset Hi0) as [E (sid & [F G I])]. split; [done|]. exists sid. split; [by rewrite Hs'|by rewrite Hv'|done].
      + intros j c1 t1 o1 id1 f n [[_ E]|[_ Hj]]%put_lookup; [discriminate E|]. by eapply A9.
      + intros j j' p1 p2 s [[-> ->]|[Hj Hp1]]%put_lookup [[-> ->]|[Hj' Hp2]]%put_lookup; [done| | |by eapply A10]; cbn [pe_tp]; rewrite ?Hs'; [exact (A10 i j' _ _ s Hi Hp2)|exact (A10 j i _ _ s Hp1 Hi)].
      + intros j p' [[-> ->]|[_ Hj]]%put_lookup; [|by eapply A11]. cbn [pe_tp]. rewrite Hs'. pose proof (A11 i _ Hi) as E. cbn [pe_tp] in E. rewrite <-E. unfold settled_asks. cbn [pe_client pe_job]. rewrite first_is.
        f_equal. destruct b; [|done]. destruct Hno as [->|[[n ->] _]]; done.
      + rewrite A12. symmetry. erewrite concat_insert with (e := []); [by rewrite app_nil_r|exact Hi|]. unfold settled_asks. cbn [pe_client pe_job]. rewrite first_is, app_nil_r. f_equal. destruct b; [|done]. destruct Hno as [->|[[n ->] _]]; done.
      + intros j p' Hj. rewrite (lost_same y i (MkPeer c t JIdle)) by done. destruct (put_lookup _ _ _ _ _ Hj) as [[-> ->]|[_ Hj']]; [cbn [pe_tp]; rewrite Hs'; exact (B11 i _ Hi)|by apply B11].
      + rewrite (lost_all_same y i (MkPeer c t JIdle)) by (first [done|by destruct o]). done.
    - (* a request *)
      assert (sid ∈ D) as HsD. { apply (ck_known _ _ K). destruct Hon as [_ _ ->]. by eexists. }
      destruct K0 as [A1 A2 A3 A4 A5 A6 A7 A8 A9 A10 A11 A12 B11 B12 A13 A14]. destruct Hon as [F G I] eqn:EE. clear EE. split; cbn [put cd_http cd_waiting cd_peers cd_returned wait sx_streams sx_sessions sx_log sx_pending]; try done.
      + apply NoDup_app. split; [done|]. split; [|apply NoDup_singleton]. intros z Hz ->%elem_of_list_singleton. done.
      + apply Forall2_app; [by apply waits_others|]. constructor; [|constructor]. eexists c, _, o, id, _, _, r, _. rewrite list_lookup_insert by (by eapply lookup_lt_Some). split; [done|]. split; [done|]. cbn [tp_session HttpClientModel.request]. rewrite F. split; [done|]. left. done.
      + rewrite omap_snoc. cbn. by rewrite app_nil_r.
      + intros s. rewrite omap_snoc. cbn. rewrite app_nil_r. intros Hs. destruct (A7 s Hs) as (B1 & B2 & B3). split; [done|]. split; [done|]. intros j p' [[-> ->]|[_ Hj]]%put_lookup; [exact (B3 i _ Hi)|by eapply B3].
      + intros j p' [[-> ->]|[_ Hj]]%put_lookup; [|apply (peer_mono (cd_http y)); [exists []; by rewrite app_nil_r|done|by eapply A8]]. split; [done|]. cbn [pe_job pe_tp pe_client]. exists r, t, q. do 6 (split; [done|]). by apply (settled_mono (cd_http y)).
      + intros j c1 t1 o1 id1 f n [[-> E]|[_ Hj]]%put_lookup; [apply elem_of_app; right; by apply elem_of_list_singleton|]. apply elem_of_app. left. by eapply A9.
      + intros j j' p1 p2 s [[-> ->]|[Hj Hp1]]%put_lookup [[-> ->]|[Hj' Hp2]]%put_lookup; [done| | |by eapply A10]; cbn [pe_tp tp_session HttpClientModel.request]; [exact (A10 i j' _ _ s Hi Hp2)|exact (A10 j i _ _ s Hp1 Hi)].
      + intros j p' [[-> ->]|[_ Hj]]%put_lookup; [|by eapply A11]. exact (A11 i _ Hi).
      + rewrite A12. symmetry. erewrite concat_insert with (e := []); [by rewrite app_nil_r|exact Hi|]. by rewrite app_nil_r.
      + intros j p' Hj. rewrite (lost_same y i (MkPeer c t JIdle)) by done. destruct (put_lookup _ _ _ _ _ Hj) as [[-> ->]|[_ Hj']]; [exact (B11 i _ Hi)|by apply B11].
      + rewrite (lost_all_same y i (MkPeer c t JIdle)) by done. done.
    - (* initialize *)
      assert (sx_sessions (cd_http y) !! fresh = None) as Hnk. { destruct (sx_sessions (cd_http y) !! fresh) eqn:E; [|done]. destruct Hf. apply (ck_known _ _ K). by rewrite E. }
      assert (∀ s, sx_sessions (cd_http y) !! s = Some (MkSession true (Some V)) → <[fresh:=x]> (sx_sessions (cd_http y)) !! s = Some (MkSession true (Some V))) as Hkeep. { intros s Hs. rewrite lookup_insert_ne; [done|]. intros ->. congruence. }
      assert (∀ j p', cd_peers y !! j = Some p' → tp_session (pe_tp p') ≠ Some fresh) as Hnt.
      { intros j p' Hj E. destruct (session_known _ _ _ _ _ K Hj E) as [? E']. congruence. }
      assert (∀ s, sx_log (note (LOpened fresh) (HttpModel.set_session fresh x (cd_http y))) = sx_log (cd_http y) ++ [LOpened fresh] ∧ handled_for s (sx_log (cd_http y) ++ [LOpened fresh]) = handled_for s (sx_log (cd_http y))) as Hlog.
      { intros s. split; [done|]. unfold handled_for. rewrite omap_snoc. cbn. by rewrite app_nil_r. }
      assert (handled (sx_log (cd_http y) ++ [LOpened fresh]) = handled (sx_log (cd_http y))) as Hlog2 by (unfold handled; rewrite omap_snoc; cbn; by rewrite app_nil_r).
      destruct K0 as [A1 A2 A3 A4 A5 A6 A7 A8 A9 A10 A11 A12 B11 B12 A13 A14]. split; cbn [put cd_http cd_waiting cd_peers cd_returned wait note HttpModel.set_session sx_streams sx_sessions sx_log sx_pending]; try done.
      + intros s. destruct (decide (s = fresh)) as [->|Hne]; [intros _; apply elem_of_app; right; by apply elem_of_list_singleton|]. rewrite lookup_insert_ne by done. apply A2.
      + intros s Hs. rewrite (proj2 (Hlog s)). by apply A3.
      + apply NoDup_app. split; [done|]. split; [|apply NoDup_singleton]. intros z Hz ->%elem_of_list_singleton. done.
      + apply Forall2_app; [by apply waits_others|]. constructor; [|constructor]. eexists c, _, o, id, _, _, _, _. rewrite list_lookup_insert by (by eapply lookup_lt_Some). split; [done|]. split; [done|]. cbn [tp_session HttpClientModel.request]. rewrite Hsn. split; [done|]. right. split; [by exists p|]. split; [done|]. by eexists.
      + rewrite omap_snoc. cbn [opens option_list]. apply NoDup_app. split; [done|]. split; [|apply NoDup_singleton]. intros z Hz ->%elem_of_list_singleton. destruct (A7 _ Hz) as ([? ?] & _). congruence.
      + intros s. rewrite omap_snoc. cbn [opens option_list]. rewrite (proj2 (Hlog s)). intros [Hs| ->%elem_of_list_singleton]%elem_of_app.
        * destruct (A7 s Hs) as (B1 & B2 & B3). split; [destruct (decide (s = fresh)) as [->|Hne]; [by rewrite lookup_insert|by rewrite lookup_insert_ne]|]. split; [done|]. intros j p' [[-> ->]|[_ Hj]]%put_lookup; [exact (B3 i _ Hi)|by eapply B3].
        * split; [by rewrite lookup_insert|]. split; [by apply (ck_log _ _ K)|]. intros j p' [[-> ->]|[_ Hj]]%put_lookup; [exact (Hnt i _ Hi)|by eapply Hnt].
      + assert (∀ p', peer_ok (cd_http y) p' → peer_ok (wait (PPost None (Some fresh) id (RClient CInitialize p)) (note (LOpened fresh) (HttpModel.set_session fresh x (cd_http y)))) p') as Hmono by (intros p'; apply peer_mono; [by eexists|exact Hkeep]).
        intros j p' [[-> ->]|[_ Hj]]%put_lookup; [|eapply Hmono, A8, Hj]. split; [done|]. cbn [pe_job pe_tp pe_client]. exists (RClient CInitialize p), t, q. do 6 (split; [done|]). by eapply settled_mono.
      + intros j c1 t1 o1 id1 f n [[-> E]|[_ Hj]]%put_lookup; [apply elem_of_app; right; by apply elem_of_list_singleton|]. apply elem_of_app. left. by eapply A9.
      + intros j j' p1 p2 s [[-> ->]|[Hj Hp1]]%put_lookup [[-> ->]|[Hj' Hp2]]%put_lookup; [done| | |by eapply A10]; cbn [pe_tp tp_session HttpClientModel.request]; [exact (A10 i j' _ _ s Hi Hp2)|exact (A10 j i _ _ s Hp1 Hi)].
      + intros j p' [[-> ->]|[_ Hj]]%put_lookup.
        * cbn [pe_tp tp_session HttpClientModel.request]. rewrite Hsn. pose proof (A11 i _ Hi) as E. cbn [pe_tp] in E. rewrite Hsn in E. exact E.
        * rewrite (A11 j _ Hj). destruct (tp_session (pe_tp p')) as [s|]; [|done]. by rewrite part_for_opened.
      + rewrite part_opened, A12. symmetry. erewrite concat_insert with (e := []); [by rewrite app_nil_r|exact Hi|]. by rewrite app_nil_r.
      + intros j p' Hj. rewrite (lost_same y i (MkPeer c t JIdle)) by done. destruct (put_lookup _ _ _ _ _ Hj) as [[-> ->]|[_ Hj']].
        * cbn [pe_tp tp_session HttpClientModel.request]. rewrite Hsn. pose proof (B11 i _ Hi) as E. cbn [pe_tp] in E. rewrite Hsn in E. exact E.
        * rewrite (B11 j _ Hj'). destruct (tp_session (pe_tp p')) as [s|]; [|done]. by rewrite part_for_opened.
      + rewrite part_opened, (lost_all_same y i (MkPeer c t JIdle)) by done. done.
      + by rewrite Hlog2.
      + eapply Forall_impl; [exact A14|]. intros z. apply explained_mono. by eexists.
  Qed.
  (** *** Answering *)
  Lemma travel_now y log sid id r : all_travel y → sx_log (cd_http y) = log ++ [LProcessed sid id r] → back log id r = true → sendable (MsgResponse (answer log id r)).
  Proof. intros Ht E Hbk. apply (Ht log sid id r [] _ E). by rewrite (back_true _ _ _ Hbk None). Qed.
  (** what the k-th waiting request leaves *)
  Lemma answer_cases D y k e1 e2 i c t o id f n r : cloud_ok D y → cd_waiting y !! k = Some i → cd_peers y !! i = Some (MkPeer c t (JWaits o id f n)) → opening c o id = Some (MsgRequest id r) →
    back (sx_log (cd_http y)) id r = true → no_break e2 → 0%N ∉ e2 → all_travel (d_answer k e1 e2 y) →
    ∃ s v' t', good_request r ∧ (cl_initialized c = true → cl_server c = Some caps) ∧ cl_in c = [] ∧
      d_answer k e1 e2 y = put i (MkPeer c t' (JAnswered o id true [MsgResponse (answer (sx_log (cd_http y)) id r)])) v' (delete k (cd_waiting y)) y ∧
      sx_log v' = sx_log (cd_http y) ++ [LProcessed (Some s) id r] ∧ sx_streams v' = ∅ ∧ sx_pending v' = delete k (sx_pending (cd_http y)) ∧ tp_queue t' = [] ∧ on v' t' s ∧ s ∈ D ∧
      (∀ z, sx_sessions (cd_http y) !! z = Some (MkSession true (Some V)) → sx_sessions v' !! z = Some (MkSession true (Some V))) ∧
      (∀ z, is_Some (sx_sessions v' !! z) ↔ is_Some (sx_sessions (cd_http y) !! z)) ∧
      (∀ j p, j ≠ i → cd_peers y !! j = Some p → tp_session (pe_tp p) ≠ Some s) ∧ (part_for true s (sx_log (cd_http y)) = settled_asks (MkPeer c t (JWaits o id f n)) ∧ part_for false s (sx_log (cd_http y)) = lost_asks y i) ∧ s ∉ omap opens (delete k (sx_pending (cd_http y))).
  Proof.
    intros K Hk Hi Eo Hbk Hb2 Hz Ht. destruct (Forall2_lookup_l _ _ _ _ _ (ck_wait _ _ K) Hk) as (pe & Hpe & (c1 & t1 & o1 & id1 & f1 & n1 & r1 & rsid & Hi1 & Eo1 & -> & Hr)).
    rewrite Hi in Hi1. injection Hi1 as <- <- <- <- <- <-. rewrite Eo in Eo1. injection Eo1 as <-.
    destruct (ck_peers _ _ K i _ Hi) as [Hin Hpk]. cbn [pe_client pe_tp pe_job] in *. destruct Hpk as (r' & t0 & q & Eo' & Hse & -> & -> & -> & Hq & Hset).
    rewrite Eo in Eo'. injection Eo' as <-. cbn [tp_session HttpClientModel.request] in *. assert (good_request r) as Hg.
    { destruct (StackProofs2.opening_cases _ _ _ _ Eo) as [(? & E & _)|[(cps & info & _ & _ & E)|(kk & p & _ & _ & _ & E)]]; [discriminate E|injection E as ->; apply Hse..]. }
    destruct (continue_request cf behave key hcf Hok (cd_http y) k (tp_session t0) rsid id r e1 e2 Hpe (ck_streams _ _ K)) as (v' & x & Ec & L1 & L2 & L3 & X1 & X2 & X3 & X4 & X5).
    assert (∀ ok got t1, take_reply tcf i (length (tp_flight t0)) (length (tp_streams t0)) x (HttpClientModel.request q (XPost (MsgRequest id r)) t0) = (ok, got, t1) →
      d_answer k e1 e2 y = put i (MkPeer c t1 (JAnswered o id ok got)) v' (delete k (cd_waiting y)) y) as Ed.
    { intros ok got t1 E. unfold HttpCloudModel.d_answer. rewrite Hk, Hpe, Hi, (back_true _ _ _ Hbk None). cbn [snd]. by rewrite Ec, E. }
    assert (sendable (MsgResponse (answer (sx_log (cd_http y)) id r))) as Hsa.
    { destruct (take_reply tcf i (length (tp_flight t0)) (length (tp_streams t0)) x (HttpClientModel.request q (XPost (MsgRequest id r)) t0)) as [[ok got] t1] eqn:E. rewrite (Ed _ _ _ eq_refl) in Ht. by apply (travel_now _ _ rsid _ _ Ht). }
    destruct (reply_request tcf i q (MsgRequest id r) t0 x _ Hsa) as (t' & Er & R1 & R2 & R3); [|done..|].
    { destruct X3 as [X3|X3]; [by left|right]. by exists e2. }
    rewrite X2 in R2.
    assert (cl_initialized c = true → cl_server c = Some caps) as Hcs by (intros E; by apply Hset).
    destruct Hr as [(Hr & -> & [s Hs])|(Hr & Hs & [s ->])].
    - assert (on (cd_http y) t0 s) as Hon. { destruct (cl_initialized c) eqn:E; [|rewrite (proj1 Hset E) in Hs; discriminate Hs]. destruct (proj2 Hset E) as [_ (s' & Hon)]. pose proof Hon as [Hs' _ _]. rewrite Hs in Hs'. by injection Hs' as <-. }
      destruct Hon as [_ Hv Hkn]. destruct (X4 Hr) as [X6 X7]. rewrite (X7 s Hs Hkn) in R3. rewrite Hs in R2, L1.
      exists s, v', t'. split; [done|]. split; [done|]. split; [done|]. split; [by apply Ed|]. split; [done|]. split; [done|]. split; [done|]. split; [done|].
      split; [split; [done|done|by rewrite X6]|]. split; [apply (ck_known _ _ K); by rewrite Hkn|]. split; [by rewrite X6|]. split; [by rewrite X6|].
      split; [|split].
      + intros j p Hj Hp' E. apply Hj. by apply (ck_apart _ _ K j i p _ s Hp' Hi E).
      + rewrite (ck_own _ _ K i _ Hi), (ck_lost_own _ _ K i _ Hi). cbn [pe_tp tp_session HttpClientModel.request]. by rewrite Hs.
      + intros Hin'. apply (nodup_delete opens _ _ _ (ck_opens _ _ K) Hpe) in Hin'. destruct (ck_new _ _ K s Hin') as (_ & _ & H). by apply (H i _ Hi).
    - pose proof Hpe as Hpe'. rewrite Hs in Hpe'. assert (s ∈ omap opens (sx_pending (cd_http y))) as Hse2. { apply elem_of_list_omap. exists (PPost None (Some s) id r). split; [|done]. by eapply elem_of_list_lookup_2. }
      destruct (ck_new _ _ K s Hse2) as (N1 & N2 & N3). destruct (X5 Hr Hs s eq_refl N1) as [X6 X7]. rewrite X7 in R3.
      exists s, v', t'. split; [done|]. split; [done|]. split; [done|]. split; [by apply Ed|]. split; [done|]. split; [done|]. split; [done|]. split; [done|].
      split; [split; [done|done|rewrite X6; by rewrite lookup_insert]|]. split; [by apply (ck_known _ _ K)|].
      split; [intros z Hz'; rewrite X6; destruct (decide (z = s)) as [->|Hne]; [by rewrite lookup_insert|by rewrite lookup_insert_ne]|].
      split; [intros z; rewrite X6; destruct (decide (z = s)) as [->|Hne]; [rewrite lookup_insert; split; [done|by eexists]|by rewrite lookup_insert_ne]|].
      split; [|split].
      + intros j p _ Hp'. by eapply N3.
      + rewrite (ck_own _ _ K i _ Hi), (ck_lost_own _ _ K i _ Hi). cbn [pe_tp tp_session HttpClientModel.request]. rewrite Hs. by rewrite !no_part.
      + by apply (nodup_delete opens _ _ _ (ck_opens _ _ K) Hpe').
  Qed.
  (** the request is off the queue and in the log, and the client's method goes on *)
  Lemma gone_ok D y k i c t o id f n r s v' t' ok got b : cloud_ok D y → cd_waiting y !! k = Some i → cd_peers y !! i = Some (MkPeer c t (JWaits o id f n)) → good_request r → back (sx_log (cd_http y)) id r = b →
    sx_log v' = sx_log (cd_http y) ++ [LProcessed (Some s) id r] → sx_streams v' = ∅ → sx_pending v' = delete k (sx_pending (cd_http y)) → tp_session t' = Some s → s ∈ D →
    (∀ z, sx_sessions (cd_http y) !! z = Some (MkSession true (Some V)) → sx_sessions v' !! z = Some (MkSession true (Some V))) →
    (∀ z, is_Some (sx_sessions v' !! z) ↔ is_Some (sx_sessions (cd_http y) !! z)) →
    (∀ j p, j ≠ i → cd_peers y !! j = Some p → tp_session (pe_tp p) ≠ Some s) → part_for true s (sx_log (cd_http y)) = settled_asks (MkPeer c t (JWaits o id f n)) → part_for false s (sx_log (cd_http y)) = lost_asks y i →
    s ∉ omap opens (delete k (sx_pending (cd_http y))) →
    peer_ok v' (MkPeer c t' (JAnswered o id ok got)) →
    settled_asks (MkPeer c t' (JAnswered o id ok got)) = settled_asks (MkPeer c t (JWaits o id f n)) ++ (if decide (b = true) then [(id, r)] else []) →
    lost_job (MkPeer c t' (JAnswered o id ok got)) = (if decide (b = false) then [(id, r)] else []) →
    cloud_ok D (put i (MkPeer c t' (JAnswered o id ok got)) v' (delete k (cd_waiting y)) y).
  Proof.
    intros K Hk Hi Hg Hbk L1 L2 L3 Hs' HsD M1 M2 M3 M4 M4' M5 Hnew Hsa Hlj.
    destruct (Forall2_lookup_l _ _ _ _ _ (ck_wait _ _ K) Hk) as (pe & Hpe & _).
    destruct (nodup_delete opens _ _ _ (ck_opens _ _ K) Hpe) as (O1 & _ & O3).
    assert (lost_asks y i = omap (λ '(j, o, id, r), if decide (j = i) then lost_call o id r else None) (cd_returned y)) as Hli. { unfold lost_asks. rewrite Hi. by rewrite app_nil_r. }
    assert (∀ j, lost_asks (put i (MkPeer c t' (JAnswered o id ok got)) v' (delete k (cd_waiting y)) y) j = if decide (j = i) then lost_asks y i ++ (if decide (b = false) then [(id, r)] else []) else lost_asks y j) as Hlo.
    { intros j. rewrite (lost_put y i _ _ _ _ j Hi). destruct (decide (j = i)) as [->|]; [|done]. by rewrite Hli, Hlj. }
    assert (sx_log (cd_http y) `prefix_of` sx_log v') as Hpre by (rewrite L1; by eexists).
    assert (i ∉ delete k (cd_waiting y)) as Hid.
    { pose proof (ck_nodup _ _ K) as Hn. rewrite <-(take_drop_middle _ _ _ Hk) in Hn. rewrite delete_take_drop. apply NoDup_app in Hn as (_ & H2 & H3). apply NoDup_cons in H3 as [H3 _]. intros [H|H]%elem_of_app; [|done]. apply (H2 i H), elem_of_list_here. }
    destruct K as [A1 A2 A3 A4 A5 A6 A7 A8 A9 A10 A11 A12 B11 B12 A13 A14]. split; cbn [put cd_http cd_waiting cd_peers cd_returned]; try done.
    - intros z Hz'%M2. by apply A2.
    - intros z Hz'. rewrite L1, handled_for_snoc, decide_False by (intros [= ->]; done). rewrite app_nil_r. by apply A3.
    - rewrite <-(take_drop_middle _ _ _ Hk) in A4. rewrite delete_take_drop. apply NoDup_app in A4 as (H1 & H2 & H3). apply NoDup_cons in H3 as [H3 H4]. apply NoDup_app. split; [done|]. split; [|done]. intros z Hz1 Hz2. by apply (H2 z Hz1), elem_of_list_further.
    - rewrite L3. apply waits_others; [|done]. by apply Forall2_delete.
    - by rewrite L3.
    - rewrite L3. intros z Hz'. assert (z ≠ s) as Hzs by (intros ->; done). destruct (A7 z (O3 z Hz')) as (B1 & B2 & B3). split; [by apply M2|]. split; [rewrite L1, handled_for_snoc, decide_False by congruence; by rewrite app_nil_r|].
      intros j p' [[-> ->]|[_ Hj]]%put_lookup; [|by eapply B3]. cbn [pe_tp]. rewrite Hs'. congruence.
    - intros j p' [[-> ->]|[_ Hj]]%put_lookup; [|by apply (peer_mono (cd_http y)); [done..|eapply A8]]. exact Hnew.
    - intros j c1 t1 o1 id1 f1 n1 [[-> E]|[Hj Hj']]%put_lookup; [discriminate E|]. pose proof (A9 _ _ _ _ _ _ _ Hj') as H. rewrite <-(take_drop_middle _ _ _ Hk) in H. rewrite delete_take_drop.
      apply elem_of_app in H as [H|H]; apply elem_of_app; [by left|right]. apply elem_of_cons in H as [->|H]; done.
    - intros j j' p1 p2 z [[-> ->]|[Hj Hp1]]%put_lookup [[-> ->]|[Hj' Hp2]]%put_lookup E1 E2; cbn [pe_tp] in *; [done| | |by eapply A10]; exfalso.
      + rewrite Hs' in E1. injection E1 as <-. by apply (M3 j' p2).
      + rewrite Hs' in E2. injection E2 as <-. by apply (M3 j p1).
    - intros j p' [[-> ->]|[Hj Hj']]%put_lookup.
      + cbn [pe_tp]. rewrite Hs', Hsa, L1, part_for_snoc, M4, Hbk. f_equal. destruct (decide (b = true)); [by rewrite decide_True|by rewrite decide_False by (by intros [? _])].
      + rewrite (A11 j _ Hj'). destruct (tp_session (pe_tp p')) as [z|] eqn:E; [|done]. rewrite L1, part_for_snoc, decide_False; [by rewrite app_nil_r|]. intros [_ [= <-]]. by apply (M3 j p').
    - rewrite L1, part_snoc, A12, Hbk. symmetry. by apply (concat_insert settled_asks _ _ (MkPeer c t (JWaits o id f n))).
    - intros j p' Hj'. rewrite Hlo. destruct (put_lookup _ _ _ _ _ Hj') as [[-> ->]|[Hj Hj2]].
      + rewrite decide_True by done. cbn [pe_tp]. rewrite Hs', L1, part_for_snoc, M4', Hbk. f_equal. destruct (decide (b = false)); [by rewrite decide_True|by rewrite decide_False by (by intros [? _])].
      + rewrite decide_False by done. rewrite (B11 j _ Hj2). destruct (tp_session (pe_tp p')) as [z|] eqn:E; [|done]. rewrite L1, part_for_snoc, decide_False; [by rewrite app_nil_r|]. intros [_ [= <-]]. by apply (M3 j p').
    - rewrite L1, part_snoc, B12, Hbk, insert_length. symmetry. apply (concat_seq _ _ _ i); [by eapply lookup_lt_Some| |].
      + intros j Hj. by rewrite Hlo, decide_False.
      + by rewrite Hlo, decide_True.
    - rewrite L1, handled_snoc. apply Forall_app. split; [done|]. by apply Forall_singleton.
    - eapply Forall_impl; [exact A14|]. intros z. by apply explained_mono.
  Qed.

  (** who waits in the k-th place *)
  Lemma waiting_is D y k i : cloud_ok D y → cd_waiting y !! k = Some i → ∃ c t o id f n r, cd_peers y !! i = Some (MkPeer c t (JWaits o id f n)) ∧ opening c o id = Some (MsgRequest id r).
  Proof.
    intros K Hk. destruct (Forall2_lookup_l _ _ _ _ _ (ck_wait _ _ K) Hk) as (pe & Hpe & (c & t & o & id & f & n & r & rsid & Hi & Eo & _)). by exists c, t, o, id, f, n, r.
  Qed.
  (** what a handler's panic leaves *)
  Lemma crash_cases D y k e1 e2 i c t o id f n r : cloud_ok D y → cd_waiting y !! k = Some i → cd_peers y !! i = Some (MkPeer c t (JWaits o id f n)) → opening c o id = Some (MsgRequest id r) →
    back (sx_log (cd_http y)) id r = false →
    ∃ s v' t' kd q, o = OCall kd q ∧ r = RClient kd q ∧ good_request r ∧ cl_initialized c = true ∧ cl_in c = [] ∧
      d_answer k e1 e2 y = put i (MkPeer c t' (JAnswered o id false [])) v' (delete k (cd_waiting y)) y ∧
      sx_log v' = sx_log (cd_http y) ++ [LProcessed (Some s) id r] ∧ sx_streams v' = ∅ ∧ sx_pending v' = delete k (sx_pending (cd_http y)) ∧ tp_queue t' = [] ∧ (tp_session t' = Some s ∧ tp_session t = Some s) ∧ settled v' c t' ∧ s ∈ D ∧
      sx_sessions v' = sx_sessions (cd_http y) ∧
      (∀ j p, j ≠ i → cd_peers y !! j = Some p → tp_session (pe_tp p) ≠ Some s) ∧ (part_for true s (sx_log (cd_http y)) = settled_asks (MkPeer c t (JWaits o id f n)) ∧ part_for false s (sx_log (cd_http y)) = lost_asks y i) ∧ s ∉ omap opens (delete k (sx_pending (cd_http y))).
  Proof.
    intros K Hk Hi Eo Hbk. destruct (Forall2_lookup_l _ _ _ _ _ (ck_wait _ _ K) Hk) as (pe & Hpe & (c1 & t1 & o1 & id1 & f1 & n1 & r1 & rsid & Hi1 & Eo1 & -> & Hr)).
    rewrite Hi in Hi1. injection Hi1 as <- <- <- <- <- <-. rewrite Eo in Eo1. injection Eo1 as <-.
    destruct (ck_peers _ _ K i _ Hi) as [Hin Hpk]. cbn [pe_client pe_tp pe_job] in *. destruct Hpk as (r' & t0 & q0 & Eo' & Hse & -> & -> & -> & Hq & Hset).
    rewrite Eo in Eo'. injection Eo' as <-. cbn [tp_session HttpClientModel.request] in *.
    destruct (StackProofs2.opening_cases _ _ _ _ Eo) as [(? & E & _)|[(cps & info & _ & _ & E)|(kd & q & -> & Hm & Hnr & E)]]; [discriminate E|injection E as ->; discriminate Hbk|injection E as ->].
    assert (cl_initialized c = true) as Hini. { destruct (cl_initialized c) eqn:E; [done|]. by rewrite ClientProofs.not_initialized_refused in Hnr. }
    destruct Hr as [(Hr & -> & [s Hs])|([? [= -> _]] & _)]; [|discriminate Hm].
    assert (on (cd_http y) t0 s) as Hon. { destruct (proj2 Hset Hini) as [_ (s' & Hon)]. pose proof Hon as [Hs' _ _]. rewrite Hs in Hs'. by injection Hs' as <-. }
    eexists s, _, _, kd, q. split; [done|]. split; [done|]. split; [apply Hse|]. split; [done|]. split; [done|]. split.
    { unfold HttpCloudModel.d_answer. rewrite Hk, Hpe, Hi, (back_false _ _ _ Hbk). reflexivity. }
    cbn [note drop_pending sx_log sx_streams sx_pending sx_sessions]. rewrite Hs. split; [done|]. split; [apply (ck_streams _ _ K)|]. split; [done|].
    cbn [tp_step]. rewrite flight_new. cbn [end_send fst answered HttpClientModel.request tp_queue tp_session]. split; [done|]. split; [done|].
    destruct Hon as [F G I]. split. { split; [congruence|]. intros _. split; [by apply Hset|]. exists s. by split. }
    split; [apply (ck_known _ _ K); by rewrite I|]. split; [done|]. split; [|split].
    - intros j p Hj Hp' E. apply Hj. by apply (ck_apart _ _ K j i p _ s Hp' Hi E).
    - rewrite (ck_own _ _ K i _ Hi), (ck_lost_own _ _ K i _ Hi). cbn [pe_tp tp_session HttpClientModel.request]. by rewrite Hs.
    - intros Hin'. apply (nodup_delete opens _ _ _ (ck_opens _ _ K) Hpe) in Hin'. destruct (ck_new _ _ K s Hin') as (_ & _ & H). by apply (H i _ Hi).
  Qed.
  Lemma answer_ok D y k e1 e2 : cloud_ok D y → no_break e2 → 0%N ∉ e2 → all_travel (d_answer k e1 e2 y) → cloud_ok D (d_answer k e1 e2 y).
  Proof.
    intros K Hb2 Hz Ht. destruct (cd_waiting y !! k) as [i|] eqn:Hk; [|unfold HttpCloudModel.d_answer; by rewrite Hk].
    destruct (waiting_is _ _ _ _ K Hk) as (c & t & o & id & f & n & r & Hi & Eo). destruct (back (sx_log (cd_http y)) id r) eqn:Hbk.
    - destruct (answer_cases D y k e1 e2 i c t o id f n r K Hk Hi Eo Hbk Hb2 Hz Ht) as (s & v' & t' & Hg & Hcs & Hin & -> & L1 & L2 & L3 & Q & Hon & HsD & M1 & M2 & M3 & [M4 M4'] & M5). clear Ht. pose proof Hon as [Hs _ _].
      apply (gone_ok D y k i c t o id f n r s v' t' _ _ true); try done.
      + split; [done|]. cbn [pe_job pe_tp pe_client]. split; [done|]. left. split; [done|]. right. exists r, (sx_log (cd_http y)), (Some s), []. do 6 (split; [done|]). by exists s.
      + unfold settled_asks. cbn [pe_client pe_job]. rewrite first_is, Eo, app_nil_r. done.
      + by destruct o.
    - destruct (crash_cases D y k e1 e2 i c t o id f n r K Hk Hi Eo Hbk) as (s & v' & t' & kd & q & -> & -> & Hg & Hini & Hin & -> & L1 & L2 & L3 & Q & [Hs _] & Hset & HsD & M1 & M3 & [M4 M4'] & M5). clear Ht.
      apply (gone_ok D y k i c t (OCall kd q) id f n (RClient kd q) s v' t' _ _ false); try done.
      + by rewrite M1.
      + by rewrite M1.
      + split; [done|]. cbn [pe_job pe_tp pe_client]. split; [done|]. right. split; [done|]. split; [done|]. split; [done|]. right. exists kd, q, (sx_log (cd_http y)), (Some s), []. done.
      + unfold settled_asks. cbn [pe_client pe_job]. by rewrite !app_nil_r.
  Qed.

  (** *** Returning *)
  Lemma not_lost c o id rq log c' r : cl_in c = [] → opening c o id = Some (MsgRequest id rq) → c_step c (MkEvent o id true [MsgResponse (answer log id rq)] true) = (c', r) → lost_call o id r = None.
  Proof.
    intros Hin Eo Hc. destruct o as [cps info|k p| | |]; [done| |done..]. destruct (StackProofs2.opening_cases _ _ _ _ Eo) as [(? & E & Hn)|[(? & ? & E & _)|(k' & p' & E & Hm & Hk & E')]]; [discriminate E|discriminate E|]. injection E as <- <-.
    destruct (ClientProofs.call_exact c (MkEvent (OCall k p) id true [MsgResponse (answer log id rq)] true) k p (MsgResponse (answer log id rq)) []) as (c2 & Hs2 & _); [done..|cbn; by rewrite Hin|].
    rewrite Hc in Hs2. apply pair_equal_spec in Hs2 as [_ ->]. unfold lost_call, finish. destruct (rs_payload (answer log id rq)) as [v|e]; [|done]. destruct (result_ty k) as [ty|]; [|done]. by destruct (decode ty v).
  Qed.
  Lemma quiet_not_lost c o id c' r : no_request c o id → c_step c (MkEvent o id true [] true) = (c', r) → lost_call o id r = None.
  Proof.
    intros Hn Hc. destruct o as [cps info|k p| | |]; [done| |done..]. unfold c_step in Hc. cbn [e_op e_id e_ok e_arrived] in Hc. unfold no_request, StackProofs.opening in Hn.
    destruct (is_method k) eqn:Hm; [|apply pair_equal_spec in Hc as [_ <-]; done]. destruct (refused k c) as [e|] eqn:He; [|destruct Hn as [Hn|[[? Hn] _]]; discriminate Hn].
    apply pair_equal_spec in Hc as [_ <-]. unfold refused in He. repeat case_match; simplify_eq; done.
  Qed.
  Lemma lost_step c k q id : opening c (OCall k q) id = Some (MsgRequest id (RClient k q)) → ∀ nok, c_step c (MkEvent (OCall k q) id false [] nok) = (track id c, CErr send_failed).
  Proof.
    intros Eo nok. unfold StackProofs.opening in Eo. unfold c_step. cbn [e_op e_id e_ok e_arrived]. destruct (is_method k); [|discriminate Eo]. destruct (refused k c); [discriminate Eo|]. done.
  Qed.
  Lemma signal_failed c o id got : signal o → ∀ ok, c_step c (MkEvent o id ok got false) = (c, CErr send_failed).
  Proof. by destruct o; intros []. Qed.
  Lemma signal_once c o id ok got : signal o → second_of c o id ok got = None.
  Proof.
    intros Hs. unfold second_of, first_of, sends. destruct o as [| | |j|p]; try done; cbn [c_step e_op e_nok send_notification fst untrack cl_sent ClientModel.send];
      rewrite drop_app; cbn [head option_list length drop]; done.
  Qed.
  Lemma return_cases D y i tok fresh c t o id ok got : cloud_ok D y → cd_peers y !! i = Some (MkPeer c t (JAnswered o id ok got)) → authorized (tcf i) tok →
    ∃ c' r t', d_return i tok fresh y = give i o id r (put i (MkPeer c' t' JIdle) (cd_http y) (cd_waiting y) y) ∧
      tp_queue t' = [] ∧ tp_session t' = tp_session t ∧ tp_version t' = tp_version t ∧ cl_in c' = [] ∧ settled (cd_http y) c' t' ∧
      settled_asks (MkPeer c' t' JIdle) = settled_asks (MkPeer c t (JAnswered o id ok got)) ∧ explained (sx_log (cd_http y)) (i, o, id, r) ∧
      option_list (lost_call o id r) = lost_job (MkPeer c t (JAnswered o id ok got)) ∧ ((∃ rq, opening c o id = Some (MsgRequest id rq)) → cl_initialized c' = true).
  Proof.
    intros K Hi Ha. destruct (ck_peers _ _ K i _ Hi) as [Hin Hpk]. cbn [pe_client pe_tp pe_job] in *. destruct Hpk as (Hq & [[-> Hpk]|(-> & -> & Hset & [Hsg|(k & q & l1 & s & l2 & -> & Eo & El & Hbk & Hg)])]).
    2: { exists c, (CErr send_failed), t. split. { unfold HttpCloudModel.d_return. by rewrite Hi, signal_once, signal_failed. }
      do 4 (split; [done|]). split; [exact Hset|]. split; [done|]. split; [|split; [by destruct o|]].
      - exists c. split; [done|]. split; [intros ?; by apply Hset|]. by do 3 right.
      - intros [rq E]. destruct o; try done; discriminate E. }
    2: { exists (track id c), (CErr send_failed), t. pose proof (lost_step _ _ _ _ Eo) as Hls.
      assert (cl_initialized c = true) as Hini.
      { unfold StackProofs.opening in Eo. destruct (is_method k); [|discriminate Eo]. destruct (refused k c) eqn:Hk; [discriminate Eo|]. destruct (cl_initialized c) eqn:E; [done|]. by rewrite ClientProofs.not_initialized_refused in Hk. }
      split. { unfold HttpCloudModel.d_return. rewrite Hi. unfold second_of. rewrite (Hls true). cbn [fst]. unfold sends. cbn [track cl_sent]. rewrite drop_all, drop_nil. cbn [head]. by rewrite (Hls false). }
      do 4 (split; [done|]). split; [exact Hset|]. split; [|split; [|split; [done|done]]].
      - unfold settled_asks. cbn [pe_client pe_job track cl_sent]. by rewrite !app_nil_r.
      - exists c. split; [done|]. split; [intros _; by apply Hset|]. right. right. left. by exists k, q, l1, s, l2. }
    destruct (c_step c (MkEvent o id true got true)) as [c' r] eqn:Hc. exists c', r.
    destruct (second_is c o id got) as (l & El & Hl & Hl0).
    assert (∃ t', d_return i tok fresh y = give i o id r (put i (MkPeer c' t' JIdle) (cd_http y) (cd_waiting y) y) ∧ tp_queue t' = [] ∧ tp_session t' = tp_session t ∧ tp_version t' = tp_version t) as (t' & Er & Q & S & W).
    { unfold HttpCloudModel.d_return. rewrite Hi, El. destruct Hl as [->| ->]; cbn [head].
      - rewrite Hc. by exists t.
      - assert (∃ sid, on (cd_http y) t sid) as [sid Hon].
        { destruct Hpk as [([E|[_ [Hini|Hsg]]] & _ & Hset)|(? & ? & ? & ? & _ & _ & _ & _ & _ & _ & ?)]; [discriminate (Hl0 E)|by apply Hset|by rewrite (signal_once _ _ _ _ _ Hsg) in El|done]. }
        destruct (ask_note cf behave key tcf hcf Hclash Hst i t (cd_http y) sid _ tok fresh Hon Ha sendable_initialized) as [q ->].
        destruct (reply_note tcf i q (NClient CInitialized JNull) t Hq) as (t' & -> & H). rewrite Hc, StackProofs.deliver_nil. by exists t'. }
    exists t'. split; [done|]. split; [done|]. split; [done|]. split; [done|].
    assert (settled_asks (MkPeer c' t' JIdle) = settled_asks (MkPeer c t (JAnswered o id true got))) as Hsa.
    { unfold settled_asks. cbn [pe_client pe_job]. by rewrite (asks_step _ _ _ _ _ _ Hc), first_is, app_nil_r. }
    assert (lost_job (MkPeer c t (JAnswered o id true got)) = []) as Hlj by (by destruct o).
    destruct Hpk as [(Hno & -> & Hset)|(rq & l1 & s & l2 & Eo & El1 & Hbk & -> & Hg & Hcs & sid & Hon)].
    - destruct (quiet_step _ _ _ _ _ Hno Hc) as (U1 & U2 & U3). split; [congruence|]. split; [|split; [done|split; [|split]]].
      + split; rewrite U2, ?U3; [rewrite S; by apply Hset|]. intros Hini. destruct (proj2 Hset Hini) as [E (sid & [F G I])]. split; [done|]. exists sid. split; [by rewrite S|by rewrite W|done].
      + exists c. split; [done|]. split; [intros Hini; by apply Hset|]. left. by rewrite Hc.
      + by rewrite (quiet_not_lost _ _ _ _ _ Hno Hc), Hlj.
      + intros [rq Eo]. destruct Hno as [Hno|[[? Hno] _]]; rewrite Eo in Hno; discriminate Hno.
    - destruct (answered_step _ _ _ _ _ _ _ Hin Eo Hcs Hc) as (U1 & U2 & U3). split; [done|]. split; [|split; [done|split; [|split]]].
      + split; [by rewrite U2|]. intros _. split; [done|]. exists sid. destruct Hon as [F G I]. split; [by rewrite S|by rewrite W|done].
      + exists c. split; [done|]. split; [done|]. right. left. exists rq, l1, s, l2. by rewrite Hc.
      + by rewrite (not_lost _ _ _ _ _ _ _ Hin Eo Hc), Hlj.
      + done.
  Qed.
  Lemma return_ok D y i tok fresh : cloud_ok D y → authorized (tcf i) tok → cloud_ok D (d_return i tok fresh y).
  Proof.
    intros K Ha. destruct (cd_peers y !! i) as [[c t j]|] eqn:Hi; [|unfold HttpCloudModel.d_return; by rewrite Hi].
    destruct j as [|o id f n|o id ok got]; [unfold HttpCloudModel.d_return; by rewrite Hi..|].
    destruct (return_cases D y i tok fresh c t o id ok got K Hi Ha) as (c' & r & t' & -> & Q & S & W & Hin & Hset & Hsa & Hx & Hlc & _).
    pose proof (not_waiting _ _ _ _ _ (ck_wait _ _ K) Hi ltac:(by intros)) as Hnw.
    assert (∀ j, lost_asks (give i o id r (put i (MkPeer c' t' JIdle) (cd_http y) (cd_waiting y) y)) j = lost_asks y j) as Hlo.
    { intros j. unfold lost_asks. cbn [give put cd_returned cd_peers]. rewrite omap_snoc. destruct (decide (i = j)) as [<-|Hj]; cbn [option_list].
      - rewrite list_lookup_insert by (by eapply lookup_lt_Some). rewrite Hi, Hlc, app_nil_r. done.
      - by rewrite list_lookup_insert_ne, app_nil_r. }
    destruct K as [A1 A2 A3 A4 A5 A6 A7 A8 A9 A10 A11 A12 B11 B12 A13 A14]. split; cbn [give put cd_http cd_waiting cd_peers cd_returned]; try done.
    - by apply waits_others.
    - intros z Hz. destruct (A7 z Hz) as (B1 & B2 & B3). split; [done|]. split; [done|]. intros j p' [[-> ->]|[_ Hj]]%put_lookup; [cbn [pe_tp]; rewrite S; exact (B3 i _ Hi)|by eapply B3].
    - intros j p' [[-> ->]|[_ Hj]]%put_lookup; [|by eapply A8]. split; [done|]. done.
    - intros j c1 t1 o1 id1 f1 n1 [[-> E]|[Hj Hj']]%put_lookup; [discriminate E|]. by eapply A9.
    - intros j j' p1 p2 z [[-> ->]|[Hj Hp1]]%put_lookup [[-> ->]|[Hj' Hp2]]%put_lookup; [done| | |by eapply A10]; cbn [pe_tp]; rewrite ?S; [exact (A10 i j' _ _ z Hi Hp2)|exact (A10 j i _ _ z Hp1 Hi)].
    - intros j p' [[-> ->]|[_ Hj]]%put_lookup; [|by eapply A11]. cbn [pe_tp]. rewrite S, Hsa. exact (A11 i _ Hi).
    - rewrite A12. symmetry. erewrite (concat_insert settled_asks) with (e := []); [by rewrite app_nil_r|exact Hi|]. by rewrite app_nil_r.
    - intros j p' Hj'. rewrite Hlo. destruct (put_lookup _ _ _ _ _ Hj') as [[-> ->]|[_ Hj]]; [cbn [pe_tp]; rewrite S; exact (B11 i _ Hi)|by apply B11].
    - rewrite insert_length, B12. erewrite Forall_fmap_ext_1; [reflexivity|]. apply Forall_forall. intros j _. by rewrite Hlo.
    - apply Forall_app. split; [done|]. by apply Forall_singleton.
  Qed.

  (** *** Every history *)
  Lemma step_log y d : sx_log (cd_http y) `prefix_of` sx_log (cd_http (d_step y d)).
  Proof.
    assert (∀ i m tok fresh t v, sx_log v `prefix_of` sx_log ((ask i m tok fresh t v).1.2)) as Hask.
    { intros i m tok fresh t v. unfold HttpCloudModel.ask. destruct (tp_step (tcf i) t (TSend m None tok)) as [t1 [r|]]; [done|]. destruct (last (tp_sent t1)) as [q|]; [|done].
      pose proof (HttpStackProofs2.step_log cf behave key hcf Hst v (HPost (seen_headers (cr_headers q)) (parsed (cr_body q)) fresh)) as H. by destruct (h_step hcf answer v _) as [v1 [x|]]. }
    destruct d as [i o id tok fresh|k e1 e2|i tok fresh]; cbn [HttpCloudModel.d_step].
    - unfold HttpCloudModel.d_call. destruct (cd_peers y !! i) as [[c t [|? ? ? ?|? ? ? ?]]|]; try done. destruct (first_of c o id) as [m|]; [|done]. specialize (Hask i m tok fresh t (cd_http y)).
      destruct (ask i m tok fresh t (cd_http y)) as [[t1 v] [|x|]]; cbn [fst snd] in Hask; [done| |done]. by destruct (take_reply tcf i _ _ x t1) as [[ok got] t2].
    - unfold HttpCloudModel.d_answer. destruct (cd_waiting y !! k) as [i|]; [|done]. destruct (sx_pending (cd_http y) !! k) as [[hdr rsid qid r|? ?]|]; [|done..]. destruct (cd_peers y !! i) as [[c t [|? ? ? ?|? ? ? ?]]|]; try done.
      destruct (handle_request cf behave key qid r (mcp (sx_log (cd_http y)))).2 as [x0|]; [|cbn; by eexists].
      pose proof (HttpStackProofs2.step_log cf behave key hcf Hst (cd_http y) (HContinue k e1 e2)) as H. destruct (h_step hcf answer (cd_http y) _) as [v1 [x|]]; [|done]. by destruct (take_reply tcf i _ _ x t) as [[ok got] t2].
    - unfold HttpCloudModel.d_return. destruct (cd_peers y !! i) as [[c t [|? ? ? ?|o id ok got]]|]; try done. destruct (second_of c o id ok got) as [m|]; [|by destruct (c_step c _)]. specialize (Hask i m tok fresh t (cd_http y)).
      destruct (ask i m tok fresh t (cd_http y)) as [[t1 v] a]; cbn [fst snd] in Hask.
      by destruct (match a with AReplied x => _ | _ => _ end) as [[ok2 got2] t2], (c_step c _).
  Qed.
  Lemma travel_before y d : all_travel (d_step y d) → all_travel y.
  Proof. intros H l1 sid id r l2 x E. destruct (step_log y d) as [l El]. apply (H l1 sid id r (l2 ++ l) x). by rewrite El, E, <-app_assoc. Qed.
  Lemma drawn_snoc ds d : drawn (ds ++ [d]) = drawn ds ++ drawn [d].
  Proof. unfold drawn. by rewrite fmap_app, concat_app. Qed.
  Lemma cloud_weaken D D' y : cloud_ok D y → cloud_ok (D ++ D') y.
  Proof. intros K. destruct K. split; try done; [intros s Hs; apply elem_of_app; left; auto|]. intros s [Hs _]%not_elem_of_app. auto. Qed.
  Lemma run_snoc n ds d : d_run n (ds ++ [d]) = d_step (d_run n ds) d.
  Proof. unfold HttpCloudModel.d_run. by rewrite fold_left_app. Qed.
  Lemma run_ok n ds : Forall (usable_op tcf) ds → NoDup (drawn ds) → all_travel (d_run n ds) → cloud_ok (drawn ds) (d_run n ds).
  Proof.
    induction ds as [|d ds IH] using rev_ind; intros Hu Hd Ht; [apply cloud_ok_new|]. rewrite run_snoc in *. rewrite drawn_snoc in *. apply Forall_app in Hu as [Hu Hu1]. rewrite Forall_singleton in Hu1. apply NoDup_app in Hd as (Hd1 & Hd2 & _).
    specialize (IH Hu Hd1 (travel_before _ _ Ht)). destruct d as [i o id tok fresh|k e1 e2|i tok fresh]; cbn [HttpCloudModel.d_step usable_op] in *.
    - destruct Hu1 as [Hpo Ha]. apply call_ok; [done| |done..]. intros Hf. apply (Hd2 _ Hf). cbn. apply elem_of_list_here.
    - destruct Hu1 as [Hb2 Hz]. apply (cloud_weaken _ (drawn [DAnswer k e1 e2])). by apply answer_ok.
    - apply (cloud_weaken _ (drawn [DReturn i tok fresh])). by apply return_ok.
  Qed.
End cloud.
