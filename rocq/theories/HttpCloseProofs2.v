(** Proofs about closing: transports that have opened no event stream of their own. *)
From stdpp Require Import gmap strings list sets.
From Verif Require Import ListLib TextLib JsonLib SerdeLib TypesModel ManagersModel SseModel HttpModel HttpClientModel HttpClientSpec HttpClientProofs RpcModel ServerModel ClientModel HttpStackModel HttpStackProofs2 HttpCloudModel HttpCloudSpec HttpCloseModel.

Definition unread (t : transport) : Prop := tp_handle t = None ∧ ∀ f q, tp_flight t !! f ≠ Some (Some (XGet q)).
Lemma unread_answered f t : unread t → unread (answered f t).
Proof.
  intros [H1 H2]. split; [done|]. intros g q. cbn [answered tp_flight]. destruct (decide (g = f)) as [->|Hn]; [|rewrite list_lookup_insert_ne by done; apply H2].
  destruct (decide (f < length (tp_flight t))%nat); [rewrite list_lookup_insert by done; intros [=]|]. rewrite list_insert_ge by lia. apply H2.
Qed.
Lemma unread_request q x t : unread t → (∀ b, x ≠ XGet b) → unread (HttpClientModel.request q x t).
Proof. intros [H1 H2] Hx. split; [done|]. intros f b. cbn [HttpClientModel.request tp_flight]. intros [H|[H E]]%lookup_app_Some; [by apply (H2 f b)|]. destruct (f - _)%nat as [|[|]]; cbn in E; simplify_eq. by apply (Hx b). Qed.
Lemma unread_event t e : unread t → unread (take_event t e).
Proof. intros H. unfold take_event. repeat case_match; done. Qed.
Lemma unread_body body t : unread t → unread (take_body body t).
Proof. unfold take_body. destruct (feed parser0 body) as [[? es]|]; [|done]. revert t. induction es as [|e es IH]; intros t H; [done|]. cbn [fold_left]. by apply IH, unread_event. Qed.
Lemma unread_headers r t : unread t → unread (process_headers r t).
Proof. intros H. unfold process_headers. repeat case_match; done. Qed.
Lemma unread_send a m tok t : unread t → unread (tp_step a t (TSend m None tok)).1.
Proof. intros H. cbn [tp_step]. unfold begin_send. destruct (build_request a tok t); [|done]. cbn [fst]. by apply unread_request. Qed.
Lemma unread_reply a t f r tok : unread t → unread (tp_step a t (TReply f r tok)).1.
Proof.
  intros H. cbn [tp_step]. destruct (tp_flight t !! f) as [[[m|b|]|]|] eqn:E; try done.
  - unfold end_send. destruct r as [r|]; [|by apply unread_answered]. assert (unread (process_headers r (answered f t))) as H1 by (by apply unread_headers, unread_answered). revert H1. generalize (process_headers r (answered f t)) as t1. intros t1 H1.
    destruct (is_success (rp_status r)) eqn:Es; [repeat case_match; done|]. destruct (rp_status r =? 202)%Z eqn:E2; [|done]. exfalso. apply Z.eqb_eq in E2. by rewrite E2 in Es.
  - by destruct (proj2 H f b).
  - exact (unread_answered f t H).
Qed.
Lemma unread_drain a n t : unread t → unread (drain a n t).2.
Proof.
  revert t. induction n as [|n IH]; intros t H; [done|]. cbn [drain tp_step]. unfold receive. destruct (tp_queue t) as [|m q]; [done|].
  match goal with |- context [drain a n ?s] => assert (unread s) as H1 by done; specialize (IH s H1); destruct (drain a n s) end. done.
Qed.

Section close.
  Context (cf : config) (behave : list invocation → hresult) (key : list N → string) (tcf : nat → tconfig) (hcf : hconfig).
  Notation ask := (ask cf behave key tcf hcf).
  Notation d_step := (d_step cf behave key tcf hcf).
  Lemma unread_ask i m tok fresh t v : unread t → unread (ask i m tok fresh t v).1.1.
  Proof.
    intros H. unfold HttpCloudModel.ask. pose proof (unread_send (tcf i) m tok t H) as H1. destruct (tp_step (tcf i) t (TSend m None tok)) as [t1 [r|]]; [done|]. cbn [fst] in H1. destruct (last (tp_sent t1)); [|done]. by destruct (h_step _ _ _ _) as [? []].
  Qed.
  Lemma unread_take i f n x t : unread t → unread (take_reply tcf i f n x t).2.
  Proof.
    intros H. unfold take_reply. pose proof (unread_reply (tcf i) t f (Some (reply_of x)) None H) as H1. destruct (tp_step (tcf i) t (TReply f (Some (reply_of x)) None)) as [t1 r]. cbn [fst] in H1.
    assert (unread (tp_step (tcf i) t1 (TBody n (stream_text x))).1) as H2. { cbn [tp_step]. destruct (tp_streams t1 !! n) as [[]|]; [|done..]. cbn [fst]. by apply unread_body. }
    pose proof (unread_drain (tcf i) (length (tp_queue (tp_step (tcf i) t1 (TBody n (stream_text x))).1)) _ H2) as H3. by destruct (drain _ _ _).
  Qed.
  Lemma unread_put i p v w y : Forall (λ p, unread (pe_tp p)) (cd_peers y) → unread (pe_tp p) → Forall (λ p, unread (pe_tp p)) (cd_peers (put i p v w y)).
  Proof. intros H1 H2. cbn [put cd_peers]. by apply Forall_insert. Qed.
  Lemma unread_step y d : Forall (λ p, unread (pe_tp p)) (cd_peers y) → Forall (λ p, unread (pe_tp p)) (cd_peers (d_step y d)).
  Proof.
    intros H. destruct d as [i o id tok fresh|k e1 e2|i tok fresh]; cbn [HttpCloudModel.d_step].
    - unfold d_call. destruct (cd_peers y !! i) as [[c t [| |]]|] eqn:Ei; [|done..]. assert (unread t) as Ht by exact (proj1 (Forall_lookup _ _) H i _ Ei). destruct (first_of c o id) as [m|]; [|by apply unread_put].
      pose proof (unread_ask i m tok fresh t (cd_http y) Ht) as H1. destruct (ask i m tok fresh t (cd_http y)) as [[t1 v] [|x|]]; [by apply unread_put| |by apply unread_put].
      pose proof (unread_take i (length (tp_flight t)) (length (tp_streams t)) x t1 H1) as H2. destruct (take_reply _ _ _ _ _ _) as [[ok got] t2]. by apply unread_put.
    - unfold d_answer. destruct (cd_waiting y !! k) as [i|]; [|done]. destruct (sx_pending (cd_http y) !! k) as [[hdr rsid qid r|]|]; [|done..]. destruct (cd_peers y !! i) as [[c t [|o id f n|]]|] eqn:Ei; [done| |done..].
      assert (unread t) as Ht by exact (proj1 (Forall_lookup _ _) H i _ Ei). destruct (handle_request cf behave key qid r _).2.
      + destruct (h_step _ _ _ _) as [v [x|]]; [|done]. pose proof (unread_take i f n x t Ht) as H2. destruct (take_reply _ _ _ _ _ _) as [[ok got] t2]. by apply unread_put.
      + apply unread_put; [done|]. by apply unread_reply.
    - unfold d_return. destruct (cd_peers y !! i) as [[c t [| |o id ok got]]|] eqn:Ei; [done..| |done]. assert (unread t) as Ht by exact (proj1 (Forall_lookup _ _) H i _ Ei). destruct (second_of c o id ok got) as [m|].
      + pose proof (unread_ask i m tok fresh t (cd_http y) Ht) as H1. destruct (ask i m tok fresh t (cd_http y)) as [[t1 v] a].
        assert (unread (match a with AReplied x => take_reply tcf i (length (tp_flight t)) (length (tp_streams t)) x t1 | _ => (false, [], t1) end).2) as H2. { destruct a; [done| |done]. by apply unread_take. }
        destruct (match a with AReplied x => _ | _ => _ end) as [[ok2 got2] t2]. destruct (c_step c (MkEvent o id ok got ok2)) as [c' r]. by apply (unread_put i (MkPeer (deliver got2 c') t2 JIdle) v (cd_waiting y) y).
      + destruct (c_step c (MkEvent o id ok got ok)) as [c' r]. by apply (unread_put i (MkPeer c' t JIdle) (cd_http y) (cd_waiting y) y).
  Qed.
  Lemma unread_run n ds : Forall (λ p, unread (pe_tp p)) (cd_peers (d_run cf behave key tcf hcf n ds)).
  Proof.
    unfold d_run. assert (Forall (λ p, unread (pe_tp p)) (cd_peers (cloud_new n))) as H. { apply Forall_lookup. intros i p [-> _]%lookup_replicate. split; [done|]. intros f q. cbn. by rewrite lookup_nil. }
    revert H. generalize (cloud_new n) as y. induction ds as [|d ds IH]; intros y H; [done|]. cbn [fold_left]. by apply IH, unread_step.
  Qed.
  Lemma close_nothing i tok y c t j : cd_peers y !! i = Some (MkPeer c t j) → tp_session t = None → unread t → d_close cf behave key tcf hcf i tok y = y.
  Proof.
    intros Hi Hs [Hh _]. unfold d_close. rewrite Hi. cbn [tp_step]. unfold begin_close. assert (abort_stream t = t) as -> by (unfold abort_stream; rewrite Hh; destruct t; cbn in Hh; by subst). rewrite Hs. unfold put. rewrite list_insert_id by done. by destruct y.
  Qed.
End close.
