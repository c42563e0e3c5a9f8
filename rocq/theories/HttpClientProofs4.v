(** Lemmas for the streams a streamable HTTP client reads. *)
From stdpp Require Import strings list sets gmap.
From Verif Require Import ListLib TextLib Utf8Lib JsonLib SerdeLib TypesModel RpcModel RpcSpec SseModel SseSpec HttpModel HttpSpec HttpClientModel HttpClientSpec HttpClientProofs.

Section client.
  Context (cf : tconfig).
  Notation step := (tp_step cf).
  Notation run := (tp_run cf).
  (** what a step does to the streams and to the handle *)
  Lemma step_streams s o :
    (tp_streams (step s o).1 = tp_streams s ∧ tp_handle (step s o).1 = tp_handle s ∧ ¬ listens o) ∨
    (listens o ∧ tp_streams (step s o).1 = match tp_handle s with Some h => <[h := false]> (tp_streams s) | None => tp_streams s end ∧ tp_handle (step s o).1 = None) ∨
    (∃ i r tok, o = TReply i (Some r) tok ∧ (∃ m, waiting s i = Some (XPost m)) ∧ tp_streams (step s o).1 = tp_streams s ++ [true] ∧ tp_handle (step s o).1 = tp_handle s) ∨
    (∃ i r tok, o = TReply i (Some r) tok ∧ (∃ q, waiting s i = Some (XGet q)) ∧ tp_streams (step s o).1 = tp_streams s ++ [true] ∧ tp_handle (step s o).1 = Some (length (tp_streams s))) ∨
    (∃ n body, o = TBody n body ∧ reading s n ∧ tp_streams (step s o).1 = <[n := false]> (tp_streams s) ∧ tp_handle (step s o).1 = tp_handle s).
  Proof.
    assert (∀ s', tp_streams (abort_stream s') = match tp_handle s' with Some h => <[h := false]> (tp_streams s') | None => tp_streams s' end ∧ tp_handle (abort_stream s') = None) as Ha.
    { intros s'. unfold abort_stream. by destruct (tp_handle s'). }
    destruct o as [m token tok|token tok|tok|i r tok|n body| |v|v]; cbn [tp_step].
    - unfold begin_send, begin_get. destruct token as [t|].
      + right. left. destruct (Ha s) as [E1 E2]. destruct (build_request cf tok (abort_stream s)); cbn [fst request tp_streams tp_handle]; by rewrite E1, E2.
      + left. destruct (build_request cf tok s); split_and!; by try intros [].
    - right. left. unfold begin_get. destruct (Ha s) as [E1 E2]. destruct (build_request cf tok (abort_stream s)); cbn [fst request tp_streams tp_handle]; by rewrite E1, E2.
    - right. left. unfold begin_close. destruct (Ha s) as [E1 E2]. destruct (tp_session _); [destruct (build_request cf tok (abort_stream s))|]; cbn [fst request tp_streams tp_handle]; by rewrite E1, E2.
    - destruct (tp_flight s !! i) as [[[m|quiet|]|]|] eqn:Ew; try (by left; split_and!; try intros []).
      + destruct (end_send_spec cf m r tok (answered i s)) as (ms & x & -> & _). cbn [fst]. destruct r as [r|]; [|by left; split_and!; try intros []]. rewrite process_headers_spec.
        destruct (_ && _ && _); [|by left; split_and!; try intros []]. right. right. left. exists i, r, tok. split; [done|]. split; [exists m; unfold waiting; by rewrite Ew|]. done.
      + unfold end_get. destruct r as [r|]; [|by left; split_and!; try intros []]. destruct (_ =? _)%Z; [by left; split_and!; try intros []|]. rewrite process_headers_spec.
        destruct (is_success _); [|by left; split_and!; try intros []]. right. right. right. left. exists i, r, tok. split; [done|]. split; [exists quiet; unfold waiting; by rewrite Ew|]. done.
    - destruct (tp_streams s !! n) as [[]|] eqn:E; [|by left; split_and!; try intros []..]. do 4 right. exists n, body.
      destruct (take_body_spec body (close_stream n s)) as (ms & ids & ->). done.
    - left. unfold receive. destruct (tp_queue s); split_and!; by try intros [].
    - left. split_and!; by try intros [].
    - left. split_and!; by try intros [].
  Qed.
  Lemma handle_bound z os h : tp_handle (run z os) = Some h → (h < length (tp_streams (run z os)))%nat.
  Proof.
    revert h. induction os as [|o os IH] using rev_ind; intros h; [done|]. rewrite tp_run_snoc.
    destruct (step_streams (run z os) o) as [(-> & -> & _)|[(_ & -> & ->)|[(i & r & tok & _ & _ & -> & ->)|[(i & r & tok & _ & _ & -> & ->)|(n & body & _ & _ & -> & ->)]]]]; intros H.
    - by apply IH.
    - done.
    - rewrite app_length. apply IH in H. lia.
    - injection H as <-. rewrite app_length. cbn. lia.
    - rewrite insert_length. by apply IH.
  Qed.
  (** a stream that is not at the handle is read until its end *)
  Lemma undisturbed os s n : reading s n → tp_handle s ≠ Some n → (∀ b, TBody n b ∉ os) → reading (fold_left (λ s o, (step s o).1) os s) n.
  Proof.
    revert s. induction os as [|o os IH]; intros s Hr Hh Hb; [done|]. cbn [fold_left]. apply IH; [..|intros b Hin; apply (Hb b); by right].
    - unfold reading in *. pose proof (lookup_lt_Some _ _ _ Hr).
      destruct (step_streams s o) as [(-> & _)|[(_ & -> & _)|[(i & r & tok & _ & _ & -> & _)|[(i & r & tok & _ & _ & -> & _)|(k & body & -> & _ & -> & _)]]]].
      + done.
      + destruct (tp_handle s) as [h|]; [|done]. rewrite list_lookup_insert_ne; [done|congruence].
      + by rewrite lookup_app_l.
      + by rewrite lookup_app_l.
      + rewrite list_lookup_insert_ne; [done|]. intros ->. apply (Hb body). by left.
    - pose proof (lookup_lt_Some _ _ _ Hr).
      destruct (step_streams s o) as [(_ & -> & _)|[(_ & _ & ->)|[(i & r & tok & _ & _ & _ & ->)|[(i & r & tok & _ & _ & _ & ->)|(k & body & -> & _ & _ & ->)]]]]; try done.
      intros [=]. lia.
  Qed.
  (** the stream at the handle stays there until one listens again *)
  Lemma handle_kept os s n : tp_handle s = Some n → Forall (λ x, ¬ listens x.2 ∧ ¬ listen_reply x) (trace cf s os) →
    tp_handle (fold_left (λ s o, (step s o).1) os s) = Some n.
  Proof.
    revert s. induction os as [|o os IH]; intros s Hh Hf; [done|]. cbn [fold_left]. cbn [trace] in Hf. apply Forall_cons in Hf as [[Hl Hg] Hf]. apply IH; [|done]. cbn [fst snd] in *.
    destruct (step_streams s o) as [(_ & -> & _)|[(? & _)|[(i & r & tok & _ & _ & _ & ->)|[(i & r & tok & E & [q Hq] & _ & _)|(k & body & -> & _ & _ & ->)]]]]; try done.
    exfalso. apply Hg. subst o. by exists q.
  Qed.
  Lemma listening os s n : reading s n → tp_handle s = Some n → Forall (λ x, ¬ listens x.2 ∧ ¬ listen_reply x) (trace cf s os) → (∀ b, TBody n b ∉ os) →
    reading (fold_left (λ s o, (step s o).1) os s) n.
  Proof.
    revert s. induction os as [|o os IH]; intros s Hr Hh Hf Hb; [done|]. cbn [fold_left]. pose proof Hf as Hf0. cbn [trace] in Hf. apply Forall_cons in Hf as [[Hl Hg] Hf].
    apply IH; [| |done|intros b Hin; apply (Hb b); by right].
    - unfold reading in *. pose proof (lookup_lt_Some _ _ _ Hr).
      destruct (step_streams s o) as [(-> & _)|[(? & _)|[(i & r & tok & _ & _ & -> & _)|[(i & r & tok & _ & _ & -> & _)|(k & body & -> & _ & -> & _)]]]]; try done.
      + by rewrite lookup_app_l.
      + by rewrite lookup_app_l.
      + rewrite list_lookup_insert_ne; [done|]. intros ->. apply (Hb body). by left.
    - apply (handle_kept [o] s n Hh). cbn [trace]. by apply Forall_singleton.
  Qed.
  (** the replies that open a stream *)
  Lemma opens_answer s i m r tok : waiting s i = Some (XPost m) → ok_status (rp_status r) → streamed r →
    tp_streams (step s (TReply i (Some r) tok)).1 = tp_streams s ++ [true] ∧ tp_handle (step s (TReply i (Some r) tok)).1 = tp_handle s.
  Proof.
    intros Hw Hs (ct & Ect & Hj & He). unfold waiting in Hw. cbn [tp_step]. destruct (tp_flight s !! i) as [[[m'|quiet|]|]|]; try done.
    apply success_spec in Hs. unfold end_send. rewrite Hs, Ect. cbn [default]. change (id ct) with ct.
    destruct (contains application_json ct) eqn:Ej; [by apply contains_spec in Ej|]. assert (contains text_event_stream ct = true) as -> by (by apply contains_spec).
    rewrite process_headers_spec. done.
  Qed.
  Lemma opens_listen s i q r tok : waiting s i = Some (XGet q) → ok_status (rp_status r) →
    tp_streams (step s (TReply i (Some r) tok)).1 = tp_streams s ++ [true] ∧ tp_handle (step s (TReply i (Some r) tok)).1 = Some (length (tp_streams s)).
  Proof.
    intros Hw Hs. unfold waiting in Hw. cbn [tp_step]. destruct (tp_flight s !! i) as [[[m'|quiet|]|]|]; try done.
    unfold end_get. destruct (rp_status r =? 405)%Z eqn:E; [unfold ok_status in Hs; lia|]. apply success_spec in Hs. rewrite Hs, process_headers_spec. done.
  Qed.
  Lemma waiting_other s i j q r tok : waiting s i = Some (XGet q) → i ≠ j → waiting (step s (TReply i (Some r) tok)).1 j = waiting s j.
  Proof.
    intros Hw Hij. unfold waiting in Hw. cbn [tp_step]. destruct (tp_flight s !! i) as [[[m'|quiet|]|]|]; try done. unfold waiting.
    assert (tp_flight (let '(s0, x) := end_get quiet (Some r) (answered i s) in (s0, Some x)).1 = <[i := None]> (tp_flight s)) as ->.
    { unfold end_get. rewrite process_headers_spec. by repeat case_match; simplify_eq/=. }
    by rewrite list_lookup_insert_ne.
  Qed.
End client.
