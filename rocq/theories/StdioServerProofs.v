(** Proofs about a server on its standard streams. *)
From stdpp Require Import gmap strings list.
From Verif Require Import ListLib TextLib JsonLib SerdeLib TypesModel RpcModel RpcSpec RpcProofs ManagersModel ServerModel ServerSpec ServerProofs StdioModel StdioSpec StdioProofs StackModel StackProofs StdioServerModel StdioServerSpec.

Lemma read_line_shrinks b i : (length (read_line (b :: i)).2 < length (b :: i))%nat.
Proof.
  revert b. induction i as [|c i IH]; intros b; cbn [read_line].
  - destruct (b =? 10)%N; cbn; lia.
  - destruct (b =? 10)%N; [cbn; lia|]. specialize (IH c). cbn [read_line] in IH. destruct (if (c =? 10)%N then _ else _) as [l r]. cbn [snd] in *. cbn [length] in *. lia.
Qed.
Lemma headers_shrink fuel : ∀ len b i, (length (read_headers fuel len (b :: i)).2 ≤ length (b :: i))%nat ∧
  (∀ n, (read_headers fuel len (b :: i)).1 = HLength n → length (read_headers fuel len (b :: i)).2 < length (b :: i))%nat.
Proof.
  induction fuel as [|fuel IH]; intros len b i; [done|]. pose proof (read_line_shrinks b i) as Hs. cbn [read_headers]. destruct (read_line (b :: i)) as [l r]. cbn [snd] in Hs.
  destruct (Utf8Lib.utf8_decode l) as [t|]; [|cbn [snd fst]; split; [lia|done]]. destruct (trim t) as [|a line]; [cbn [snd fst]; split; [lia|intros; lia]|].
  destruct r as [|c r].
  - destruct fuel; cbn [read_headers snd fst]; split; try done; cbn; lia.
  - specialize (IH (match parse_content_length (a :: line) with Some n => Some n | None => len end) c r). destruct IH as [H1 H2]. split; [lia|]. intros n Hn. specialize (H2 n Hn). lia.
Qed.
Lemma receive_shrinks i out m t : receive {| sd_in := i; sd_out := out; sd_closed := false |} = (RMsg m, t) →
  ∃ i', t = {| sd_in := i'; sd_out := out; sd_closed := false |} ∧ (length i' < length i)%nat ∧ ∀ o, receive {| sd_in := i; sd_out := o; sd_closed := false |} = (RMsg m, {| sd_in := i'; sd_out := o; sd_closed := false |}).
Proof.
  unfold receive. cbn [sd_closed sd_in sd_out]. destruct i as [|b i]; [cbn; congruence|]. destruct (headers_shrink (S (length (b :: i))) None b i) as [_ H]. destruct (read_headers (S (length (b :: i))) None (b :: i)) as [h r] eqn:E. cbn [fst snd] in H.
  destruct h as [n| | |]; [|congruence..]. specialize (H n eq_refl). destruct (isize_max <? n)%N; [congruence|]. destruct (N.of_nat (length r) <? n)%N; [congruence|].
  destruct (parse_message (take (N.to_nat n) r)) as [m'|]; [|congruence]. intros E'. apply pair_equal_spec in E' as [E1 <-]. injection E1 as ->. exists (drop (N.to_nat n) r). split; [done|]. split; [rewrite drop_length; lia|done].
Qed.
Lemma receive_fails i out r t : receive {| sd_in := i; sd_out := out; sd_closed := false |} = (r, t) → (∀ m, r ≠ RMsg m) →
  sd_out t = out ∧ ∀ o m, (receive {| sd_in := i; sd_out := o; sd_closed := false |}).1 ≠ RMsg m.
Proof.
  unfold receive. cbn [sd_closed sd_in sd_out]. destruct (read_headers (S (length i)) None i) as [h l]. destruct h as [n| | |].
  - destruct (isize_max <? n)%N; [intros E _; apply pair_equal_spec in E as [<- <-]; done|]. destruct (N.of_nat (length l) <? n)%N; [intros E _; apply pair_equal_spec in E as [<- <-]; done|]. intros E Hr. apply pair_equal_spec in E as [<- <-]. split; [done|]. intros o m. cbn [fst]. apply Hr.
  - intros E _; apply pair_equal_spec in E as [<- <-]; done.
  - intros E _; apply pair_equal_spec in E as [<- <-]; done.
  - intros E _; apply pair_equal_spec in E as [<- <-]; done.
Qed.
Lemma frames_wire rs : frames_of rs = wire (MsgResponse <$> rs).
Proof. unfold frames_of, wire. by rewrite <-list_fmap_compose. Qed.
Lemma frames_app a b : frames_of (a ++ b) = frames_of a ++ frames_of b.
Proof. unfold frames_of. by rewrite fmap_app, concat_app. Qed.

Section server.
  Context (cf : config) (behave : list invocation → hresult) (key : list N → string).
  Notation step := (v_step cf behave key).
  Notation serve := (serve cf behave key).
  Notation after_all := (after_all cf behave key).
  Definition goes (s : server) (ms : list message) : server := fold_left (λ s m, step s (EMessage m true)) ms s.
  Lemma after_goes ms : after_all ms = goes server_new ms.
  Proof. unfold StdioServerSpec.after_all, v_run, goes. generalize server_new. induction ms as [|m ms IH]; intros s; [done|]. rewrite fmap_cons. cbn [fold_left]. apply IH. Qed.
  Lemma goes_sent ms s : sv_sent s `prefix_of` sv_sent (goes s ms).
  Proof. revert s. induction ms as [|m ms IH]; intros s; [done|]. unfold goes in *. cbn [fold_left]. etrans; [apply (step_sent cf behave key s (EMessage m true))|apply IH]. Qed.
  Lemma error_kept s : sv_sent (step s EReceiveError) = sv_sent s ∧ sv_calls (step s EReceiveError) = sv_calls s.
  Proof. cbn [v_step]. by destruct (sv_listening s). Qed.
  (** one message *)
  Lemma serve_next fuel s i i' out m : i ≠ [] → receive {| sd_in := i; sd_out := out; sd_closed := false |} = (RMsg m, {| sd_in := i'; sd_out := out; sd_closed := false |}) →
    serve (S fuel) s {| sd_in := i; sd_out := out; sd_closed := false |} =
    serve fuel (step s (EMessage m true)) {| sd_in := i'; sd_out := out ++ frames_of (drop (length (sv_sent s)) (sv_sent (step s (EMessage m true)))); sd_closed := false |}.
  Proof. intros Hi Hr. cbn [StackModel.serve sd_in]. destruct i as [|b i]; [done|]. rewrite Hr. rewrite send_all_open by done. cbn [sd_in sd_out]. by rewrite frames_wire. Qed.
  Lemma drop_steps s m ms : frames_of (drop (length (sv_sent s)) (sv_sent (step s (EMessage m true)))) ++ frames_of (drop (length (sv_sent (step s (EMessage m true)))) (sv_sent (goes (step s (EMessage m true)) ms)))
    = frames_of (drop (length (sv_sent s)) (sv_sent (goes s (m :: ms)))).
  Proof.
    change (goes s (m :: ms)) with (goes (step s (EMessage m true)) ms). destruct (step_sent cf behave key s (EMessage m true)) as [a Ha]. destruct (goes_sent ms (step s (EMessage m true))) as [b Hb].
    rewrite Hb, Ha, !drop_app, <-!app_assoc, drop_app, <-frames_app. done.
  Qed.
  (** any input *)
  Lemma serve_any fuel : ∀ s i out, (length i < fuel)%nat → ∃ ms i',
    (∀ o, srun {| sd_in := i; sd_out := o; sd_closed := false |} (replicate (length ms) Receive) = ((λ m, Got (RMsg m)) <$> ms, {| sd_in := i'; sd_out := o; sd_closed := false |})) ∧
    (i' = [] ∨ ∀ o m, (receive {| sd_in := i'; sd_out := o; sd_closed := false |}).1 ≠ RMsg m) ∧
    let x := serve fuel s {| sd_in := i; sd_out := out; sd_closed := false |} in
    sv_sent x.1 = sv_sent (goes s ms) ∧ sv_calls x.1 = sv_calls (goes s ms) ∧ sd_out x.2 = out ++ frames_of (drop (length (sv_sent s)) (sv_sent (goes s ms))).
  Proof.
    induction fuel as [|fuel IH]; intros s i out Hf; [lia|]. destruct i as [|b i].
    - exists [], []. split; [done|]. split; [by left|]. cbn. rewrite drop_all. unfold frames_of. cbn. by rewrite app_nil_r.
    - destruct (receive {| sd_in := b :: i; sd_out := out; sd_closed := false |}) as [r t] eqn:Er. assert ((∃ m, r = RMsg m) ∨ ∀ m, r ≠ RMsg m) as [[m ->]|Hr] by (destruct r; [left; by eexists|right; intros m; discriminate..]).
      + destruct (receive_shrinks _ _ _ _ Er) as (i1 & -> & Hlen & Hall). rewrite (serve_next fuel s (b :: i) i1 out m) by done.
        destruct (IH (step s (EMessage m true)) i1 (out ++ frames_of (drop (length (sv_sent s)) (sv_sent (step s (EMessage m true)))))) as (ms & i' & H1 & H2 & H3 & H4 & H5); [cbn [length] in *; lia|].
        exists (m :: ms), i'. split. { intros o. cbn [length replicate srun sstep]. rewrite (Hall o), (H1 o). done. } split; [done|]. cbn zeta. split; [done|]. split; [done|]. rewrite H5, <-app_assoc. by rewrite drop_steps.
      + destruct (receive_fails _ _ _ _ Er Hr) as [Ho Hall]. exists [], (b :: i). split; [done|]. split; [by right|].
        cbn zeta. cbn [StackModel.serve sd_in]. rewrite Er. destruct (error_kept s) as [K1 K2].
        destruct r as [m| | | |]; [by destruct (Hr m)|..]; cbn [fst snd goes fold_left]; rewrite K1, K2, Ho, drop_all; unfold frames_of; cbn; by rewrite app_nil_r.
  Qed.
  (** frames of messages *)
  Lemma serve_frames ps : ∀ ms, Forall (λ p, N.of_nat (length p) <= isize_max)%N ps → parse_message <$> ps = Some <$> ms → ∀ s fuel out rest,
    serve (length ps + fuel) s {| sd_in := concat (frame <$> ps) ++ rest; sd_out := out; sd_closed := false |} =
    serve fuel (goes s ms) {| sd_in := rest; sd_out := out ++ frames_of (drop (length (sv_sent s)) (sv_sent (goes s ms))); sd_closed := false |}.
  Proof.
    induction ps as [|p ps IH]; intros [|m ms] Hp Hm s fuel out rest; try done.
    - cbn. rewrite drop_all. unfold frames_of. cbn. by rewrite app_nil_r.
    - rewrite !fmap_cons in Hm. injection Hm as Hm Hms. apply Forall_cons in Hp as [Hp1 Hp]. cbn [fmap list_fmap concat length Nat.add]. rewrite <-app_assoc.
      rewrite (serve_next _ s _ (concat (frame <$> ps) ++ rest) out m).
      + rewrite (IH ms Hp Hms). rewrite <-app_assoc. by rewrite drop_steps.
      + destruct (frame_cons p) as (b & l & ->). done.
      + rewrite receive_frame by done. unfold reading. by rewrite Hm.
  Qed.
  (** a bad frame *)
  Lemma serve_bad fuel s p out rest : (N.of_nat (length p) <= isize_max)%N → parse_message p = None →
    serve (S fuel) s {| sd_in := frame p ++ rest; sd_out := out; sd_closed := false |} = (step s EReceiveError, {| sd_in := rest; sd_out := out; sd_closed := false |}).
  Proof. intros Hp Hm. cbn [StackModel.serve sd_in]. destruct (frame_cons p) as (b & l & E). pose proof (receive_frame p rest out Hp) as Hr. rewrite E in Hr |- *. cbn [app] in Hr |- *. rewrite Hr. unfold reading. by rewrite Hm. Qed.

  Lemma frames_length ps : (length ps ≤ length (concat (frame <$> ps)))%nat.
  Proof. induction ps as [|p ps IH]; [done|]. cbn [fmap list_fmap concat length]. rewrite app_length. destruct (frame_cons p) as (b & l & ->). cbn [length]. lia. Qed.
  Lemma run_frames ps ms : Forall (λ p, N.of_nat (length p) <= isize_max)%N ps → parse_message <$> ps = Some <$> ms →
    run_stdio cf behave key (concat (frame <$> ps)) = (after_all ms, {| sd_in := []; sd_out := frames_of (sv_sent (after_all ms)); sd_closed := false |}).
  Proof.
    intros Hp Hm. unfold run_stdio, open_on. pose proof (frames_length ps) as Hl. replace (S (length (concat (frame <$> ps)))) with (length ps + (S (length (concat (frame <$> ps)) - length ps)))%nat by lia.
    pose proof (serve_frames ps ms Hp Hm server_new (S (length (concat (frame <$> ps)) - length ps)) [] []) as H. rewrite app_nil_r in H. rewrite H, after_goes. done.
  Qed.
  Lemma run_bad ps ms p rest : Forall (λ p, N.of_nat (length p) <= isize_max)%N ps → parse_message <$> ps = Some <$> ms → (N.of_nat (length p) <= isize_max)%N → parse_message p = None →
    run_stdio cf behave key (concat (frame <$> ps) ++ frame p ++ rest) = (step (after_all ms) EReceiveError, {| sd_in := rest; sd_out := frames_of (sv_sent (after_all ms)); sd_closed := false |}).
  Proof.
    intros Hp Hm Hp1 Hbad. unfold run_stdio, open_on. pose proof (frames_length ps) as Hl. set (n := length _). assert (length ps ≤ n)%nat as Hn by (unfold n; rewrite app_length; lia). replace (S n) with (length ps + S (n - length ps))%nat by lia.
    rewrite (serve_frames ps ms Hp Hm). cbn [app]. rewrite serve_bad by done. rewrite after_goes. done.
  Qed.
  Lemma bad_answers ps ms p rest : Forall (λ p, N.of_nat (length p) <= isize_max)%N ps → parse_message <$> ps = Some <$> ms → (N.of_nat (length p) <= isize_max)%N → parse_message p = None →
    written cf behave key (concat (frame <$> ps) ++ frame p ++ rest) = frames_of (sv_sent (after_all ms)) ∧ called cf behave key (concat (frame <$> ps) ++ frame p ++ rest) = sv_calls (after_all ms).
  Proof. intros. unfold written, called. rewrite (run_bad ps ms) by done. cbn [fst snd sd_out]. split; [done|]. apply error_kept. Qed.
End server.

Lemma adjacent_none {A} (tag : A → list N) bd all m p : m ∉ tag <$> all → adjacent tag bd all m p = None.
Proof. induction all as [|a all IH]; [done|]. rewrite fmap_cons, not_elem_of_cons. intros [H1 H2]. cbn [adjacent]. rewrite decide_False by done. by apply IH. Qed.
Lemma unknown_method q : rq_method q ∉ known_methods → parse_request q = None.
Proof. unfold known_methods. rewrite not_elem_of_app. intros [H1 H2]. unfold parse_request, parse_client_request, parse_server_request. by rewrite !adjacent_none by done. Qed.
Lemma request_keys q : has_key "method" (request_json q) = true ∧ has_key "id" (request_json q) = true.
Proof. destruct q. split; by vm_compute. Qed.
Lemma unread_request q : rid_ok (rq_id q) → rq_params q ≠ Some JNull → storable (request_json q) → parse_request q = None → parse_message (to_bytes (request_json q)) = None.
Proof.
  intros H1 H2 H3 H4. unfold parse_message. rewrite of_to_bytes by done. cbn [mbind option_bind]. unfold message_of_json. destruct (request_keys q) as [-> ->]. rewrite request_roundtrip by done. by rewrite H4.
Qed.
