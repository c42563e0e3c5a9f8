(** Lossy decoding of arbitrary bytes. *)
From stdpp Require Import list strings.
From Coq Require Import ZifyBool.
From Verif Require Import ListLib TextLib Utf8Lib JsonLib RpcModel RpcSpec RpcProofs SseModel SseSpec SseProofs HttpSseModel HttpSseSpec HttpSseProofs HttpSseProofs2.
Local Open Scope N_scope.

Lemma next_begins bs : Forall (λ b, b < 256) bs → (utf8_next bs = None ↔ ¬ starts_character bs).
Proof.
  intros Hb. split.
  - intros H (c & r & Hc & ->). by rewrite utf8_next_char in H.
  - intros H. destruct (utf8_next bs) as [[c r]|] eqn:E; [|done]. apply utf8_next_inv in E as [Hc ->]; [|done]. destruct H. by exists c, r.
Qed.
Lemma begun_next p : unfinished p → ∃ c b q, q ≠ [] ∧ utf8_next (p ++ q) = Some (c, []) ∧ p = b :: tail p.
Proof.
  intros (c & q & Hc & Hp & Hq & E). destruct p as [|b p]; [done|]. exists c, b, q. split; [done|]. split; [|done].
  rewrite E. rewrite <- (app_nil_r (utf8_char c)). by apply utf8_next_char.
Qed.
Lemma begun_short p r : Forall (λ b, b < 256) (p ++ r) → unfinished p → (length p <= broken_length (p ++ r))%nat.
Proof.
  intros Hb H. apply begun_next in H as (c & b & q & Hq & E & _). pose proof (broken_pos (p ++ r)) as Hpos.
  destruct p as [|b0 [|b1 p]]; [cbn; lia|cbn [length]; lia|]. destruct q as [|x q]; [done|].
  unfold utf8_next in E. cbn [app] in E. unfold broken_length. cbn [app].
  destruct (b0 <? 128) eqn:E1; [simplify_eq; by destruct p|]. destruct (b0 <? 194) eqn:E2; [done|]. destruct (b0 <? 224) eqn:E3; [destruct (is_cont b1); simplify_eq; by destruct p|].
  destruct (b0 <? 240) eqn:E4.
  - replace (224 <=? b0) with true by lia. cbn [andb]. destruct p as [|b2 p].
    + cbn [app] in E. destruct q; [|by repeat case_match]. unfold is_cont in *. 
      assert (if b0 =? 224 then 160 <=? b1 = true ∧ b1 <? 192 = true else if b0 =? 237 then 128 <=? b1 = true ∧ b1 <? 160 = true else 128 <=? b1 = true ∧ b1 <? 192 = true) as HH.
      { destruct (_ && _) eqn:E5 in E; [|done]. repeat case_match; lia. }
      cbn [length]. repeat case_match; try lia.
    + cbn [app] in E. destruct (p ++ x :: q) eqn:E5; [by destruct p|]. by repeat case_match.
  - replace (224 <=? b0) with true by lia. replace (240 <=? b0) with true by lia. cbn [andb]. destruct (b0 <? 245) eqn:E6; [|done].
    assert (∃ b2 b3, p ++ x :: q = [b2; b3]) as (b2 & b3 & E7).
    { destruct (p ++ x :: q) as [|b2 [|b3 [|? ?]]]; try done; [by eauto|by repeat case_match]. }
    rewrite E7 in E. destruct (is_cont b1 && is_cont b2 && _ && _ && _) eqn:E8; [|done]. clear E. unfold is_cont in E8.
    assert (if b0 =? 240 then 144 <=? b1 = true ∧ b1 <? 192 = true else if b0 =? 244 then 128 <=? b1 = true ∧ b1 <? 144 = true else 128 <=? b1 = true ∧ b1 <? 192 = true) as HH.
    { repeat case_match; lia. }
    assert ((if b0 =? 240 then (144 <=? b1) && (b1 <? 192) else if b0 =? 244 then (128 <=? b1) && (b1 <? 144) else is_cont b1) = true) as ->.
    { unfold is_cont. repeat case_match; lia. }
    destruct p as [|b2' [|b3' p]]; cbn [app length].
    + repeat case_match; lia.
    + cbn [app] in E7. injection E7 as -> _ _. unfold is_cont. replace (128 <=? b2) with true by lia. replace (b2 <? 192) with true by lia. cbn [andb]. lia.
    + cbn [app] in E7. destruct p; done.
Qed.
Lemma broken_begun bs : Forall (λ b, b < 256) bs → (2 <= broken_length bs)%nat → unfinished (take (broken_length bs) bs) ∧ (broken_length bs <= length bs)%nat.
Proof.
  intros Hb H2.
  assert (∀ p q c, utf8_next (p ++ q) = Some (c, []) → p ≠ [] → q ≠ [] → Forall (λ b, b < 256) (p ++ q) → unfinished p) as Hmk.
  { intros p q c E Hp Hq Hf. apply utf8_next_inv in E as [Hc E]; [|done]. rewrite app_nil_r in E. by exists c, q. }
  unfold broken_length in *. destruct bs as [|b0 [|b1 r]]; [lia|lia|].
  assert (b0 < 256 ∧ b1 < 256) as [Hb0 Hb1] by (apply Forall_cons in Hb as [? [? ?]%Forall_cons]; done).
  destruct ((224 <=? b0) && (b0 <? 240)) eqn:E1.
  - destruct (if b0 =? 224 then _ else _) eqn:E2; [|lia]. cbn [length take]. rewrite take_0. split; [|lia].
    eapply (Hmk [b0; b1] [128] ((b0 - 224) * 4096 + (b1 - 128) * 64 + (128 - 128))); [|done|done|repeat constructor; lia].
    unfold utf8_next. cbn [app]. replace (b0 <? 128) with false by lia. replace (b0 <? 194) with false by lia. replace (b0 <? 224) with false by lia. replace (b0 <? 240) with true by lia.
    unfold is_cont in *. replace (_ && _) with true; [done|]. symmetry. repeat case_match; lia.
  - destruct ((240 <=? b0) && (b0 <? 245)) eqn:E3; [|lia]. destruct (if b0 =? 240 then _ else _) eqn:E2; [|lia].
    assert (∀ b2, is_cont b2 = true → utf8_next [b0; b1; b2; 128] = Some ((b0 - 240) * 262144 + (b1 - 128) * 4096 + (b2 - 128) * 64 + (128 - 128), [])) as Hn.
    { intros b2 Hb2. unfold utf8_next. replace (b0 <? 128) with false by lia. replace (b0 <? 194) with false by lia. replace (b0 <? 224) with false by lia. replace (b0 <? 240) with false by lia. replace (b0 <? 245) with true by lia.
      unfold is_cont in *. replace (_ && _) with true; [done|]. symmetry. repeat case_match; lia. }
    assert (unfinished [b0; b1]) as H01.
    { eapply (Hmk [b0; b1] [128; 128]); [by apply (Hn 128)|done|done|repeat constructor; lia]. }
    destruct r as [|b2 r]; [by split; [|cbn; lia]|]. destruct (is_cont b2) eqn:E4; [|split; [done|cbn; lia]].
    cbn [length take]. rewrite take_0. split; [|lia]. eapply (Hmk [b0; b1; b2] [128]); [by apply Hn|done|done|]. unfold is_cont in E4. repeat constructor; lia.
Qed.
Lemma broken_exact p r : Forall (λ b, b < 256) (p ++ r) → one_piece p r → broken_length (p ++ r) = length p.
Proof.
  intros Hb (Hp & Hpp & Hmax). assert (length p <= broken_length (p ++ r))%nat as Hle.
  { destruct Hpp as [Hu|H1]; [by apply begun_short|]. rewrite H1. apply broken_pos. }
  destruct (decide (broken_length (p ++ r) = length p)) as [|Hne]; [done|]. assert (length p < broken_length (p ++ r))%nat as Hlt by lia.
  assert (1 <= length p)%nat by (destruct p; [done|cbn; lia]).
  destruct (broken_begun (p ++ r) Hb ltac:(lia)) as [Hu Hl]. rewrite app_length in Hl. rewrite take_app_ge in Hu by lia.
  destruct (Hmax (take (broken_length (p ++ r) - length p) r)); [|exists (drop (broken_length (p ++ r) - length p) r); by rewrite take_drop|done].
  intros H0. assert (length (take (broken_length (p ++ r) - length p) r) = 0)%nat as H0' by (by rewrite H0). rewrite take_length in H0'. lia.
Qed.
Lemma lossy_mended bs : Forall (λ b, b < 256) bs → mended bs (lossy bs).
Proof.
  induction bs as [bs IH] using (induction_ltof1 _ length). unfold ltof in IH. intros Hb. destruct bs as [|b bs]; [by constructor|].
  rewrite lossy_next. destruct (utf8_next (b :: bs)) as [[c r]|] eqn:E.
  - pose proof (utf8_next_shorter _ _ _ E). apply utf8_next_inv in E as [Hc E]; [|done]. rewrite E in *. constructor; [done|]. apply IH; [done|]. by apply Forall_app in Hb as [_ ?].
  - set (l := b :: bs) in *. pose proof (broken_pos l) as Hp. rewrite <- (take_drop (broken_length l) l) at 1. 
    assert (broken_length l <= length l)%nat as Hl. { destruct (decide (broken_length l = 1)%nat) as [->|]; [unfold l; cbn; lia|]. apply broken_begun; [done|lia]. }
    constructor.
    + rewrite take_drop. by apply next_begins.
    + split; [|split].
      * intros H0. assert (length (take (broken_length l) l) = 0)%nat as H0' by (by rewrite H0). rewrite take_length in H0'. lia.
      * destruct (decide (broken_length l = 1)%nat) as [H1|H1]; [right; rewrite take_length; lia|]. left. apply broken_begun; [done|lia].
      * intros x Hx Hpre Hu. assert (Forall (λ b, b < 256) ((take (broken_length l) l ++ x) ++ drop (length x) (drop (broken_length l) l))) as Hf.
        { destruct Hpre as [y Hy]. rewrite Hy, drop_app, <- app_assoc, <- Hy, take_drop. done. }
        pose proof (begun_short _ _ Hf Hu) as Hs. destruct Hpre as [y Hy]. rewrite Hy, drop_app, <- app_assoc, <- Hy, take_drop in Hs. rewrite app_length, take_length in Hs. destruct x; [done|]. cbn [length] in Hs. lia.
    + apply IH; [rewrite drop_length; unfold l in *; cbn in *; lia|]. by apply Forall_drop.
Qed.
Lemma mended_lossy bs t : Forall (λ b, b < 256) bs → mended bs t → t = lossy bs.
Proof.
  intros Hb H. induction H as [|c r t Hc H IH|p r t Hn Hp H IH].
  - done.
  - apply Forall_app in Hb as [_ Hr]. rewrite lossy_char by done. by rewrite IH.
  - pose proof (broken_exact p r Hb Hp) as E. pose proof (proj2 (next_begins _ Hb) Hn) as En. apply Forall_app in Hb as [_ Hr]. rewrite IH by done.
    destruct (p ++ r) as [|b l] eqn:El; [destruct Hp as [Hp _]; by destruct p|]. rewrite lossy_next, En, E, <- El. by rewrite drop_app.
Qed.
