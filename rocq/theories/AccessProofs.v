From stdpp Require Import gmap strings list sets.
From Verif Require Import TextLib SerdeLib OAuthModel OAuthSpec OAuthProofs AuthModel AuthSpec AuthProofs AccessSpec.
Local Open Scope Z_scope.

(** *** Every piece of token information goes back to a request *)
Definition of_info (os : list oop) (i : tinfo) : Prop := authorised os (i_client i) (i_user i) (i_scopes i).
Definition of_code (os : list oop) (a : acode) : Prop := authorised os (a_client a) (a_user a) (a_scopes a).
Definition of_pc (os : list oop) (p : pc) : Prop :=
  match p with
  | PCode _ a => of_code os a
  | PCreate _ i _ _ | PCreate2 _ i _ _ | PRefresh3 _ _ i | PRefresh4 _ i | PDone (RInfo i) => of_info os i
  | _ => True
  end.
Definition of_maps (os : list oop) (m : maps) : Prop :=
  (∀ k a, m_codes m !! k = Some a → of_code os a) ∧ (∀ k i, m_tokens m !! k = Some i → of_info os i).

Lemma authorised_mono os os' c u s : authorised os c u s → authorised (os ++ os') c u s.
Proof.
  intros [(r & ch & me & g1 & g2 & t & H)|(g1 & g2 & t & H)]; [left|right].
  - exists r, ch, me, g1, g2, t. apply elem_of_app. by left.
  - exists g1, g2, t. apply elem_of_app. by left.
Qed.
Lemma of_pc_mono os os' p : of_pc os p → of_pc (os ++ os') p.
Proof. destruct p as [| | | | | | | | | | | |[]]; cbn; try done; apply authorised_mono. Qed.
Lemma of_maps_mono os os' m : of_maps os m → of_maps (os ++ os') m.
Proof. intros [H1 H2]. split; intros k x Hx; apply authorised_mono; [by eapply H1|by eapply H2]. Qed.

Lemma advance_origin s256 os n now g1 g2 p m : of_maps os m → of_pc os p →
  of_maps os (advance s256 n now g1 g2 p m).1 ∧ of_pc os (advance s256 n now g1 g2 p m).2.
Proof.
  destruct m as [co to re is bo pa ta]. intros [H1 H2] Hp. cbn [m_codes m_tokens] in *.
  assert (D1 : ∀ x k a, delete x co !! k = Some a → of_code os a) by (intros x k a [_ H]%lookup_delete_Some; by eapply H1).
  assert (D2 : ∀ x k i, delete x to !! k = Some i → of_info os i) by (intros x k i [_ H]%lookup_delete_Some; by eapply H2).
  destruct p as [code a|q code|b i tok rt|b i tok rt|rt|rt old|rt old i|rt i|t|t|a|t|r]; cbn [advance].
  - split; [|done]. split; cbn; [|done]. intros k a' [[-> ->]|[_ H]]%lookup_insert_Some; [done|by eapply H1].
  - destruct (co !! code) as [a|] eqn:E; [|done]. destruct (checks s256 q a now); [split; [|done]; split; cbn; eauto|].
    split; [split; cbn; eauto|]. exact (H1 _ _ E).
  - split; [|done]. split; cbn; [done|]. intros k i' [[-> ->]|[_ H]]%lookup_insert_Some; [done|by eapply H2].
  - done.
  - by destruct (re !! rt).
  - destruct (to !! old) as [i|] eqn:E; [|done]. split; [done|]. exact (H2 _ _ E).
  - split; [|done]. split; cbn; [done|eauto].
  - done.
  - destruct (to !! t); [|done]. split; [|done]. split; cbn; [done|eauto].
  - destruct (re !! t); done.
  - split; [|done]. split; cbn; [done|eauto].
  - destruct (to !! t) as [i|] eqn:E; [|done]. destruct (i_exp i <? now); [done|]. split; [done|]. exact (H2 _ _ E).
  - done.
Qed.

Lemma begin_origin os c g1 g2 now : of_pc (os ++ [OStart c g1 g2 now]) (begin c g1 g2 now).
Proof.
  assert (Hin : OStart c g1 g2 now ∈ os ++ [OStart c g1 g2 now]) by (apply elem_of_app; right; by left).
  destruct c as [cl u r sc ch me|q|cl u sc|rt|t|t]; cbn [begin]; try done.
  - left. by exists r, ch, me, g1, g2, now.
  - destruct (q_grant q); try done. by destruct (q_code q).
  - right. by exists g1, g2, now.
Qed.

Lemma origin_run s256 os : of_maps os (pv_maps (o_run s256 os)) ∧ ∀ n c p, pv_calls (o_run s256 os) !! n = Some (c, p) → of_pc os p.
Proof.
  induction os as [|o os IH] using rev_ind.
  { split; [split; intros k x Hx; cbn in Hx; by rewrite lookup_empty in Hx|by intros []]. }
  destruct IH as [Hm Hc]. rewrite run_snoc.
  assert (Keep : of_maps (os ++ [o]) (pv_maps (o_run s256 os)) ∧ ∀ n c p, pv_calls (o_run s256 os) !! n = Some (c, p) → of_pc (os ++ [o]) p).
  { split; [by apply of_maps_mono|]. intros n c p H. eapply of_pc_mono, Hc, H. }
  destruct o as [c g1 g2 now|n now g1 g2]; cbn [o_step].
  - cbn [pv_maps pv_calls]. split; [apply Keep|]. intros k c' p. rewrite lookup_app_Some. intros [H|[_ H]]; [by eapply Keep|].
    apply list_lookup_singleton_Some in H as [_ [= <- <-]]. apply begin_origin.
  - destruct (pv_calls (o_run s256 os) !! n) as [[c p]|] eqn:En; [|exact Keep].
    destruct (wants p) as [[l md]|]; [|exact Keep]. destruct (available _ _ _ _); [|exact Keep].
    destruct Keep as [Km Kc]. destruct (advance_origin s256 _ n now g1 g2 p _ Km (Kc _ _ _ En)) as [A1 A2].
    destruct (advance s256 n now g1 g2 p (pv_maps (o_run s256 os))) as [m' p']. cbn [fst snd pv_maps pv_calls] in *.
    split; [done|]. intros k c' q [[-> [= -> ->]]|[_ H]]%lookup_insert_calls; [done|by eapply Kc].
Qed.

Lemma info_origin s256 os n t i : returned (o_run s256 os) n (CValidate t) (RInfo i) → of_info os i.
Proof. intros H. destruct (origin_run s256 os) as [_ Hc]. exact (Hc _ _ _ H). Qed.

(** *** Trees that let in bearer tokens only *)
Lemma tokens_tree o m a x : tokens_only m → authenticate o m a = inl x → by_token o a x.
Proof.
  intros (Hf & Hc & Ha). revert x. induction m as [r| |m s b IH|l b IH|f r] using middleware_ind'; intros x; cbn [authenticate].
  - intros [(-> & -> & ->)|H]%bearer_spec; [|done]. exfalso. apply Ha. left. by left.
  - exfalso. apply Hc. by left.
  - rewrite scope_spec. intros [H _]. apply IH; [| | |done].
    + intros (f & r & H'). apply Hf. exists f, r. by right.
    + intros H'. apply Hc. by right.
    + intros [H'|[l H']]; apply Ha; [left; by right|right; exists l; by right].
  - rewrite try_spec. intros [(i & H & _)|(_ & -> & ->)].
    + rewrite list_lookup_fmap in H. destruct (l !! i) as [m|] eqn:Em; [|done]. cbn in H. assert (authenticate o m a = inl x) as H' by congruence. apply elem_of_list_lookup_2 in Em. rewrite Forall_forall in IH.
      apply (IH m Em); [| | |done].
      * intros (f & r & H1). apply Hf. exists f, r. by eapply members_composite.
      * intros H1. apply Hc. by eapply members_composite.
      * intros [H1|[l' H1]]; apply Ha; [left; by eapply members_composite|right; exists l'; by eapply members_composite].
    + exfalso. apply Ha. right. exists l. by left.
  - intros _. exfalso. apply Hf. exists f, r. by left.
Qed.

(** *** Calls stay where they are, and stay returned *)
Lemma calls_step s256 s o n c p : pv_calls s !! n = Some (c, p) →
  ∃ p', pv_calls (o_step s256 s o) !! n = Some (c, p') ∧ (∀ r, p = PDone r → p' = PDone r).
Proof.
  intros Hn. destruct o as [c' g1 g2 now|k now g1 g2]; cbn [o_step].
  - exists p. cbn. rewrite lookup_app_l_Some with (x := (c, p)) by done. done.
  - destruct (pv_calls s !! k) as [[c' q]|] eqn:Ek; [|by exists p].
    destruct (wants q) as [[l md]|] eqn:Ew; [|by exists p]. destruct (available _ _ _ _); [|by exists p].
    destruct (advance s256 k now g1 g2 q (pv_maps s)) as [m' q']. cbn [pv_calls].
    destruct (decide (k = n)) as [->|Hne].
    + rewrite Ek in Hn. injection Hn as -> ->. exists q'. split.
      * apply list_lookup_insert. by eapply lookup_lt_Some.
      * intros r ->. done.
    + exists p. split; [|done]. by rewrite list_lookup_insert_ne.
Qed.
Lemma calls_kept s256 os os' n c p : pv_calls (o_run s256 os) !! n = Some (c, p) →
  ∃ p', pv_calls (o_run s256 (os ++ os')) !! n = Some (c, p') ∧ (∀ r, p = PDone r → p' = PDone r).
Proof.
  intros Hn. induction os' as [|o os' IH] using rev_ind; [rewrite app_nil_r; by exists p|].
  destruct IH as (p' & H1 & H2). rewrite app_assoc, run_snoc.
  destruct (calls_step s256 _ o n c p' H1) as (p2 & H3 & H4). exists p2. split; [done|]. intros r Hr. by apply H4, H2.
Qed.
Lemma returned_kept s256 os os' n c r : returned (o_run s256 os) n c r → returned (o_run s256 (os ++ os')) n c r.
Proof. intros H. destruct (calls_kept s256 os os' n c _ H) as (p' & H1 & H2). unfold returned. by rewrite H1, (H2 r eq_refl). Qed.

(** The [n]th call was started somewhere. *)
Lemma calls_started s256 os n c p : pv_calls (o_run s256 os) !! n = Some (c, p) →
  ∃ a g1 g2 t b, os = a ++ OStart c g1 g2 t :: b ∧ calls_of s256 a = n.
Proof.
  revert p. induction os as [|o os IH] using rev_ind; intros p; [by destruct n|].
  rewrite run_snoc. intros Hn.
  assert (Old : ∀ q, pv_calls (o_run s256 os) !! n = Some (c, q) → ∃ a g1 g2 t b, os ++ [o] = a ++ OStart c g1 g2 t :: b ∧ calls_of s256 a = n).
  { intros q (a & g1 & g2 & t & b & -> & H)%IH. exists a, g1, g2, t, (b ++ [o]). split; [by rewrite <- app_assoc|done]. }
  destruct o as [c' g1 g2 now|k now g1 g2]; cbn [o_step] in Hn.
  - cbn in Hn. rewrite lookup_app_Some in Hn. destruct Hn as [Hn|[Hl Hn]]; [by eapply Old|].
    apply list_lookup_singleton_Some in Hn as [Hz [= <- <-]]. exists os, g1, g2, now, []. split; [done|]. unfold calls_of. lia.
  - destruct (pv_calls (o_run s256 os) !! k) as [[c' q]|] eqn:Ek; [|by eapply Old].
    destruct (wants q) as [[l md]|]; [|by eapply Old]. destruct (available _ _ _ _); [|by eapply Old].
    destruct (advance s256 k now g1 g2 q (pv_maps (o_run s256 os))) as [m' q']. cbn [pv_calls] in Hn.
    apply lookup_insert_calls in Hn as [[-> [= -> ->]]|[_ Hn]]; [by eapply Old|by eapply Old].
Qed.
Lemma calls_mono s256 a b : (calls_of s256 a <= calls_of s256 (a ++ b))%nat.
Proof.
  unfold calls_of. induction b as [|o b IH] using rev_ind; [by rewrite app_nil_r|]. rewrite app_assoc, run_snoc.
  etrans; [exact IH|]. destruct o as [c' g1 g2 now|k now g1 g2]; cbn [o_step]; [cbn; rewrite app_length; lia|].
  destruct (pv_calls _ !! k) as [[c' q]|]; [|done]. destruct (wants q) as [[l md]|]; [|done]. destruct (available _ _ _ _); [|done].
  destruct (advance _ _ _ _ _ _ _) as [m' q']. cbn. by rewrite insert_length.
Qed.

(** A call that is at least as late as the end of [a] was started after it. *)
Lemma started_after s256 a b n c p : (calls_of s256 a <= n)%nat → pv_calls (o_run s256 (a ++ b)) !! n = Some (c, p) →
  ∃ b1 g1 g2 t b2, b = b1 ++ OStart c g1 g2 t :: b2 ∧ calls_of s256 (a ++ b1) = n.
Proof.
  intros Hk (a' & g1 & g2 & t & b' & E & Hn)%calls_started.
  destruct (app_eq_inv _ _ _ _ E) as [(k & -> & Ek)|(k & -> & Ek)].
  - destruct k as [|o k].
    + cbn [app] in Ek. exists [], g1, g2, t, b'. rewrite !app_nil_r in *. done.
    + injection Ek as <- ->. exfalso.
      assert (calls_of s256 (a' ++ [OStart c g1 g2 t]) = S (calls_of s256 a')).
      { unfold calls_of. rewrite run_snoc. cbn. rewrite app_length. cbn. lia. }
      pose proof (calls_mono s256 (a' ++ [OStart c g1 g2 t]) k) as Hm. rewrite <- app_assoc in Hm. cbn [app] in Hm. lia.
  - exists k, g1, g2, t, b'. done.
Qed.

(** A validation that succeeds and is later than the issue ran within an hour of it. *)
Lemma expired_any s256 os os' k c t rt sc T n i : fresh_gens (os ++ os') → returned (o_run s256 os) k c (RToken t rt sc) → (∀ o, o ∈ os → clock o <= T) →
  (calls_of s256 os <= n)%nat → returned (o_run s256 (os ++ os')) n (CValidate t) (RInfo i) →
  ∃ now g1 g2, ORun n now g1 g2 ∈ os' ∧ now <= T + 3600.
Proof.
  intros Hf Hk HT Hn Hr. pose proof (fresh_app _ _ Hf) as Hf0. destruct (token_born s256 os k c t rt sc Hf0 Hk) as [[j Hj] _].
  destruct (proj1 (clocks_run s256 os) _ _ Hj) as (o & Ho & Ee). specialize (HT o Ho).
  assert (Hj' : m_born (pv_maps (o_run s256 (os ++ os'))) !! t = Some j) by (eapply lookup_weaken; [exact Hj|apply g_born, run_grows, Hf]).
  pose proof (proj1 (full_run s256 _ Hf) _ _ _ Hr) as Hok. cbn in Hok. destruct Hok as (t' & [= <-] & Hi). rewrite Hj' in Hi. simplify_eq.
  pose proof (proj2 (clocks_run s256 _) _ _ _ Hr) as Hc. cbn in Hc. destruct Hc as (os1 & now & g1 & g2 & os2 & E & Hlt & Hle). exists now, g1, g2. split; [|lia].
  destruct (app_eq_inv _ _ _ _ E) as [(x & -> & Ex)|(x & -> & Ex)].
  - destruct x as [|y x]; [cbn in Ex; rewrite <- Ex; by left|]. injection Ex as <- ->.
    pose proof (calls_mono s256 os1 (ORun n now g1 g2 :: x)). unfold calls_of in *. lia.
  - rewrite Ex. apply elem_of_app. right. by left.
Qed.
