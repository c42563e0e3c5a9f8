(** Lemmas about authentication. *)
From stdpp Require Import strings list.
From Verif Require Import TextLib JsonLib SerdeLib OAuthModel AuthModel AuthSpec.

Lemma middleware_ind' (P : middleware → Prop) :
  (∀ r, P (MBearer r)) → P MClient → (∀ m s b, P m → P (MScope m s b)) → (∀ l b, Forall P l → P (MComposite l b)) → (∀ f r, P (MOther f r)) → ∀ m, P m.
Proof.
  intros H1 H2 H3 H4 H5. fix IH 1. intros [r| |m s b|l b|f r]; [apply H1|apply H2|apply H3, IH|apply H4|apply H5]. induction l as [|m l IHl]; constructor; [apply IH|apply IHl].
Qed.
Lemma has_scope_spec x s : has_scope x s = true ↔ s ∈ x_scopes x.
Proof.
  unfold has_scope. rewrite existsb_exists. split.
  - intros (y & Hy & H%bool_decide_eq_true). subst. by apply elem_of_list_In.
  - intros H. exists s. split; [by apply elem_of_list_In|by apply bool_decide_eq_true].
Qed.
Lemma has_all_spec x l : has_all_scopes x l = true ↔ ∀ s, s ∈ l → s ∈ x_scopes x.
Proof. unfold has_all_scopes. rewrite forallb_forall. by setoid_rewrite has_scope_spec; setoid_rewrite <- elem_of_list_In. Qed.
Lemma has_any_spec x l : has_any_scope x l = true ↔ ∃ s, s ∈ l ∧ s ∈ x_scopes x.
Proof. unfold has_any_scope. rewrite existsb_exists. by setoid_rewrite has_scope_spec; setoid_rewrite <- elem_of_list_In. Qed.
Lemma bearer_spec o r a x : bearer o r a = inl x ↔ (a = None ∧ r = false ∧ x = anonymous) ∨ by_token o a x.
Proof.
  unfold bearer, by_token. destruct a as [u|].
  - destruct (decide (u_scheme u = SBearer)) as [Hs|Hs]; [|split; [done|intros [(? & _)|(u' & t & i & [= <-] & H & _)]; congruence]].
    destruct (u_token u) as [t|] eqn:Et; [|split; [done|intros [(? & _)|(u' & t & i & [= <-] & H & H2 & _)]; congruence]].
    destruct (or_validate o t) as [i|] eqn:Ei; split; try done.
    + intros [= <-]. right. by exists u, t, i.
    + intros [(? & _)|(u' & t' & i' & [= <-] & _ & E & E' & ->)]; [done|]. congruence.
    + intros [(? & _)|(u' & t' & i' & [= <-] & _ & E & E' & ->)]; [done|]. congruence.
  - destruct r; split; try done.
    + intros [(_ & ? & _)|(u & ? & ? & ? & _)]; done.
    + intros [= <-]. by left.
    + by intros [(_ & _ & ->)|(u & ? & ? & ? & _)].
Qed.
Lemma client_spec o a x : client_credentials o a = inl x ↔ by_secret o a x.
Proof.
  unfold client_credentials, by_secret. destruct a as [u|]; [|split; [done|by intros (? & ? & ? & ? & ? & _)]].
  destruct (param "client_id" u) as [id|] eqn:E1; [|split; [done|intros (? & ? & ? & ? & [= <-] & ? & _); congruence]].
  destruct (param "client_secret" u) as [s|] eqn:E2; [|split; [done|intros (? & ? & ? & ? & [= <-] & ? & ? & _); congruence]].
  destruct (or_client o id) as [[c|]|] eqn:E3; [|split; [done|intros (? & ? & ? & ? & [= <-] & ? & ? & ? & _); congruence]..].
  destruct (decide (o_secret c = Some s)) as [H|H]; split; try done.
  - intros [= <-]. by exists u, id, s, c.
  - intros (? & ? & ? & ? & [= <-] & ? & ? & ? & ? & ->). congruence.
  - intros (? & ? & ? & ? & [= <-] & ? & ? & ? & ? & ->). congruence.
Qed.
Lemma scope_spec r scopes all x : scope_check r scopes all = inl x ↔
  r = inl x ∧ if all then ∀ s, s ∈ scopes → s ∈ x_scopes x else ∃ s, s ∈ scopes ∧ s ∈ x_scopes x.
Proof.
  unfold scope_check. destruct r as [y|e]; [|split; [done|by intros [? _]]]. destruct all.
  - rewrite <- has_all_spec. destruct (has_all_scopes y scopes) eqn:E; split; [|by intros [[= ->] _]|done|intros [[= ->] ?]; congruence]. intros [= <-]. by rewrite E.
  - rewrite <- has_any_spec. destruct (has_any_scope y scopes) eqn:E; split; [|by intros [[= ->] _]|done|intros [[= ->] ?]; congruence]. intros [= <-]. by rewrite E.
Qed.
Lemma try_spec rs last any x : try_each rs last any = inl x ↔
  (∃ i, rs !! i = Some (inl x) ∧ ∀ j, (j < i)%nat → ∃ e, rs !! j = Some (inr e)) ∨ ((∀ r, r ∈ rs → ∃ e, r = inr e) ∧ any = false ∧ x = anonymous).
Proof.
  revert last. induction rs as [|[y|e] rs IH]; intros last; cbn [try_each].
  - destruct any; split; try done.
    + intros [(i & H & _)|(_ & ? & _)]; done.
    + intros [= <-]. right. split; [by intros ? ?%elem_of_nil|done].
    + intros [(i & H & _)|(_ & _ & ->)]; done.
  - split.
    + intros [= <-]. left. exists 0%nat. split; [done|lia].
    + intros [([|i] & H & Hj)|(H & _)]; [by cbn in H; simplify_eq| |].
      * destruct (Hj 0%nat) as [e He]; [lia|]. done.
      * destruct (H (inl y)) as [e He]; [by left|done].
  - rewrite IH. split.
    + intros [(i & H & Hj)|(H & H')]; [left|right].
      * exists (S i). split; [done|]. intros [|j] Hlt; [by eexists|]. apply Hj. lia.
      * split; [|done]. intros r [->|Hr]%elem_of_cons; [by eexists|by apply H].
    + intros [([|i] & H & Hj)|(H & H')]; [done|left|right].
      * exists i. split; [done|]. intros j Hlt. apply (Hj (S j)). lia.
      * split; [|done]. intros r Hr. apply H. by right.
Qed.
Lemma members_self m : m ∈ members m. Proof. destruct m; by left. Qed.
Lemma members_composite m l b y : m ∈ l → y ∈ members m → y ∈ members (MComposite l b).
Proof. intros Hm Hy. cbn. right. apply elem_of_list_In, in_concat. exists (members m). split; [by apply in_map, elem_of_list_In|by apply elem_of_list_In]. Qed.
(** Where a context can come from *)
Lemma tree_spec o m a x : authenticate o m a = inl x → by_token o a x ∨ by_secret o a x ∨ (x = anonymous ∧ lets_anonymous m) ∨ foreign m.
Proof.
  revert x. induction m as [r| |m s b IH|l b IH|f r] using middleware_ind'; intros x; cbn [authenticate].
  - intros [(-> & -> & ->)|H]%bearer_spec; [|by left]. right. right. left. split; [done|]. left. by left.
  - rewrite client_spec. auto.
  - rewrite scope_spec. intros [H _]. destruct (IH x H) as [?|[?|[[? [H1|[l H1]]]|(f & r & H1)]]]; [auto|auto| | |].
    + right. right. left. split; [done|]. left. by right.
    + right. right. left. split; [done|]. right. exists l. by right.
    + right. right. right. exists f, r. by right.
  - rewrite try_spec. intros [(i & H & _)|(_ & -> & ->)].
    + rewrite list_lookup_fmap in H. destruct (l !! i) as [m|] eqn:Em; [|done]. cbn in H. assert (authenticate o m a = inl x) as H' by congruence. apply elem_of_list_lookup_2 in Em. rewrite Forall_forall in IH.
      destruct (IH m Em x H') as [?|[?|[[? [H1|[l' H1]]]|(f & r & H1)]]]; [auto|auto| | |].
      * right. right. left. split; [done|]. left. by eapply members_composite.
      * right. right. left. split; [done|]. right. exists l'. by eapply members_composite.
      * right. right. right. exists f, r. by eapply members_composite.
    + right. right. left. split; [done|]. right. exists l. by left.
  - intros _. right. right. right. exists f, r. by left.
Qed.

(** *** Why a request is refused *)
Lemma client_failed o a : client_credentials o a = inr DProvider ↔ lookup_failed o a.
Proof.
  unfold client_credentials, lookup_failed. destruct a as [u|]; [|split; [done|by intros (? & ? & ? & ? & _)]].
  destruct (param "client_id" u) as [id|] eqn:E1; [|split; [done|intros (? & ? & ? & [= <-] & ? & _); congruence]].
  destruct (param "client_secret" u) as [s|] eqn:E2; [|split; [done|intros (? & ? & ? & [= <-] & ? & ? & _); congruence]].
  destruct (or_client o id) as [[c|]|] eqn:E3.
  - destruct (decide _); (split; [done|intros (? & ? & ? & [= <-] & ? & ? & ?); congruence]).
  - split; [done|intros (? & ? & ? & [= <-] & ? & ? & ?); congruence].
  - split; [|done]. intros _. by exists u, id, s.
Qed.
Lemma leaf_denials o m a e : (∃ r, m = MBearer r) ∨ m = MClient → authenticate o m a = inr e → (∃ why, e = DRequired why) ∨ (e = DProvider ∧ m = MClient ∧ lookup_failed o a).
Proof.
  intros [[r ->]| ->]; cbn [authenticate].
  - unfold bearer. repeat case_match; intros [= <-]; left; by eexists.
  - intros H. destruct e as [why| | |]; [left; by eexists| | |].
    + unfold client_credentials in H. repeat case_match; done.
    + right. split; [done|]. split; [done|]. by apply client_failed.
    + unfold client_credentials in H. repeat case_match; done.
Qed.
Lemma scope_denied r scopes all : scope_check r scopes all = inr DDenied ↔ r = inr DDenied ∨ ∃ x, r = inl x ∧ lacks x scopes all.
Proof.
  unfold scope_check, lacks. destruct r as [y|e]; [|split; [intros [= ->]; by left|by intros [[= ->]|(? & ? & _)]]]. destruct all.
  - destruct (has_all_scopes y scopes) eqn:E; split; try done.
    + intros [?|(x & [= <-] & s & Hs & Hn)]; [done|]. apply has_all_spec with (s := s) in E; done.
    + intros _. right. exists y. split; [done|]. unfold has_all_scopes in E. assert (Hn : ¬ Forall (λ s, has_scope y s = true) scopes).
      { intros Hf. rewrite (proj2 (forallb_forall (has_scope y) scopes)) in E; [done|]. intros s Hs%elem_of_list_In. by apply (proj1 (Forall_forall _ _) Hf). }
      apply not_Forall_Exists, Exists_exists in Hn as (s & Hs & Hn); [|intros s; apply _]. exists s. split; [done|]. intros H%has_scope_spec. by apply Hn.
  - destruct (has_any_scope y scopes) eqn:E; split; try done.
    + intros [?|(x & [= <-] & Hn)]; [done|]. apply has_any_spec in E as (s & Hs & Hin). by destruct (Hn s Hs).
    + intros _. right. exists y. split; [done|]. intros s Hs Hin. assert (has_any_scope y scopes = true) by (apply has_any_spec; eauto). congruence.
Qed.
Lemma try_last rs e last : (∀ r, r ∈ rs → ∃ e, r = inr e) → try_each rs last true = inr e → e = default (default (DRequired "Authentication failed") last) (list.last rs ≫= λ r, match r with inr e => Some e | _ => None end).
Proof.
  revert last. induction rs as [|[y|e'] rs IH]; intros lst H; cbn [try_each].
  - by intros [= <-].
  - destruct (H (inl y)) as [? ?]; [by left|done].
  - intros He. apply IH in He; [|intros r Hr; apply H; by right]. rewrite He. rewrite last_cons. destruct (list.last rs) as [r|] eqn:El; [|done].
    destruct (H r) as [e2 ->]; [right; by apply last_Some_elem_of|]. done.
Qed.
Lemma try_inr rs e last any : try_each rs last any = inr e → any = true ∧ ∀ r, r ∈ rs → ∃ e, r = inr e.
Proof.
  revert last. induction rs as [|[y|e'] rs IH]; intros lst; cbn [try_each].
  - destruct any; [|done]. intros _. split; [done|]. intros r Hr. by inversion Hr.
  - done.
  - intros He. apply IH in He as [-> He]. split; [done|]. intros r. rewrite elem_of_cons. intros [->|Hr]; [by eexists|by apply He].
Qed.
Lemma composite_denied o l any a e : authenticate o (MComposite l any) a = inr e → any = true ∧
  ((l = [] ∧ e = DRequired "Authentication failed") ∨ ∃ l' m, l = l' ++ [m] ∧ authenticate o m a = inr e).
Proof.
  cbn [authenticate]. intros H. pose proof (try_inr _ _ _ _ H) as [-> Hall]. split; [done|]. pose proof (try_last _ _ _ Hall H) as He. cbn [default] in He.
  destruct (decide (l = [])) as [->|Hne]; [by left|]. right. destruct (exists_last Hne) as (l' & m & ->). exists l', m. split; [done|].
  rewrite map_app in He, Hall. cbn [map] in He, Hall. rewrite last_snoc in He. destruct (Hall (authenticate o m a)) as [e2 E2]; [apply elem_of_app; right; by left|].
  rewrite E2 in He. cbn in He. congruence.
Qed.
Lemma tree_denied o m a e : authenticate o m a = inr e → (∃ why, e = DRequired why) ∨
  (e = DProvider ∧ MClient ∈ members m ∧ lookup_failed o a) ∨
  (e = DDenied ∧ ∃ inner scopes all x, MScope inner scopes all ∈ members m ∧ authenticate o inner a = inl x ∧ lacks x scopes all) ∨ foreign m.
Proof.
  induction m as [r| |m s b IH|l b IH|f r] using middleware_ind'; intros H.
  - destruct (leaf_denials o (MBearer r) a e) as [?|(-> & ? & ?)]; [left; by eexists|done|auto|done].
  - destruct (leaf_denials o MClient a e) as [?|(-> & ? & ?)]; [by right|done|auto|]. right. left. split; [done|]. split; [by left|done].
  - cbn [authenticate] in H. destruct (authenticate o m a) as [x|e'] eqn:E.
    + cbn [scope_check] in H. assert (e = DDenied) as -> by (repeat case_match; congruence). right. right. left. split; [done|].
      exists m, s, b, x. split; [by left|]. split; [done|]. assert (Hd : scope_check (inl x) s b = inr DDenied) by done. apply scope_denied in Hd as [?|(y & [= <-] & Hd)]; done.
    + cbn [scope_check] in H. injection H as ->. destruct (IH eq_refl) as [?|[(? & ? & ?)|[(? & i & sc & al & x & ? & ?)|(f & r & ?)]]]; [auto| | |].
      * right. left. split; [done|]. split; [by right|done].
      * right. right. left. split; [done|]. exists i, sc, al, x. split; [by right|done].
      * right. right. right. exists f, r. by right.
  - apply composite_denied in H as [-> [[-> ->]|(l' & m & -> & H)]]; [left; by eexists|]. rewrite Forall_forall in IH.
    assert (Hm : m ∈ l' ++ [m]) by (apply elem_of_app; right; by left).
    destruct (IH m Hm H) as [?|[(? & ? & ?)|[(? & i & sc & al & x & ? & ?)|(f & r & ?)]]]; [auto| | |].
    + right. left. split; [done|]. split; [by eapply members_composite|done].
    + right. right. left. split; [done|]. exists i, sc, al, x. split; [by eapply members_composite|done].
    + right. right. right. exists f, r. by eapply members_composite.
  - right. right. right. exists f, r. by left.
Qed.
