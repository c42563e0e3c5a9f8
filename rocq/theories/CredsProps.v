(** Theorems about AuthInfo as JSON. *)
From stdpp Require Import strings list.
From Verif Require Import TextLib JsonLib SerdeLib TypesModel OAuthModel AuthModel CredsModel CredsSpec.

Lemma auth_info_ok : ty_ok t_auth_info.
Proof. repeat constructor. Qed.
Lemma reserved_known k : known auth_fields k = true ↔ k ∈ reserved.
Proof. unfold known. rewrite bool_decide_eq_true. done. Qed.
Definition named (a : creds) : list (list N * json) :=
  (lit "scheme", scheme_json (cr_scheme a)) :: put (lit "token") (JStr <$> cr_token a) (put (lit "oauth") (cr_oauth a) []).
Lemma named_keys a k : k ∈ (named a).*1 → k ∈ reserved.
Proof.
  unfold named, reserved. destruct (cr_token a), (cr_oauth a); cbn [put fmap list_fmap option_fmap option_map fst]; rewrite ?elem_of_cons, ?elem_of_nil; naive_solver.
Qed.
Lemma named_nodup a : NoDup (named a).*1.
Proof. unfold named. destruct (cr_token a), (cr_oauth a); cbn [put fmap list_fmap option_fmap option_map fst]; by apply (bool_decide_unpack _); vm_compute. Qed.
Lemma scheme_back s : scheme_of (scheme_json s) = Some s.
Proof. by destruct s. Qed.
Lemma scheme_typed s : is_of t_scheme (scheme_json s).
Proof.
  destruct s; cbn [scheme_json t_scheme is_of]; [left; eexists; split; [done|]; by apply (bool_decide_unpack _); vm_compute..|].
  right. eexists _, _. split; [done|]. left. split; [done|]. by eexists.
Qed.
Lemma oauth_not_null o : is_of t_oauth_info o → o ≠ JNull.
Proof. intros (? & ? & -> & _). done. Qed.
Lemma creds_typed a : creds_ok a → (∀ k, k ∈ (cr_params a).*1 → k ∉ reserved) → is_of t_auth_info (JObj (named a ++ cr_params a)).
Proof.
  intros [Hn Ho] Hk. exists (named a), (cr_params a). split; [done|]. split.
  - unfold named, auth_fields. cbn [req opt layout]. eexists _, _. split; [done|]. split; [apply scheme_typed|].
    assert (layout is_of [opt "oauth" t_oauth_info] (put (lit "oauth") (cr_oauth a) [])) as L.
    { cbn [opt layout]. destruct (cr_oauth a) as [o|]; [|by left]. right. exists o, []. split; [done|]. split; [by apply oauth_not_null, Ho|]. split; [by apply Ho|done]. }
    destruct (cr_token a) as [t|]; cbn [fmap option_fmap option_map put]; [right|left; exact L].
    eexists _, _. split; [done|]. split; [done|]. split; [by eexists|exact L].
  - split; [done|]. exact Hk.
Qed.
Lemma flat a : creds_ok a → (∀ k, k ∈ (cr_params a).*1 → k ∉ reserved) → creds_json a = JObj (named a ++ cr_params a).
Proof.
  intros [Hn _] Hk. unfold creds_json. fold (named a). rewrite obj_of_id; [done|]. rewrite fmap_app. apply NoDup_app. split; [apply named_nodup|]. split; [|done].
  intros k H1 H2. by apply (Hk k H2), (named_keys a).
Qed.
Lemma rest_app l1 l2 : Forall (λ kv, known auth_fields kv.1 = true) l1 → Forall (λ kv, known auth_fields kv.1 = false) l2 → rest_of Flatten auth_fields (l1 ++ l2) = l2.
Proof.
  intros H1 H2. cbn [rest_of]. rewrite filter_app. assert (filter (λ kv : list N * json, known auth_fields kv.1 = false) l1 = []) as ->.
  { induction H1 as [|x l Hx H1 IH]; [done|]. rewrite filter_cons_False; [done|congruence]. }
  cbn [app]. induction H2 as [|x l Hx H2 IH]; [done|]. rewrite filter_cons_True by done. by rewrite IH.
Qed.

(** ** C213 *)
(** An AuthInfo is read back as it was written exactly if none of its parameters is named like a field. *)
Theorem C213_survives_partial : ∀ a, creds_ok a → creds_of (creds_json a) = Some a ↔ ∀ k, k ∈ (cr_params a).*1 → k ∉ reserved.
Proof.
  intros a Ha. split.
  - unfold creds_of. destruct (decode _ _) as [[]|]; try done. case_match; [|done]. intros E. injection E as <-. cbn [cr_params].
    intros k (kv & -> & Hk)%elem_of_list_fmap. cbn [rest_of] in Hk. apply elem_of_list_filter in Hk as [Hk _]. rewrite <-reserved_known. by rewrite Hk.
  - intros Hk. rewrite flat by done. unfold creds_of. rewrite (decode_is_of _ auth_info_ok _ (creds_typed a Ha Hk)).
    assert (∀ n, n ∈ reserved → assoc n (named a ++ cr_params a) = assoc n (named a)) as A.
    { intros n Hr. rewrite assoc_app. destruct (assoc n (named a)); [done|]. apply assoc_not_in. intros H. by apply (Hk n). }
    rewrite !A by (by apply (bool_decide_unpack _); vm_compute).
    assert (assoc (lit "scheme") (named a) = Some (scheme_json (cr_scheme a))) as -> by done. cbn [mbind option_bind]. rewrite scheme_back.
    assert (assoc (lit "token") (named a) = JStr <$> cr_token a) as -> by (unfold named; destruct (cr_token a), (cr_oauth a); by vm_compute).
    assert (assoc (lit "oauth") (named a) = cr_oauth a) as -> by (unfold named; destruct (cr_token a), (cr_oauth a); by vm_compute).
    rewrite rest_app.
    + destruct a as [s [t|] o ps]; done.
    + apply Forall_forall. intros kv H. apply reserved_known, (named_keys a), elem_of_list_fmap. by exists kv.
    + apply Forall_forall. intros kv H. apply not_true_iff_false. rewrite reserved_known. apply Hk, elem_of_list_fmap. by exists kv.
Qed.
Print Assumptions C213_survives_partial.
(** What the constructors make arrives: a bearer token in the header, no header and no requirement for anonymous use, the OAuth
    description as it was given. *)
Theorem C213_made : ∀ t o, is_of t_oauth_info o →
  (authorization_header <$> creds_of (creds_json (creds_bearer t)) = Some (Some (lit "Bearer " ++ t)) ∧ creds_required <$> creds_of (creds_json (creds_bearer t)) = Some true) ∧
  (authorization_header <$> creds_of (creds_json creds_none) = Some None ∧ creds_required <$> creds_of (creds_json creds_none) = Some false) ∧
  (cr_oauth <$> creds_of (creds_json (creds_oauth2 o)) = Some (Some o) ∧ authorization_header <$> creds_of (creds_json (creds_oauth2 o)) = Some None ∧
   creds_required <$> creds_of (creds_json (creds_oauth2 o)) = Some true).
Proof.
  intros t o Ho. assert (∀ a, cr_params a = [] → (∀ o, cr_oauth a = Some o → is_of t_oauth_info o) → creds_of (creds_json a) = Some a) as B.
  { intros a Ha Hoa. apply C213_survives_partial; [split; [rewrite Ha; constructor|done]|rewrite Ha]. intros k Hk. by apply elem_of_nil in Hk. }
  rewrite !B; [|done|..]; [|intros o' E; injection E as <-; done|done|intros o' E; discriminate E|done|intros o' E; discriminate E]. split; [split; reflexivity|]. split; [split; reflexivity|]. split; [reflexivity|]. split; reflexivity.
Qed.
Print Assumptions C213_made.

Lemma assoc_insert {A} k k' (v : A) l : assoc k (obj_insert k' v l) = if decide (k = k') then Some v else assoc k l.
Proof.
  induction l as [|[k1 v1] l IH]; cbn [obj_insert assoc]; [by repeat case_decide|]. destruct (decide (k' = k1)) as [->|H1]; cbn [assoc].
  - by repeat case_decide.
  - rewrite IH. repeat case_decide; congruence.
Qed.
Lemma assoc_inserted {A} k (l m : list (list N * A)) : NoDup l.*1 →
  assoc k (fold_left (λ m kv, obj_insert kv.1 kv.2 m) l m) = match assoc k l with Some v => Some v | None => assoc k m end.
Proof.
  revert m. induction l as [|[k1 v1] l IH]; intros m Hn; [done|]. apply NoDup_cons in Hn as [Hk Hn]. cbn [fold_left fst snd]. rewrite IH by done.
  rewrite assoc_insert. cbn [assoc]. destruct (decide (k = k1)) as [->|]; [|done]. by rewrite assoc_not_in.
Qed.
Lemma written k a : NoDup (cr_params a).*1 →
  assoc k (obj_of (named a ++ cr_params a)) = match assoc k (cr_params a) with Some v => Some v | None => assoc k (named a) end.
Proof. intros Hn. unfold obj_of. rewrite fold_left_app, assoc_inserted by done. fold (obj_of (named a)). rewrite obj_of_id by apply named_nodup. done. Qed.
Lemma read_token (o : option (list N)) : field_dec (decode TStr) Opt (JStr <$> o) = Some (JStr <$> o).
Proof. by destruct o. Qed.
Lemma oauth_ok : ty_ok t_oauth_info.
Proof. repeat constructor. Qed.
Lemma scheme_ok : ty_ok t_scheme.
Proof. repeat constructor. Qed.

(** Refuted: a parameter named like a field takes its place.  What is read back has the scheme and the
    token that the parameters name, whatever the scheme and the token were. *)
Theorem C213_replaced_refuted : ∀ a s t, creds_ok a → lit "oauth" ∉ (cr_params a).*1 →
  assoc (lit "scheme") (cr_params a) = scheme_json <$> s → assoc (lit "token") (cr_params a) = JStr <$> t →
  ∃ b, creds_of (creds_json a) = Some b ∧ cr_scheme b = default (cr_scheme a) s ∧ cr_token b = match t with Some t => Some t | None => cr_token a end.
Proof.
  intros a s t [Hn Ho] Hx Hs Ht. unfold creds_json. fold (named a). unfold creds_of, t_auth_info. cbn [decode].
  set (l := obj_of (named a ++ cr_params a)).
  assert (assoc (lit "scheme") l = Some (scheme_json (default (cr_scheme a) s))) as E1.
  { unfold l. rewrite written, Hs by done. by destruct s. }
  assert (assoc (lit "token") l = JStr <$> match t with Some t => Some t | None => cr_token a end) as E2.
  { unfold l. rewrite written, Ht by done. destruct t; [done|]. cbn [fmap option_fmap option_map]. unfold named. destruct (cr_token a), (cr_oauth a); by vm_compute. }
  assert (assoc (lit "oauth") l = cr_oauth a) as E3.
  { unfold l. rewrite written, assoc_not_in by done. unfold named. destruct (cr_token a), (cr_oauth a); by vm_compute. }
  set (s' := default (cr_scheme a) s) in *. set (t' := match t with Some t => Some t | None => cr_token a end) in *.
  assert (dec_fields decode auth_fields l = Some ((lit "scheme", scheme_json s') :: put (lit "token") (JStr <$> t') (put (lit "oauth") (cr_oauth a) []))) as ->.
  { unfold auth_fields, req, opt. cbn [dec_fields]. rewrite E1, E2, E3, read_token. unfold field_dec at 1. rewrite (decode_is_of _ scheme_ok _ (scheme_typed s')). cbn [fmap option_fmap option_map put].
    assert (field_dec (decode t_oauth_info) Opt (cr_oauth a) = Some (cr_oauth a)) as ->; [|done].
    destruct (cr_oauth a) as [o|] eqn:E; [|done]. specialize (Ho o eq_refl). pose proof (decode_is_of _ oauth_ok _ Ho) as D. unfold field_dec. destruct o; try (rewrite D; done). by apply oauth_not_null in Ho. }
  cbn [fmap option_fmap option_map]. eexists. split.
  - assert (∀ r, assoc (lit "scheme") (((lit "scheme", scheme_json s') :: put (lit "token") (JStr <$> t') (put (lit "oauth") (cr_oauth a) [])) ++ r) = Some (scheme_json s')) as -> by done.
    cbn [mbind option_bind]. rewrite scheme_back. reflexivity.
  - cbn [cr_scheme cr_token]. split; [done|]. rewrite assoc_app. destruct t' as [t1|]; [done|].
    assert (assoc (lit "token") ((lit "scheme", scheme_json s') :: put (lit "token") (JStr <$> (None : option (list N))) (put (lit "oauth") (cr_oauth a) [])) = None) as -> by (destruct (cr_oauth a); by vm_compute).
    rewrite assoc_not_in; [done|]. intros (kv & Hkv & Hk)%elem_of_list_fmap. cbn [rest_of] in Hk. apply elem_of_list_filter in Hk as [Hk _]. rewrite <-Hkv in Hk. by vm_compute in Hk.
Qed.
Print Assumptions C213_replaced_refuted.
(** What is read back has the same header and the same answer to is_required if it survives (C213_survives_partial);
    otherwise the header of a bearer token may carry another token, and credentials may cease to be required. *)
Theorem C213_header_refuted : ∀ a t, creds_ok a → lit "oauth" ∉ (cr_params a).*1 → lit "scheme" ∉ (cr_params a).*1 → (lit "token", JStr t) ∈ cr_params a →
  cr_scheme a = SBearer → authorization_header <$> creds_of (creds_json a) = Some (Some (lit "Bearer " ++ t)).
Proof.
  intros a t Ha Hx Hs Ht Hb. assert (assoc (lit "token") (cr_params a) = Some (JStr t)) as E.
  { destruct Ha as [Hn _]. clear -Hn Ht. induction (cr_params a) as [|[k v] l IH]; [by apply elem_of_nil in Ht|]. apply NoDup_cons in Hn as [Hk Hn].
    apply elem_of_cons in Ht as [E|Ht]; cbn [assoc].
    - apply pair_equal_spec in E as [<- <-]. by rewrite decide_True.
    - rewrite decide_False; [by apply IH|]. intros <-. apply Hk, elem_of_list_fmap. by exists (lit "token", JStr t). }
  destruct (C213_replaced_refuted a None (Some t) Ha Hx) as (b & -> & Hs' & Ht'); [by rewrite assoc_not_in|done|].
  cbn [fmap option_fmap option_map]. f_equal. unfold authorization_header. cbn [default from_option] in Hs'. rewrite Hs', Ht'. unfold Datatypes.id. by rewrite Hb.
Qed.
Print Assumptions C213_header_refuted.
Theorem C213_required_refuted : ∀ a, creds_ok a → lit "oauth" ∉ (cr_params a).*1 → lit "token" ∉ (cr_params a).*1 → assoc (lit "scheme") (cr_params a) = Some (JStr (lit "none")) →
  creds_required <$> creds_of (creds_json a) = Some false.
Proof.
  intros a Ha Hx Ht Hs. destruct (C213_replaced_refuted a (Some SNone) None Ha Hx) as (b & -> & Hs' & Ht'); [done|by rewrite assoc_not_in|].
  cbn [fmap option_fmap option_map]. f_equal. unfold creds_required. by rewrite Hs'.
Qed.
Print Assumptions C213_required_refuted.

Definition granted : creds := MkCreds SBearer (Some (lit "good")) None [(lit "realm", JStr (lit "r")); (lit "n", JInt 3)].
Definition tricked : creds := MkCreds SBearer (Some (lit "good")) None [(lit "realm", JStr (lit "r")); (lit "token", JStr (lit "evil"))].
Example C213_example :
  creds_ok granted ∧ (∀ k, k ∈ (cr_params granted).*1 → k ∉ reserved) ∧ creds_of (creds_json granted) = Some granted ∧
  creds_ok tricked ∧ lit "oauth" ∉ (cr_params tricked).*1 ∧ creds_of (creds_json tricked) = Some (MkCreds SBearer (Some (lit "evil")) None [(lit "realm", JStr (lit "r"))]).
Proof.
  split. { split; [by apply (bool_decide_unpack _); vm_compute|done]. }
  split. { apply Forall_forall. repeat (apply Forall_cons; split); [by apply (bool_decide_unpack _); vm_compute..|by apply Forall_nil_2]. }
  split; [by vm_compute|]. split. { split; [by apply (bool_decide_unpack _); vm_compute|done]. }
  split; [by apply (bool_decide_unpack _); vm_compute|by vm_compute].
Qed.
