(** Theorems about client registrations. *)
From stdpp Require Import gmap strings list.
From Verif Require Import ListLib TextLib JsonLib SerdeLib OAuthModel FlowModel RegModel RegSpec.
From Verif Require CredsProps.

Lemma grant_back g : variant_of grant_of (JStr (grant_name g)) = Some g.
Proof. by destruct g. Qed.
Lemma rtype_back t : variant_of rtype_of (JStr (rtype_name t)) = Some t.
Proof. by destruct t. Qed.
Lemma mapM_back {A B} (f : B → option A) (g : A → B) l : (∀ a, f (g a) = Some a) → mapM f (g <$> l) = Some l.
Proof. intros H. apply mapM_fmap_Forall_Some, Forall_forall. intros a _. apply H. Qed.
(** What a document with given members is read as. *)
Lemma read_doc l id secret name redirects grants types scopes :
  assoc (lit "client_id") l = Some (JStr id) → assoc (lit "client_secret") l = JStr <$> secret → assoc (lit "client_name") l = Some (JStr name) →
  assoc (lit "redirect_uris") l = Some (JArr (JStr <$> redirects)) → assoc (lit "grant_types") l = Some (JArr ((λ g, JStr (grant_name g)) <$> grants)) →
  assoc (lit "response_types") l = Some (JArr ((λ t, JStr (rtype_name t)) <$> types)) → assoc (lit "scopes") l = Some (JArr (JStr <$> scopes)) →
  reg_of (JObj l) = Some (MkReg (MkClient id secret redirects types scopes) name grants (filter (λ kv, kv.1 ∉ reg_fields) l)).
Proof.
  intros E1 E2 E3 E4 E5 E6 E7. unfold reg_of. rewrite E1, E2, E3, E4, E5, E6, E7. cbn [mbind option_bind str_of list_of].
  assert (ostr_of (JStr <$> secret) = Some secret) as -> by (by destruct secret). cbn [mbind option_bind].
  rewrite (mapM_back str_of JStr) by done. cbn [mbind option_bind]. rewrite (mapM_back (variant_of grant_of) (λ g, JStr (grant_name g))) by apply grant_back. cbn [mbind option_bind]. rewrite (mapM_back (variant_of rtype_of) (λ t, JStr (rtype_name t))) by apply rtype_back. cbn [mbind option_bind].
  by rewrite (mapM_back str_of JStr) by done.
Qed.
Lemma named_nodup r : NoDup (reg_named r).*1.
Proof. unfold reg_named. destruct (o_secret (rg_client r)); cbn [put fmap list_fmap option_fmap option_map fst]; by apply (bool_decide_unpack _); vm_compute. Qed.
Lemma named_keys r k : k ∈ (reg_named r).*1 → k ∈ reg_fields.
Proof. unfold reg_named, reg_fields. destruct (o_secret (rg_client r)); cbn [put fmap list_fmap option_fmap option_map fst]; rewrite !elem_of_cons; tauto. Qed.
Lemma written k r : reg_ok r → assoc k (obj_of (reg_named r ++ rg_meta r)) = match assoc k (rg_meta r) with Some v => Some v | None => assoc k (reg_named r) end.
Proof. intros Hn. unfold obj_of. rewrite fold_left_app, CredsProps.assoc_inserted by done. fold (obj_of (reg_named r)). rewrite obj_of_id by apply named_nodup. done. Qed.
Lemma named_at r : let l := reg_named r in
  assoc (lit "client_id") l = Some (JStr (o_id (rg_client r))) ∧ assoc (lit "client_secret") l = JStr <$> o_secret (rg_client r) ∧ assoc (lit "client_name") l = Some (JStr (rg_name r)) ∧
  assoc (lit "redirect_uris") l = Some (JArr (JStr <$> o_redirects (rg_client r))) ∧ assoc (lit "grant_types") l = Some (JArr ((λ g, JStr (grant_name g)) <$> rg_grants r)) ∧
  assoc (lit "response_types") l = Some (JArr ((λ t, JStr (rtype_name t)) <$> o_types (rg_client r))) ∧ assoc (lit "scopes") l = Some (JArr (JStr <$> o_scopes (rg_client r))).
Proof. destruct r as [[i s re ty sc] n g m]. destruct s; cbv zeta; split_and!; by vm_compute. Qed.
Lemma flat r : reg_ok r → (∀ k, k ∈ (rg_meta r).*1 → no_field k) → obj_of (reg_named r ++ rg_meta r) = reg_named r ++ rg_meta r.
Proof.
  intros Hn Hk. rewrite obj_of_id; [done|]. rewrite fmap_app. apply NoDup_app. split; [apply named_nodup|]. split; [|done].
  intros k H1 H2. by apply (Hk k H2), (named_keys r).
Qed.
Lemma meta_part r l : (∀ k, k ∈ l.*1 → no_field k) → filter (λ kv : list N * json, kv.1 ∉ reg_fields) (reg_named r ++ l) = l.
Proof.
  intros Hk. rewrite filter_app. assert (∀ l' : list (list N * json), (∀ k, k ∈ l'.*1 → k ∈ reg_fields) → filter (λ kv : list N * json, kv.1 ∉ reg_fields) l' = []) as ->.
  { intros l' H. induction l' as [|x l' IH]; [done|]. rewrite filter_cons_False; [apply IH; intros k Hx; apply H; rewrite fmap_cons; by right|].
    intros Hx. apply Hx, H. rewrite fmap_cons. by left. }
  2: apply named_keys. cbn [app]. induction l as [|x l IH]; [done|]. rewrite filter_cons_True; [|apply Hk; rewrite fmap_cons; by left]. f_equal. apply IH. intros k Hx. apply Hk. rewrite fmap_cons. by right.
Qed.
Lemma reg_meta_of v r : reg_of v = Some r → ∃ l, v = JObj l ∧ rg_meta r = filter (λ kv, kv.1 ∉ reg_fields) l.
Proof.
  intros H. unfold reg_of in H. destruct v as [| | | | | |l]; try discriminate H. exists l. split; [done|].
  repeat (apply bind_Some in H as (? & _ & H)). injection H as <-. done.
Qed.

(** ** C240 *)
(** A registration is read back as it was written exactly if none of its metadata is named like a field. *)
Theorem C240_survives_partial : ∀ r, reg_ok r → reg_of (reg_json r) = Some r ↔ ∀ k, k ∈ (rg_meta r).*1 → no_field k.
Proof.
  intros r Hr. split.
  - intros H. apply reg_meta_of in H as (l & _ & E). rewrite E. intros k (kv & -> & Hk)%elem_of_list_fmap. by apply elem_of_list_filter in Hk as [Hk _].
  - intros Hk. unfold reg_json. rewrite flat by done. destruct (named_at r) as (E1 & E2 & E3 & E4 & E5 & E6 & E7).
    assert (∀ n, n ∈ reg_fields → assoc n (reg_named r ++ rg_meta r) = assoc n (reg_named r)) as A.
    { intros n Hn. rewrite assoc_app. destruct (assoc n (reg_named r)); [done|]. apply assoc_not_in. intros H. by apply (Hk n H). }
    erewrite read_doc by (rewrite A by (by apply (bool_decide_unpack _); vm_compute); eassumption). rewrite meta_part by done.
    by destruct r as [[] ? ? ?].
Qed.
Print Assumptions C240_survives_partial.

(** What is known of the members of a document that is accepted. *)
Lemma list_str v l : list_of str_of v = Some l → v = JArr (JStr <$> l).
Proof.
  destruct v as [| | | | |vs|]; try done. cbn [list_of]. intros H%mapM_Some. f_equal. induction H as [|x y vs l H _ IH]; [done|]. rewrite fmap_cons, IH.
  destruct x; try discriminate H. injection H as ->. done.
Qed.
Lemma str_str v t : str_of v = Some t → v = JStr t.
Proof. destruct v; try done. by intros [= ->]. Qed.
Lemma list_variant {A} (f : list N → option A) (g : A → list N) v l : (∀ t a, f t = Some a → t = g a) → list_of (variant_of f) v = Some l →
  ∀ ts, v = JArr (JStr <$> ts) → v = JArr ((λ a, JStr (g a)) <$> l).
Proof.
  intros Hf H ts ->. f_equal. cbn [list_of] in H. apply mapM_Some in H. revert l H. induction ts as [|t ts IH]; intros l H; rewrite ?fmap_cons in *; inversion H; subst; [done|].
  rewrite fmap_cons. cbn [variant_of] in *. erewrite <-Hf by eassumption. f_equal. by apply IH.
Qed.
Lemma grant_named t g : grant_of t = Some g → t = grant_name g.
Proof. unfold grant_of. repeat case_decide; intros Hx; try discriminate Hx; apply (inj Some) in Hx; subst g; assumption. Qed.
Lemma rtype_named t g : rtype_of t = Some g → t = rtype_name g.
Proof. unfold rtype_of. repeat case_decide; intros Hx; try discriminate Hx; apply (inj Some) in Hx; subst g; assumption. Qed.
Lemma reg_doc l r : reg_of (JObj l) = Some r →
  assoc (lit "client_id") l = Some (JStr (o_id (rg_client r))) ∧ ostr_of (assoc (lit "client_secret") l) = Some (o_secret (rg_client r)) ∧ assoc (lit "client_name") l = Some (JStr (rg_name r)) ∧
  assoc (lit "redirect_uris") l = Some (JArr (JStr <$> o_redirects (rg_client r))) ∧ (assoc (lit "grant_types") l ≫= list_of (variant_of grant_of)) = Some (rg_grants r) ∧
  (assoc (lit "response_types") l ≫= list_of (variant_of rtype_of)) = Some (o_types (rg_client r)) ∧ assoc (lit "scopes") l = Some (JArr (JStr <$> o_scopes (rg_client r))) ∧
  rg_meta r = filter (λ kv, kv.1 ∉ reg_fields) l.
Proof.
  intros H. unfold reg_of in H. apply bind_Some in H as (id & H1 & H). apply bind_Some in H as (se & H2 & H). apply bind_Some in H as (na & H3 & H). apply bind_Some in H as (re & H4 & H).
  apply bind_Some in H as (gr & H5 & H). apply bind_Some in H as (ty & H6 & H). apply bind_Some in H as (sc & H7 & H). apply (inj Some) in H. subst r. cbn [rg_client rg_name rg_grants rg_meta o_id o_secret o_redirects o_types o_scopes].
  apply bind_Some in H1 as (v1 & -> & ->%str_str). apply bind_Some in H3 as (v3 & -> & ->%str_str). apply bind_Some in H4 as (v4 & -> & ->%list_str). apply bind_Some in H7 as (v7 & -> & ->%list_str). done.
Qed.
Lemma assoc_filter k (l : list (list N * json)) : k ∉ reg_fields → assoc k (filter (λ kv, kv.1 ∉ reg_fields) l) = assoc k l.
Proof.
  intros Hk. induction l as [|[k1 v1] l IH]; [done|]. destruct (decide (k1 ∉ reg_fields)) as [H|H].
  - rewrite filter_cons_True by done. cbn [assoc]. by rewrite IH.
  - rewrite filter_cons_False by done. cbn [assoc]. rewrite decide_False; [done|]. intros ->. done.
Qed.
Lemma meta_ok l r : NoDup l.*1 → rg_meta r = filter (λ kv, kv.1 ∉ reg_fields) l → reg_ok r ∧ ∀ k, k ∈ (rg_meta r).*1 → no_field k.
Proof.
  intros Hn E. split.
  - unfold reg_ok. rewrite E. clear -Hn. induction l as [|x l IH]; [done|]. rewrite fmap_cons in Hn. apply NoDup_cons in Hn as [Hx Hn]. destruct (decide (x.1 ∉ reg_fields)) as [H|H].
    + rewrite filter_cons_True, fmap_cons by done. apply NoDup_cons. split; [|by apply IH]. intros (y & Ey & Hy)%elem_of_list_fmap. apply elem_of_list_filter in Hy as [_ Hy]. apply Hx, elem_of_list_fmap. by exists y.
    + rewrite filter_cons_False by done. by apply IH.
  - rewrite E. intros k (kv & -> & Hk)%elem_of_list_fmap. by apply elem_of_list_filter in Hk as [Hk _].
Qed.

(** A document that is accepted registers a client and is answered with the client that is registered: the id it gives, or a fresh
    one if it gives the empty one; the secret it gives, or a fresh one; everything else as the document has it. *)
Theorem C240_answer : ∀ l r g1 g2 m, NoDup l.*1 → reg_of (JObj l) = Some r → let id := match o_id (rg_client r) with [] => g1 | _ => o_id (rg_client r) end in
  ∃ l' r', endpoint (JObj l) g1 g2 m = (<[id := r']> m, Some (JObj l')) ∧ reg_of (JObj l') = Some r' ∧ assoc (lit "client_id") l = Some (JStr (o_id (rg_client r))) ∧
  assoc (lit "client_id") l' = Some (JStr id) ∧
  (∀ s, assoc (lit "client_secret") l = Some (JStr s) → assoc (lit "client_secret") l' = Some (JStr s)) ∧
  (assoc (lit "client_secret") l = None ∨ assoc (lit "client_secret") l = Some JNull → assoc (lit "client_secret") l' = Some (JStr g2)) ∧
  (∀ k, k ∉ [lit "client_id"; lit "client_secret"; lit "grant_types"; lit "response_types"] → assoc k l' = assoc k l) ∧
  (∀ k ts, k = lit "grant_types" ∨ k = lit "response_types" → assoc k l = Some (JArr (JStr <$> ts)) → assoc k l' = assoc k l).
Proof.
  intros l r g1 g2 m Hn Hr id. destruct (reg_doc l r Hr) as (D1 & D2 & D3 & D4 & D5 & D6 & D7 & Dm).
  set (r' := (register r g1 g2 m).2). assert (rg_meta r' = rg_meta r) as Em by done. rewrite <-Em in Dm. destruct (meta_ok l r' Hn Dm) as [Hok Hk].
  exists (reg_named r' ++ rg_meta r'), r'. destruct (named_at r') as (E1 & E2 & E3 & E4 & E5 & E6 & E7).
  assert (∀ n, n ∈ reg_fields → assoc n (reg_named r' ++ rg_meta r') = assoc n (reg_named r')) as A.
  { intros n Hf. rewrite assoc_app. destruct (assoc n (reg_named r')); [done|]. apply assoc_not_in. intros H. by apply (Hk n H). }
  assert (∀ n, n ∉ reg_fields → assoc n (reg_named r' ++ rg_meta r') = assoc n l) as B.
  { intros n Hf. rewrite assoc_app, (assoc_not_in n (reg_named r')); [|intros H; by apply Hf, (named_keys r')]. rewrite Dm. by apply assoc_filter. }
  split. { unfold endpoint. rewrite Hr. assert (register r g1 g2 m = (<[id := r']> m, r')) as -> by done. unfold reg_json. by rewrite flat. }
  split. { pose proof (proj2 (C240_survives_partial r' Hok) Hk) as S. unfold reg_json in S. by rewrite flat in S. }
  split; [done|]. split. { rewrite A by (by apply (bool_decide_unpack _); vm_compute). by rewrite E1. }
  split. { intros s Hs. rewrite A by (by apply (bool_decide_unpack _); vm_compute). rewrite E2. rewrite Hs in D2. cbn [ostr_of str_of fmap option_fmap option_map] in D2. apply (inj Some) in D2.
    change (o_secret (rg_client r')) with (Some (default g2 (o_secret (rg_client r)))). rewrite <-D2. done. }
  split. { intros Hs. rewrite A by (by apply (bool_decide_unpack _); vm_compute). rewrite E2. assert (None = o_secret (rg_client r)) as D2' by (destruct Hs as [Hs|Hs]; rewrite Hs in D2; cbn [ostr_of] in D2; by apply (inj Some) in D2). clear D2. rename D2' into D2.
    change (o_secret (rg_client r')) with (Some (default g2 (o_secret (rg_client r)))). rewrite <-D2. done. }
  split.
  - intros k Hk4. destruct (decide (k ∈ reg_fields)) as [Hf|Hf]; [|by apply B]. rewrite A by done. unfold reg_fields in Hf. rewrite !elem_of_cons in Hf. rewrite !not_elem_of_cons in Hk4. destruct Hk4 as (N1 & N2 & N3 & N4 & _).
    destruct Hf as [->|[->|[->|[->|[->|[->|[->|Hf]]]]]]]; try (exfalso; by (apply N1 || apply N2 || apply N3 || apply N4)); [by rewrite E3, D3|by rewrite E4, D4|by rewrite E7, D7|by apply elem_of_nil in Hf].
  - intros k ts [->| ->] Hts.
    + rewrite A by (by apply (bool_decide_unpack _); vm_compute). rewrite E5, Hts. f_equal. rewrite Hts in D5. cbn [mbind option_bind] in D5. change (rg_grants r') with (rg_grants r). symmetry. by eapply list_variant; [apply grant_named|..].
    + rewrite A by (by apply (bool_decide_unpack _); vm_compute). rewrite E6, Hts. f_equal. rewrite Hts in D6. cbn [mbind option_bind] in D6. change (o_types (rg_client r')) with (o_types (rg_client r)). symmetry. by eapply list_variant; [apply rtype_named|..].
Qed.
Print Assumptions C240_answer.
(** What is registered is what the provider of C103 registers. *)
Theorem C240_same : ∀ r g1 g2 m, rg_client <$> (register r g1 g2 m).1 = (register_client (rg_client r) g1 g2 (rg_client <$> m)).1 ∧ rg_client (register r g1 g2 m).2 = (register_client (rg_client r) g1 g2 (rg_client <$> m)).2.
Proof. intros [[id se re ty sc] na gr me] g1 g2 m. unfold register, register_client. cbn. split; [by rewrite fmap_insert|done]. Qed.
Print Assumptions C240_same.
(** False: an application that has no id yet leaves it out, as a registration request does (RFC 7591).  A document without a
    client_id, or without any of the other required members, is refused. *)
Theorem C240_required_refuted : ∀ l n g1 g2 m, n ∈ required → assoc n l = None → endpoint (JObj l) g1 g2 m = (m, None).
Proof.
  intros l n g1 g2 m Hn Hl. unfold endpoint. destruct (reg_of (JObj l)) as [r|] eqn:E; [|done]. exfalso. destruct (reg_doc l r E) as (D1 & _ & D3 & D4 & D5 & D6 & D7 & _).
  unfold required in Hn. rewrite !elem_of_cons in Hn. destruct Hn as [->|[->|[->|[->|[->|[->|Hn]]]]]]; [rewrite Hl in D1|rewrite Hl in D3|rewrite Hl in D4|rewrite Hl in D5|rewrite Hl in D6|rewrite Hl in D7|by apply elem_of_nil in Hn];
    [discriminate D1|discriminate D3|discriminate D4|discriminate D5|discriminate D6|discriminate D7].
Qed.
Print Assumptions C240_required_refuted.
(** False: an application can be registered as a public one, without a secret.  Whatever the document says, its client gets one. *)
Theorem C240_public_refuted : ∀ v g1 g2 m m' w, endpoint v g1 g2 m = (m', Some w) → ∃ id r s, m' = <[id := r]> m ∧ o_secret (rg_client r) = Some s.
Proof. intros v g1 g2 m m' w H. unfold endpoint in H. destruct (reg_of v) as [r|]; [|done]. unfold register in H. apply pair_equal_spec in H as [<- _]. eexists _, _, _. split; [reflexivity|]. reflexivity. Qed.
Print Assumptions C240_public_refuted.
(** False: metadata named like a field takes its place.  A client whose metadata has a client_id or redirect_uris is read back with
    that id and those uris. *)
Theorem C240_replaced_refuted : ∀ r i us, reg_ok r → (∀ k, k ∈ (rg_meta r).*1 → k = lit "client_id" ∨ k = lit "redirect_uris" ∨ no_field k) →
  assoc (lit "client_id") (rg_meta r) = JStr <$> i → assoc (lit "redirect_uris") (rg_meta r) = (λ us, JArr (JStr <$> us)) <$> us →
  ∃ b, reg_of (reg_json r) = Some b ∧ o_id (rg_client b) = default (o_id (rg_client r)) i ∧ o_redirects (rg_client b) = default (o_redirects (rg_client r)) us ∧
    o_secret (rg_client b) = o_secret (rg_client r) ∧ o_scopes (rg_client b) = o_scopes (rg_client r).
Proof.
  intros r i us Hr Hk Hi Hu. destruct (named_at r) as (E1 & E2 & E3 & E4 & E5 & E6 & E7).
  assert (∀ n, n ∈ reg_fields → n ≠ lit "client_id" → n ≠ lit "redirect_uris" → assoc n (obj_of (reg_named r ++ rg_meta r)) = assoc n (reg_named r)) as A.
  { intros n Hf N1 N2. rewrite written, assoc_not_in; [done| |done]. intros H. by destruct (Hk n H) as [?|[?|H']]; [..|apply H']. }
  eexists. split; [|split; [|split; [|split]]]; [unfold reg_json; apply read_doc|..].
  - rewrite written, Hi by done. instantiate (1 := default (o_id (rg_client r)) i). destruct i; [done|]. by rewrite E1.
  - rewrite A by (by apply (bool_decide_unpack _); vm_compute). exact E2.
  - rewrite A by (by apply (bool_decide_unpack _); vm_compute). exact E3.
  - rewrite written, Hu by done. instantiate (1 := default (o_redirects (rg_client r)) us). destruct us; [done|]. by rewrite E4.
  - rewrite A by (by apply (bool_decide_unpack _); vm_compute). exact E5.
  - rewrite A by (by apply (bool_decide_unpack _); vm_compute). exact E6.
  - rewrite A by (by apply (bool_decide_unpack _); vm_compute). exact E7.
  - done.
  - done.
  - done.
  - done.
Qed.
Print Assumptions C240_replaced_refuted.
Example C240_example :
  let l := [(lit "redirect_uris", JArr [JStr (lit "https://app/cb")]); (lit "client_id", JStr []); (lit "client_name", JStr (lit "App")); (lit "contacts", JArr [JStr (lit "a@b")]);
            (lit "grant_types", JArr [JStr (lit "authorization_code")]); (lit "response_types", JArr [JStr (lit "code")]); (lit "scopes", JArr [])] in
  let r := MkReg (MkClient (lit "a") None [lit "u"] [TCode] []) (lit "n") [GCode] [(lit "client_id", JStr (lit "b"))] in
  NoDup l.*1 ∧ (∃ r, reg_of (JObj l) = Some r ∧ rg_meta r = [(lit "contacts", JArr [JStr (lit "a@b")])]) ∧ (∃ v, (endpoint (JObj l) (lit "g1") (lit "g2") ∅).2 = Some v) ∧
  reg_ok r ∧ (∃ b, reg_of (reg_json r) = Some b ∧ o_id (rg_client b) = lit "b") ∧ reg_of (reg_json r) ≠ Some r ∧
  reg_of (JObj [(lit "redirect_uris", JArr [JStr (lit "https://app/cb")]); (lit "client_name", JStr (lit "App"))]) = None.
Proof.
  split_and!; [by apply (bool_decide_unpack _); vm_compute|eexists; split; by vm_compute|eexists; by vm_compute|by apply (bool_decide_unpack _); vm_compute|eexists; split; by vm_compute| |by vm_compute].
  intros H. apply (f_equal (λ o : option reg, (λ r, o_id (rg_client r)) <$> o)) in H. vm_compute in H. discriminate H.
Qed.
