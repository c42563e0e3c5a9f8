(** The properties of the authentication middleware. *)
From stdpp Require Import gmap strings list.
From Verif Require Import TextLib JsonLib SerdeLib OAuthModel AuthModel AuthSpec AuthProofs.
Local Ltac lits := apply (bool_decide_unpack _); by vm_compute.

Definition ex_oracle : oracle :=
  MkOracle (λ t, if decide (t = lit "tok") then Some (MkInfo (lit "app") (lit "ann") [lit "read"] 0) else None)
           (λ id, Some (if decide (id = lit "app") then Some (MkClient (lit "app") (Some (lit "s3")) [] [] [lit "read"; lit "write"]) else None)).
Definition ex_secret : auth_info := MkAuth (SCustom (lit "basic")) None [(lit "client_id", JStr (lit "app")); (lit "client_secret", JStr (lit "s3"))].

(** ** C51: access only for valid credentials *)
Theorem C51_bearer : ∀ o required a x, authenticate o (MBearer required) a = inl x ↔ (a = None ∧ required = false ∧ x = anonymous) ∨ by_token o a x.
Proof. exact bearer_spec. Qed.
Print Assumptions C51_bearer.
Theorem C51_client : ∀ o a x, authenticate o MClient a = inl x ↔ by_secret o a x.
Proof. exact client_spec. Qed.
Print Assumptions C51_client.
Theorem C51_scope : ∀ o m scopes all a x, authenticate o (MScope m scopes all) a = inl x ↔
  authenticate o m a = inl x ∧ if all then ∀ s, s ∈ scopes → s ∈ x_scopes x else ∃ s, s ∈ scopes ∧ s ∈ x_scopes x.
Proof. intros o m scopes all a x. exact (scope_spec (authenticate o m a) scopes all x). Qed.
Print Assumptions C51_scope.
(** The first member that succeeds decides; without one, only an optional composite succeeds. *)
Theorem C51_composite : ∀ o l require_any a x, authenticate o (MComposite l require_any) a = inl x ↔
  (∃ l1 m l2, l = l1 ++ m :: l2 ∧ authenticate o m a = inl x ∧ ∀ m', m' ∈ l1 → ¬ succeeds (authenticate o m' a)) ∨
  ((∀ m, m ∈ l → ¬ succeeds (authenticate o m a)) ∧ require_any = false ∧ x = anonymous).
Proof.
  intros o l any a x. cbn [authenticate]. rewrite try_spec. split; (intros [H|H]; [left|right]).
  - destruct H as (i & H & Hj). rewrite list_lookup_fmap in H. destruct (l !! i) as [m|] eqn:Em; [|done]. cbn in H. exists (take i l), m, (drop (S i) l). split; [by rewrite take_drop_middle|]. split; [congruence|].
    intros m' (j & Hm)%elem_of_list_lookup [y Hy]. pose proof (lookup_lt_Some _ _ _ Hm) as Hlt. rewrite take_length in Hlt. rewrite lookup_take in Hm by lia.
    destruct (Hj j) as [e He]; [lia|]. rewrite list_lookup_fmap, Hm in He. cbn in He. congruence.
  - destruct H as (H & H'). split; [|done]. intros m Hm [y Hy]. destruct (H (authenticate o m a)) as [e He]; [by apply elem_of_list_In, (in_map (λ m, authenticate o m a)), elem_of_list_In|]. congruence.
  - destruct H as (l1 & m & l2 & -> & H & Hl). exists (length l1). rewrite map_app. split; [|].
    + rewrite lookup_app_r by (by rewrite map_length). rewrite map_length, Nat.sub_diag. cbn. by rewrite H.
    + intros j Hj. destruct (lookup_lt_is_Some_2 l1 j Hj) as [m' Hm']. rewrite lookup_app_l by (by rewrite map_length). rewrite list_lookup_fmap, Hm'. cbn.
      destruct (authenticate o m' a) as [y|e] eqn:E; [|by eexists]. destruct (Hl m'); [by eapply elem_of_list_lookup_2|by eexists].
  - destruct H as (H & H'). split; [|done]. intros r (m & -> & Hm)%elem_of_list_fmap. destruct (authenticate o m a) as [y|e] eqn:E; [|by eexists]. destruct (H m Hm). by eexists.
Qed.
Print Assumptions C51_composite.
(** Whatever the tree of this library's middlewares: who gets in has presented a good token or a good
    client secret, and has that credential's context – or is anonymous, in a tree that says so. *)
Theorem C51_tree : ∀ o m a x, ¬ foreign m → authenticate o m a = inl x → by_token o a x ∨ by_secret o a x ∨ (x = anonymous ∧ lets_anonymous m).
Proof. intros o m a x Hf H. destruct (tree_spec o m a x H) as [?|[?|[?|?]]]; auto. done. Qed.
Print Assumptions C51_tree.
(** A scope requirement keeps the anonymous out. *)
Theorem C51_scoped_tree : ∀ o m scopes all a x, ¬ foreign m → scopes ≠ [] → authenticate o (MScope m scopes all) a = inl x → by_token o a x ∨ by_secret o a x.
Proof.
  intros o m scopes all a x Hf Hs H. apply C51_scope in H as [H Hr]. destruct (C51_tree o m a x Hf H) as [?|[?|[-> _]]]; [auto|auto|]. exfalso. destruct all.
  - destruct scopes as [|s scopes]; [done|]. specialize (Hr s (elem_of_list_here s scopes)). by apply elem_of_nil in Hr.
  - destruct Hr as (s & _ & Hr). by apply elem_of_nil in Hr.
Qed.
Print Assumptions C51_scoped_tree.
Example C51_example :
  let tree := MScope (MComposite [MBearer true; MClient] true) [lit "write"] true in
  authenticate ex_oracle tree (Some ex_secret) = inl (MkContext (lit "app") (lit "app") [lit "read"; lit "write"]) ∧
  authenticate ex_oracle tree (Some (auth_bearer (lit "tok"))) = inr DDenied ∧
  authenticate ex_oracle (MBearer true) (Some (auth_bearer (lit "tok"))) = inl (MkContext (lit "app") (lit "ann") [lit "read"]) ∧
  authenticate ex_oracle (MBearer true) (Some (auth_bearer (lit "no"))) = inr (DRequired "Invalid token") ∧ ¬ foreign tree.
Proof. repeat split; try by vm_compute. intros (f & r & H). cbn in H. repeat (apply elem_of_cons in H as [H|H]; [done|]). by apply elem_of_nil in H. Qed.

(** ** C104: is_required tells whether a request without credentials is refused *)
(** For a single middleware it does. *)
Theorem C104_single_partial : ∀ o m, (∃ r, m = MBearer r) ∨ m = MClient → is_required m = true ↔ ¬ succeeds (authenticate o m None).
Proof.
  intros o m [[r ->]| ->]; cbn; [destruct r|]; split; try done; try (by intros _ [x Hx]). intros H. destruct H. by eexists.
Qed.
Print Assumptions C104_single_partial.
(** Under a scope requirement it is right when it says yes. *)
Theorem C104_scope_partial : ∀ o m scopes all, (is_required m = true → ¬ succeeds (authenticate o m None)) →
  is_required (MScope m scopes all) = true → ¬ succeeds (authenticate o (MScope m scopes all) None).
Proof. intros o m scopes all H Hr [x Hx]. cbn [is_required] in Hr. apply C51_scope in Hx as [Hx _]. apply (H Hr). by eexists. Qed.
Print Assumptions C104_scope_partial.
(** Refuted: a composite with an optional member lets everybody in but says authentication is required
    as soon as another member is required; an empty composite refuses everybody but says it is not. *)
Theorem C104_composite_refuted : ∀ o l1 l2 m, m ∈ l1 ++ l2 → is_required m = true →
  let t := MComposite (l1 ++ MBearer false :: l2) true in is_required t = true ∧ succeeds (authenticate o t None).
Proof.
  intros o l1 l2 m Hm Hr t. split.
  - cbn. apply existsb_exists. exists m. split; [|done]. apply elem_of_list_In. rewrite elem_of_app in Hm |- *. rewrite elem_of_cons. tauto.
  - unfold t. cbn [authenticate]. rewrite map_app. cbn [map authenticate bearer]. generalize (@None denial). generalize (map (λ m0, authenticate o m0 None) l1). intros rs. induction rs as [|[y|e] rs IH]; intros last; cbn; [by eexists..|]. apply IH.
Qed.
Print Assumptions C104_composite_refuted.
Theorem C104_empty_refuted : ∀ o a, is_required (MComposite [] true) = false ∧ ¬ succeeds (authenticate o (MComposite [] true) a).
Proof. intros o a. split; [done|]. by intros [x Hx]. Qed.
Print Assumptions C104_empty_refuted.
(** Refuted for scopes: with a scope to have, everybody without credentials is refused. *)
Theorem C104_scope_refuted : ∀ o scopes all, scopes ≠ [] → is_required (MScope (MBearer false) scopes all) = false ∧ ¬ succeeds (authenticate o (MScope (MBearer false) scopes all) None).
Proof.
  intros o scopes all Hs. split; [done|]. intros [x Hx]. apply C51_scoped_tree in Hx as [(? & ? & ? & ? & _)|(? & ? & ? & ? & ? & _)]; [done|done| |done].
  intros (f & r & H). cbn in H. apply elem_of_cons in H as [H|H]; [done|]. by apply elem_of_nil in H.
Qed.
Print Assumptions C104_scope_refuted.
Example C104_example : is_required (MComposite [MBearer false; MClient] true) = true ∧ authenticate ex_oracle (MComposite [MBearer false; MClient] true) None = inl anonymous.
Proof. split; by vm_compute. Qed.

(** ** C195: a refusal says what is wrong *)
(** Missing or wrong credentials ask for authentication; a refusal for lack of permission means that
    the credentials were good but lack scopes; a provider error means that the provider failed. *)
Theorem C195_tree : ∀ o m a e, ¬ foreign m → authenticate o m a = inr e →
  (∃ why, e = DRequired why) ∨
  (e = DProvider ∧ MClient ∈ members m ∧ lookup_failed o a) ∨
  (e = DDenied ∧ ∃ inner scopes all x, MScope inner scopes all ∈ members m ∧ authenticate o inner a = inl x ∧ lacks x scopes all).
Proof. intros o m a e Hf H. destruct (tree_denied o m a e H) as [?|[?|[?|?]]]; auto. done. Qed.
Print Assumptions C195_tree.
(** A failing provider is always reported as such, and missing scopes as a lack of permission. *)
Theorem C195_client : ∀ o a, authenticate o MClient a = inr DProvider ↔ lookup_failed o a.
Proof. exact client_failed. Qed.
Print Assumptions C195_client.
Theorem C195_scope : ∀ o m scopes all a, authenticate o (MScope m scopes all) a = inr DDenied ↔
  authenticate o m a = inr DDenied ∨ ∃ x, authenticate o m a = inl x ∧ lacks x scopes all.
Proof. intros o m scopes all a. apply scope_denied. Qed.
Print Assumptions C195_scope.
(** Of several middlewares that all refuse, the last one's reason is given. *)
Theorem C195_composite : ∀ o l require_any a e, authenticate o (MComposite l require_any) a = inr e → require_any = true ∧
  ((l = [] ∧ e = DRequired "Authentication failed") ∨ ∃ l' m, l = l' ++ [m] ∧ authenticate o m a = inr e).
Proof. exact composite_denied. Qed.
Print Assumptions C195_composite.
Example C195_example :
  let down := MkOracle (λ _, None) (λ _, None) in
  let tree := MScope (MComposite [MBearer true; MClient] true) [lit "admin"] true in
  authenticate ex_oracle tree (Some ex_secret) = inr DDenied ∧ authenticate down tree (Some ex_secret) = inr DProvider ∧
  authenticate ex_oracle tree None = inr (DRequired "Authentication required") ∧ lookup_failed down (Some ex_secret).
Proof. repeat split; try by vm_compute. exists ex_secret, (lit "app"), (lit "s3"). repeat split; by vm_compute. Qed.
