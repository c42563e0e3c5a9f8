(** C228: arguments with completions. *)
From stdpp Require Import list strings.
From Verif Require Import TextLib JsonLib SerdeLib TypesModel RpcProofs HttpClientProofs CompleteProofs ArgModel ArgSpec.
Local Open Scope N_scope.

Lemma last_call_snoc {B} (f : aop → option B) os o : last_call f (os ++ [o]) = match f o with Some x => Some x | None => last_call f os end.
Proof. unfold last_call. rewrite omap_app. cbn [omap list_omap]. destruct (f o) as [x|]; [apply last_snoc|by rewrite app_nil_r]. Qed.
Lemma completion_is_of c : is_of t_completion_config (completion_json c).
Proof.
  assert (∀ s, s ∈ [lit "static"; lit "resource"; lit "tool"; lit "file"] → is_of t_completion_provider (JStr s)) as Hp by (intros s H; left; by exists s).
  destruct c as [vs|].
  - exists [(lit "provider", JStr (lit "static"))], [(lit "values", JArr (JStr <$> vs))]. split; [reflexivity|]. split.
    + apply lay_req; [|reflexivity]. apply Hp. by apply (bool_decide_unpack _); vm_compute.
    + split; [apply NoDup_singleton|]. intros k Hk. apply elem_of_list_singleton in Hk as ->. by apply (bool_decide_unpack _); vm_compute.
  - exists [(lit "provider", JStr (lit "file"))], []. split; [reflexivity|]. split.
    + apply lay_req; [|reflexivity]. apply Hp. by apply (bool_decide_unpack _); vm_compute.
    + split; [constructor|]. intros k Hk. by apply elem_of_nil in Hk.
Qed.
Lemma arg_is_of a : is_of t_completable_argument (arg_json a).
Proof.
  eexists _, []. split; [by rewrite app_nil_r|]. split; [|reflexivity].
  apply lay_req; [by eexists|]. apply lay_opt. { intros x Hx. apply fmap_Some in Hx as (y & _ & ->). split; [done|by eexists]. }
  apply lay_def; [by eexists|]. apply lay_opt; [|reflexivity]. intros x Hx. apply fmap_Some in Hx as (y & _ & ->). split; [by destruct y|apply completion_is_of].
Qed.

(** Each part of the built argument is that of the last call about it. *)
Theorem C228_builder : ∀ name os, let a := arg_build name os in
  a_name a = name ∧ a_desc a = last_call describes os ∧ (a_required a = true ↔ ARequired ∈ os) ∧ a_completion a = last_call completes os.
Proof.
  intros name os. cbv zeta. induction os as [|o os IH] using rev_ind.
  { repeat split; try done. intros H. by apply elem_of_nil in H. }
  unfold arg_build in *. rewrite fold_left_app. cbn [fold_left]. destruct (fold_left arg_step os (arg_new name)) as [an ad ar ac]. cbn [a_name a_desc a_required a_completion] in IH. destruct IH as (-> & -> & Hr & ->).
  rewrite !last_call_snoc. destruct o; cbn [arg_step a_name a_desc a_required a_completion describes completes]; repeat split; try done; rewrite elem_of_app, elem_of_list_singleton; try rewrite Hr; try tauto; by intros [?|?].
Qed.
Print Assumptions C228_builder.
(** A client reads the argument as it was built, and so it does where prompts list their arguments. *)
Theorem C228_wire : ∀ name os, storable (arg_json (arg_build name os)) →
  of_bytes (to_bytes (arg_json (arg_build name os))) ≫= decode t_completable_argument = Some (arg_json (arg_build name os)) ∧
  of_bytes (to_bytes (arg_json (arg_build name os))) ≫= decode t_prompt_argument = Some (arg_json (arg_build name os)).
Proof.
  intros name os Hs. split; (apply types_roundtrip; [unfold protocol_types; rewrite !elem_of_cons; tauto|apply (arg_is_of (arg_build name os))|done]).
Qed.
Print Assumptions C228_wire.
Lemma strings_inj (l k : list (list N)) : JStr <$> l = JStr <$> k → l = k.
Proof. revert k. induction l as [|x l IH]; intros [|y k] H; try done. rewrite !fmap_cons in H. injection H as -> H2. f_equal. by apply IH. Qed.
Lemma cons_pair_inj {A B} (k : A) (v w : B) l m : (k, v) :: l = (k, w) :: m → v = w ∧ l = m.
Proof. by intros [= -> ->]. Qed.
Lemma desc_inj k n (o p : option (list N)) b c l m : k ≠ n → put k (JStr <$> o) ((n, JBool b) :: l) = put k (JStr <$> p) ((n, JBool c) :: m) → o = p ∧ b = c ∧ l = m.
Proof. intros Hk. destruct o, p; cbn; intros H; by simplify_eq. Qed.
Lemma completion_inj (k : list N) o p : put k (completion_json <$> o) [] = put k (completion_json <$> p) [] → o = p.
Proof.
  destruct o as [c|], p as [d|]; [|intros H; discriminate H|intros H; discriminate H|done]. intros H. apply cons_pair_inj in H as [H _]. f_equal.
  destruct c as [vs|], d as [ws|]; [|exfalso|exfalso|done].
  - unfold completion_json in H. assert (∀ A B (x : json) (y z : json), JObj [A; (B, y)] = JObj [A; (B, z)] → y = z) as E by (by intros A B x y z [= ->]). f_equal. apply strings_inj.
    apply (E _ _ JNull) in H. by injection H.
  - unfold completion_json in H. assert (∀ a b c : list N * json, JObj [a; b] = JObj [c] → False) as E by done. by apply E in H.
  - unfold completion_json in H. assert (∀ a b c : list N * json, JObj [c] = JObj [a; b] → False) as E by done. by apply E in H.
Qed.
(** So what the client reads tells it everything: two arguments that read the same are the same. *)
Theorem C228_told : ∀ name os name' os', arg_json (arg_build name os) = arg_json (arg_build name' os') →
  name = name' ∧ last_call describes os = last_call describes os' ∧ (ARequired ∈ os ↔ ARequired ∈ os') ∧ last_call completes os = last_call completes os'.
Proof.
  intros name os name' os'. destruct (C228_builder name os) as (H1 & H2 & H3 & H4), (C228_builder name' os') as (K1 & K2 & K3 & K4).
  rewrite <-H2, <-K2, <-H3, <-K3, <-H4, <-K4. rewrite <-H1 at 2. rewrite <-K1 at 2. generalize (arg_build name os) (arg_build name' os'). clear. intros [an ad ar ac] [bn bd br bc]. unfold arg_json. cbn [a_name a_desc a_required a_completion].
  intros H. assert (∀ l m, JObj l = JObj m → l = m) as E by (by intros l m [= ->]). apply E in H. apply cons_pair_inj in H as [Hn H]. split; [by injection Hn|]. clear Hn.
  apply desc_inj in H as (-> & -> & H); [|by apply (bool_decide_unpack _); vm_compute]. split; [done|]. split; [done|]. by apply completion_inj in H.
Qed.
Print Assumptions C228_told.
Example C228_example : let a := arg_build (lit "path") [AValues [lit "a"; lit "b"]; ADesc (lit "x"); ARequired; AFiles; ADesc (lit "A file")] in
  a = MkArg (lit "path") (Some (lit "A file")) true (Some Files) ∧ storable (arg_json a) ∧ storable (arg_json (arg_build (lit "n") [AValues [lit "a"; lit "b"]])) ∧
  show (arg_json a) = lit "{""name"":""path"",""description"":""A file"",""required"":true,""completion"":{""provider"":""file""}}".
Proof. split; [by vm_compute|]. split; [apply storable_check; [by vm_compute|vm_compute; lia]|]. split; [apply storable_check; [by vm_compute|vm_compute; lia]|by vm_compute]. Qed.
