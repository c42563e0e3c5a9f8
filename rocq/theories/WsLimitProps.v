(** C230: the limits of the WebSocket server. *)
From stdpp Require Import list strings.
From Coq Require Import ZifyBool.
From Verif Require Import Utf8Lib TextLib JsonLib RpcModel WsModel WsLimitModel WsLimitSpec.
Local Open Scope N_scope.

Lemma over_false n l : over n l = false ↔ match l with Some l => N.of_nat n <= l | None => True end.
Proof. unfold over. destruct l as [l|]; [|done]. lia. Qed.
Lemma assemble_cut c acc text rs rest : cut text rs → within c (acc ++ text) rs → is_Some (utf8_decode (acc ++ text)) →
  assemble c acc (rs ++ rest) = FText (acc ++ text) :: assemble c [] rest.
Proof.
  revert acc text. induction rs as [|r rs IH]; intros acc text Hc [Hm Hf] [t Hu]; [by destruct Hc|]. apply Forall_cons in Hf as [[Hr Hk] Hf]. cbn [app assemble].
  assert (negb (rw_masked r) && negb (wc_unmasked c) = false) as ->. { destruct Hk as [-> | ->]; [done|by rewrite andb_false_r]. }
  assert (over (length (rw_bytes r)) (wc_frame c) = false) as -> by (by apply over_false).
  destruct rs as [|r' rs].
  - destruct Hc as [-> ->]. assert (over (length acc + length (rw_bytes r)) (wc_message c) = false) as ->. { apply over_false. by rewrite <-app_length. } by rewrite Hu.
  - destruct Hc as [-> (tl & -> & Hc)]. assert (over (length acc + length (rw_bytes r)) (wc_message c) = false) as ->.
    { apply over_false. destruct (wc_message c) as [l|]; [|done]. rewrite !app_length in Hm. lia. }
    rewrite app_assoc. apply IH; [done| |by rewrite <-app_assoc; exists t]. by rewrite <-app_assoc.
Qed.
Lemma assemble_short c acc rs t l : wc_message c = Some l → FText t ∈ assemble c acc rs → N.of_nat (length t) <= l.
Proof.
  intros Hl. revert acc. induction rs as [|r rs IH]; intros acc; cbn [assemble]; [by rewrite elem_of_nil|].
  destruct (negb _ && negb _); [rewrite elem_of_list_singleton; done|]. destruct (over _ (wc_frame c)); [rewrite elem_of_list_singleton; done|].
  destruct (over _ (wc_message c)) eqn:Ho; [rewrite elem_of_list_singleton; done|]. destruct (rw_last r); [|apply IH].
  destruct (utf8_decode _); [|rewrite elem_of_list_singleton; done]. rewrite elem_of_cons. intros [E|H]; [|by apply IH in H].
  injection E as ->. apply over_false in Ho. rewrite Hl in Ho. by rewrite app_length.
Qed.

(** The configuration built is the last value given for each limit. *)
Theorem C230_builder : ∀ os, let c := wb_build os in
  wc_frame c = Some (default (64 * MiB) (last_set frame_set os)) ∧ wc_message c = Some (default (64 * MiB) (last_set message_set os)) ∧
  wc_unmasked c = default false (last_set unmasked_set os).
Proof.
  intros os. cbv zeta. induction os as [|o os IH] using rev_ind; [done|]. unfold wb_build in *. rewrite fold_left_app. cbn [fold_left]. destruct IH as (H1 & H2 & H3).
  assert (∀ B (f : wbop → option B), last_set f (os ++ [o]) = match f o with Some x => Some x | None => last_set f os end) as Hs.
  { intros B f. unfold last_set. rewrite omap_app. cbn [omap list_omap]. destruct (f o); [apply last_snoc|by rewrite app_nil_r]. }
  rewrite !Hs. destruct o; cbn [wb_step wc_frame wc_message wc_unmasked frame_set message_set unmasked_set]; done.
Qed.
Print Assumptions C230_builder.
(** Whatever the configuration: a message in masked frames of at most 16 MiB, at most 64 MiB altogether, is received ... *)
Theorem C230_received_partial : ∀ c text rs m, cut text rs → parse_message text = Some m → is_Some (utf8_decode text) →
  N.of_nat (length text) <= 64 * MiB → Forall (λ r, N.of_nat (length (rw_bytes r)) <= 16 * MiB ∧ rw_masked r = true) rs →
  sc_in (serve_raw c rs) = [m].
Proof.
  intros c text rs m Hc Hp Hu Hl Hf. unfold serve_raw. pose proof (assemble_cut tungstenite_default [] text rs [] Hc) as E. rewrite app_nil_r in E. rewrite E; [|split; [exact Hl|]|done].
  - cbn [app assemble fold_left]. unfold read_frame. cbn [conn_new sc_reader]. by rewrite Hp.
  - eapply Forall_impl; [exact Hf|]. intros r [H1 H2]. split; [exact H1|by left].
Qed.
Print Assumptions C230_received_partial.
(** ... and nothing longer than 64 MiB ever is, in however many frames. *)
Theorem C230_bounded : ∀ rs t, FText t ∈ assemble tungstenite_default [] rs → N.of_nat (length t) <= 64 * MiB.
Proof. intros rs t. by apply assemble_short. Qed.
Print Assumptions C230_bounded.
(** So a lower limit is not enforced: a message beyond it is received. *)
Theorem C230_lower_refuted : ∀ os limit text m, last_set message_set os = Some limit ∨ last_set frame_set os = Some limit →
  limit < N.of_nat (length text) <= 16 * MiB → parse_message text = Some m → is_Some (utf8_decode text) →
  ¬ within (wb_build os) text [MkRaw true true text] ∧ sc_in (serve_raw (wb_build os) [MkRaw true true text]) = [m].
Proof.
  intros os limit text m Hs [Hl1 Hl2] Hp Hu. destruct (C230_builder os) as (H1 & H2 & _). split.
  - unfold within. rewrite H1, H2. intros [Ha Hb]. apply Forall_cons in Hb as [[Hb _] _]. cbn [rw_bytes] in Hb. destruct Hs as [E|E]; [rewrite E in Ha; change (N.of_nat (length text) <= limit) in Ha|rewrite E in Hb; change (N.of_nat (length text) <= limit) in Hb]; lia.
  - apply (C230_received_partial _ text); [done|done|done|unfold MiB in *; lia|]. apply Forall_singleton. by split.
Qed.
Print Assumptions C230_lower_refuted.
(** A higher limit, and even the default one, is not granted: a frame between 16 MiB and the limit ends the connection. *)
Theorem C230_higher_refuted : ∀ c text rest, 16 * MiB < N.of_nat (length text) → 
  sc_in (serve_raw c (MkRaw true true text :: rest)) = [] ∧ sc_reader (serve_raw c (MkRaw true true text :: rest)) = RDone.
Proof.
  intros c text rest Hl. unfold serve_raw. cbn [assemble rw_masked negb andb rw_bytes].
  assert (over (length text) (wc_frame tungstenite_default) = true) as ->; [|by vm_compute]. unfold over. cbn [wc_frame tungstenite_default]. unfold MiB in Hl. lia.
Qed.
Print Assumptions C230_higher_refuted.
(** And unmasked frames end it although they were to be accepted. *)
Theorem C230_unmasked_refuted : ∀ os b text rest, last_set unmasked_set os = Some true →
  wc_unmasked (wb_build os) = true ∧ sc_in (serve_raw (wb_build os) (MkRaw false b text :: rest)) = [] ∧ sc_reader (serve_raw (wb_build os) (MkRaw false b text :: rest)) = RDone.
Proof. intros os b text rest H. destruct (C230_builder os) as (_ & _ & ->). by rewrite H. Qed.
Print Assumptions C230_unmasked_refuted.
Definition example_text : list N := lit "{""jsonrpc"":""2.0"",""id"":1,""result"":7}".
Example C230_example :
  last_set message_set [WMessage 99; WFrame 8; WMessage 5] = Some 5 ∧ 5 < N.of_nat (length example_text) <= 16 * MiB ∧ is_Some (parse_message example_text) ∧ is_Some (utf8_decode example_text) ∧
  cut example_text [MkRaw true false (take 10 example_text); MkRaw true true (drop 10 example_text)] ∧
  16 * MiB < N.of_nat (length (replicate (N.to_nat 17000000) 32)) ∧ within wconf_default (replicate (N.to_nat 17000000) 32) [MkRaw true true (replicate (N.to_nat 17000000) 32)].
Proof.
  split; [by vm_compute|]. split; [by vm_compute|]. split; [by vm_compute; eexists|]. split; [by vm_compute; eexists|]. split; [by vm_compute; eauto|].
  unfold within. cbn [wc_message wc_frame wconf_default]. rewrite Forall_singleton. cbn [rw_bytes rw_masked]. rewrite replicate_length, N2Nat.id. split; [by vm_compute|]. split; [by vm_compute|]. split; [by vm_compute|by left].
Qed.
