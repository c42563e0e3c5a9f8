(** Proofs about contexts, log entries and the channel *)
From stdpp Require Import gmap list strings sets.
From Coq Require Import ZifyBool.
From Verif Require Import ListLib TextLib Utf8Lib JsonLib RpcModel ContextModel LogModel LogSpec.
From Verif Require HttpClientProofs.
Local Open Scope N_scope.

(** *** Scopes *)
Definition sstep (t : nat) (s : list context) (e : event) : list context :=
  match e with
  | EEnter t' c => if decide (t = t') then c :: s else s
  | ELeave t' => if decide (t = t') then tail s else s
  | ESpawn _ _ | ELog _ _ _ => s
  end.
Definition sgo (t : nat) (s : list context) (h : list event) : list context := fold_left (sstep t) h s.
Lemma scopes_sgo h t : scopes h t = sgo t [] h.
Proof. done. Qed.
Lemma sgo_app t s h1 h2 : sgo t s (h1 ++ h2) = sgo t (sgo t s h1) h2.
Proof. apply fold_left_app. Qed.
Lemma closed_sgo t h s : closed t h → sgo t s h = s.
Proof.
  intros H. revert s. induction H as [|e h He Hl H IH|c h1 h2 H1 IH1 H2 IH2]; intros s; [done| |].
  - change (sgo t (sstep t s e) h = s). rewrite IH. destruct e as [t' c|t'| |]; cbn [sstep]; [| |done|done].
    + rewrite decide_False; [done|]. intros ->. by apply (He c).
    + rewrite decide_False; [done|]. intros ->. done.
  - change (sgo t (sstep t s (EEnter t c)) (h1 ++ ELeave t :: h2) = s). rewrite sgo_app, IH1.
    change (sgo t (sstep t (sstep t s (EEnter t c)) (ELeave t)) h2 = s). rewrite IH2. cbn [sstep]. by rewrite !decide_True.
Qed.
Lemma closed_app t h1 h2 : closed t h1 → closed t h2 → closed t (h1 ++ h2).
Proof.
  induction 1 as [|e h He Hl H IH|c g1 g2 H1 IH1 H2 IH2]; intros Hc; [done| |].
  - cbn [app]. apply closed_other; [done..|by apply IH].
  - cbn [app]. rewrite <-app_assoc. cbn [app]. apply closed_scope; [done|by apply IH2].
Qed.
Lemma closed_one t e : (∀ c, e ≠ EEnter t c) → e ≠ ELeave t → closed t [e].
Proof. intros. constructor; [done..|constructor]. Qed.
Lemma scopes_inv h t :
  (∀ c s, scopes h t = c :: s → ∃ h1 h2, h = h1 ++ EEnter t c :: h2 ∧ closed t h2 ∧ scopes h1 t = s).
Proof.
  induction h as [h IH] using (induction_ltof1 _ (@length event)). unfold ltof in IH. destruct h as [|e h' _] using rev_ind; [done|].
  assert (length h' < length (h' ++ [e]))%nat as Hlt by (rewrite app_length; cbn; lia).
  intros c s. rewrite scopes_sgo, sgo_app. change (sgo t (sgo t [] h') [e]) with (sstep t (scopes h' t) e).
  assert (Hkeep : (∀ c, e ≠ EEnter t c) → e ≠ ELeave t → scopes h' t = c :: s → ∃ h1 h2, h' ++ [e] = h1 ++ EEnter t c :: h2 ∧ closed t h2 ∧ scopes h1 t = s).
  { intros He Hl Hs. destruct (IH h' Hlt c s Hs) as (h1 & h2 & -> & Hc & Hs1). exists h1, (h2 ++ [e]). split; [by rewrite <-app_assoc|]. split; [|done].
    apply closed_app; [done|by apply closed_one]. }
  destruct e as [t' c'|t'|t1 t2|t' lv m]; cbn [sstep].
  - case_decide as Ht; [|apply Hkeep; congruence]. subst t'. intros [= -> <-]. exists h', []. split_and!; [done|constructor|done].
  - case_decide as Ht; [|apply Hkeep; congruence]. subst t'. destruct (scopes h' t) as [|c0 s0] eqn:Hs; [done|]. cbn [tail]. intros ->.
    destruct (IH h' Hlt _ _ Hs) as (h1 & h2 & -> & Hc & Hs1).
    assert (length h1 < length ((h1 ++ EEnter t c0 :: h2) ++ [ELeave t]))%nat as Hlt1 by (rewrite !app_length; cbn; lia).
    destruct (IH h1 Hlt1 _ _ Hs1) as (h3 & h4 & -> & Hc4 & Hs3).
    exists h3, (h4 ++ EEnter t c0 :: h2 ++ [ELeave t]). split; [by repeat (rewrite <-app_assoc; cbn [app])|]. split; [|done].
    apply closed_app; [done|]. apply closed_scope; [done|constructor].
  - apply Hkeep; congruence.
  - apply Hkeep; congruence.
Qed.
Lemma within_scopes h t c : within h t c ↔ current h t = Some c.
Proof.
  unfold current. split.
  - intros (h1 & h2 & -> & Hc). rewrite scopes_sgo, sgo_app. change (sgo t (sgo t [] h1) (EEnter t c :: h2)) with (sgo t (sstep t (sgo t [] h1) (EEnter t c)) h2).
    rewrite closed_sgo by done. cbn [sstep]. by rewrite decide_True.
  - intros H. destruct (scopes h t) as [|c0 s] eqn:Hs; [done|]. cbn in H. simplify_eq. destruct (scopes_inv _ _ _ _ Hs) as (h1 & h2 & -> & Hc & _). by exists h1, h2.
Qed.
Lemma outside_current h t : outside h t → current h t = None.
Proof. intros H. unfold current. by rewrite scopes_sgo, closed_sgo. Qed.
Lemma nested_snoc h e : nested (h ++ [e]) → nested h.
Proof. intros Hn h1 h2 t ->. apply (Hn h1 (h2 ++ [e]) t). by rewrite <-app_assoc. Qed.
Lemma current_outside h t : nested h → current h t = None → outside h t.
Proof.
  unfold current, outside. induction h as [h IH] using (induction_ltof1 _ (@length event)). unfold ltof in IH. destruct h as [|e h' _] using rev_ind; [constructor|].
  assert (length h' < length (h' ++ [e]))%nat as Hlt by (rewrite app_length; cbn; lia).
  intros Hn. pose proof (nested_snoc _ _ Hn) as Hn'.
  rewrite scopes_sgo, sgo_app. change (sgo t (sgo t [] h') [e]) with (sstep t (scopes h' t) e).
  assert (Hkeep : (∀ c, e ≠ EEnter t c) → e ≠ ELeave t → head (scopes h' t) = None → closed t (h' ++ [e])).
  { intros He Hl Hs. apply closed_app; [by apply IH|by apply closed_one]. }
  destruct e as [t' c'|t'|t1 t2|t' lv m]; cbn [sstep].
  - case_decide as Ht; [|apply Hkeep; congruence]. done.
  - case_decide as Ht; [|apply Hkeep; congruence]. subst t'. destruct (Hn h' [] t eq_refl) as [c Hw]. apply within_scopes in Hw. unfold current in Hw.
    destruct (scopes h' t) as [|c0 s0] eqn:Hs; [done|]. cbn [tail]. intros Hh. destruct s0; [|done].
    destruct (scopes_inv _ _ _ _ Hs) as (h1 & h2 & -> & Hc & Hs1).
    rewrite <-app_assoc. cbn [app]. apply closed_app; [|apply closed_scope; [done|constructor]].
    apply IH; [rewrite !app_length; cbn; lia| |by rewrite Hs1].
    intros g1 g2 t' ->. apply (Hn' g1 (g2 ++ EEnter t c0 :: h2) t'). by rewrite <-app_assoc.
  - apply Hkeep; congruence.
  - apply Hkeep; congruence.
Qed.
Lemma fresh_outside h t : (∀ c, EEnter t c ∉ h) → ELeave t ∉ h → outside h t.
Proof.
  induction h as [|e h IH]; intros He Hl; [constructor|]. apply closed_other.
  - intros c ->. apply (He c). by left.
  - intros ->. apply Hl. by left.
  - apply IH; [intros c Hc; apply (He c); by right|intros Hc; apply Hl; by right].
Qed.

(** *** The line *)
Lemma lit_ascii w : Forall (λ c, c < 256) (lit w).
Proof. unfold lit. rewrite Forall_fmap. apply Forall_forall. intros a _. cbn. destruct a; destruct_and?; repeat match goal with b : bool |- _ => destruct b end; vm_compute; reflexivity. Qed.
Definition null_opt (o : option (list N)) := null_or (JStr <$> o).
Lemma entry_storable time e fields : Forall scalar time → writable e → fields ≡ₚ map_to_list (le_fields e) → storable (entry_json time e fields).
Proof.
  intros Ht (Hl & Hm & Hr & Ho & Hf) Hp.
  assert (Hopt : ∀ o, (∀ s, o = Some s → Forall scalar s) → wf (null_opt o) ∧ keys_ok (null_opt o) ∧ scalars (null_opt o) ∧ depth (null_opt o) = 0%nat).
  { intros [s|] H; cbn; [|done]. split_and!; try done. by apply H. }
  destruct (Hopt (le_trace e)) as (? & ? & ? & D1); [intros; apply Ho; by left|].
  destruct (Hopt (le_span e)) as (? & ? & ? & D2); [intros; apply Ho; by right; left|].
  destruct (Hopt (le_user e)) as (? & ? & ? & D3); [intros; apply Ho; by right; right; left|].
  destruct (Hopt (le_session e)) as (? & ? & ? & D4); [intros; apply Ho; by right; right; right|].
  assert (wf (null_or (rid_json <$> le_request e)) ∧ keys_ok (null_or (rid_json <$> le_request e)) ∧ scalars (null_or (rid_json <$> le_request e)) ∧ depth (null_or (rid_json <$> le_request e)) = 0%nat) as (? & ? & ? & D5).
  { destruct (le_request e) as [[s|z]|]; cbn; [| |done]; specialize (Hr _ eq_refl); cbn in Hr; split_and!; try done; unfold i64_min_abs, u64_max; lia. }
  assert (Hfs : ∀ kv, kv ∈ fields → Forall scalar kv.1 ∧ wf kv.2 ∧ keys_ok kv.2 ∧ scalars kv.2 ∧ (depth kv.2 < 126)%nat).
  { intros [k v] Hkv. rewrite Hp in Hkv. apply elem_of_map_to_list in Hkv. by apply Hf. }
  assert (Hn : NoDup fields.*1) by (rewrite Hp; apply NoDup_fst_map_to_list).
  assert (wf (JObj fields)) as Wf. { rewrite wf_obj. apply Forall_forall. intros kv Hk. by apply Hfs. }
  assert (keys_ok (JObj fields)) as Kf. { rewrite keys_ok_obj. split; [done|]. apply Forall_forall. intros kv Hk. by apply Hfs. }
  assert (scalars (JObj fields)) as Sf. { rewrite scalars_obj. apply Forall_forall. intros kv Hk. destruct (Hfs kv Hk) as (? & ? & ? & ? & ?). done. }
  assert (depth (JObj fields) < 127)%nat as Df.
  { cbn [depth]. assert (foldr (λ (x : list N * json) n, Nat.max (depth x.2) n) 0%nat fields < 126)%nat; [|lia]. clear Hp Hn Wf Kf Sf. induction fields as [|x l IH]; [cbn; lia|]. cbn.
    destruct (Hfs x) as (? & ? & ? & ? & ?); [by left|]. apply Nat.max_lub_lt; [done|]. apply IH. intros kv Hk. apply Hfs. by right. }
  unfold null_opt in *. split_and!.
  - unfold entry_json. rewrite wf_obj. repeat (apply Forall_cons; split; [done|]). by apply Forall_nil_2.
  - unfold entry_json. rewrite keys_ok_obj. split; [by apply (bool_decide_unpack _); vm_compute|]. repeat (apply Forall_cons; split; [done|]). by apply Forall_nil_2.
  - unfold entry_json. rewrite scalars_obj.
    repeat (apply Forall_cons; split; [split; [apply HttpClientProofs.ascii_scalars; by vm_compute|done]|]). by apply Forall_nil_2.
  - unfold entry_json. remember (JObj fields) as F. cbn [depth foldr snd]. rewrite D1, D2, D3, D4, D5. cbn [Nat.max]. lia.
Qed.
Lemma entry_nodup time e fields l : entry_json time e fields = JObj l → NoDup l.*1.
Proof. intros H. change (NoDup ((λ j, match j with JObj l => l.*1 | _ => [] end) (JObj l))). rewrite <-H. by apply (bool_decide_unpack _); vm_compute. Qed.

(** *** Levels *)
Lemma same_letter_lower a b : (97 ≤ b ≤ 122) → (lower a = b ↔ same_letter a b).
Proof. intros Hb. unfold lower, same_letter. split; intros H; destruct (65 <=? a) eqn:E1, (a <=? 90) eqn:E2; cbn in *; lia. Qed.
Lemma spelled_lower t w : Forall (λ c, 97 ≤ c ≤ 122) (lit w) → (lower <$> t = lit w ↔ spelled t w).
Proof.
  unfold spelled. generalize (lit w). intros l H. revert t. induction H as [|b l Hb _ IH]; intros t.
  - split; [intros ->%fmap_nil_inv; constructor|intros ->%Forall2_nil_inv_r; done].
  - destruct t as [|a t]; [split; [done|intros H; inversion H]|]. rewrite Forall2_cons, fmap_cons. rewrite <-(same_letter_lower a b Hb), <-IH. split; [by intros [=]|by intros [-> ->]].
Qed.

(** *** Sleep *)
Lemma sleep_ok nanos : nanos < 2147483648 * 1000000 → sleep_millis nanos = nanos / 1000000.
Proof.
  intros H. unfold sleep_millis, as_i32. assert (nanos / 1000000 < 2147483648) as Hm by (apply N.div_lt_upper_bound; lia).
  clear H. generalize dependent (nanos / 1000000). intros m Hm. rewrite Z.mod_small by lia. destruct (_ <? _)%Z eqn:E; lia.
Qed.
Lemma sleep_le nanos : sleep_millis nanos ≤ nanos / 1000000.
Proof.
  unfold sleep_millis, as_i32. generalize (nanos / 1000000). intros m. pose proof (Z.mod_le (Z.of_N m) 4294967296). pose proof (Z.mod_pos_bound (Z.of_N m) 4294967296).
  destruct (_ <? _)%Z eqn:E; lia.
Qed.
Lemma sleep_zero nanos k : 2147483648 * 1000000 ≤ nanos - k * 4294967296 * 1000000 → k * 4294967296 * 1000000 ≤ nanos → nanos - k * 4294967296 * 1000000 < 4294967296 * 1000000 → sleep_millis nanos = 0.
Proof.
  intros H1 H2 H3. unfold sleep_millis, as_i32.
  assert (nanos / 1000000 = k * 4294967296 + (nanos - k * 4294967296 * 1000000) / 1000000) as ->.
  { replace nanos with ((nanos - k * 4294967296 * 1000000) + (k * 4294967296) * 1000000) at 1 by lia. rewrite N.div_add by lia. lia. }
  set (r := (nanos - k * 4294967296 * 1000000) / 1000000). assert (2147483648 ≤ r) by (apply N.div_le_lower_bound; lia). assert (r < 4294967296) by (apply N.div_lt_upper_bound; lia). clearbody r. clear H1 H2 H3.
  rewrite N2Z.inj_add, N2Z.inj_mul, Z.add_comm. change (Z.of_N 4294967296) with 4294967296%Z. rewrite Z_mod_plus_full, Z.mod_small by lia. destruct (_ <? _)%Z eqn:E; lia.
Qed.

(** *** The channel *)
Section channel.
  Context {A : Type}.
  Implicit Types s : chan A.
  Lemma trace_inv s os : ch_closed s = false →
    taken (ch_trace s os) ++ ch_queue (fold_left (λ s o, (ch_step s o).1) os s) = ch_queue s ++ given (ch_trace s os).
  Proof.
    revert s. induction os as [|o os IH]; intros s Hc; [cbn; by rewrite app_nil_r|].
    cbn [ch_trace fold_left]. destruct o as [v| | |]; cbn [ch_step].
    - rewrite Hc. cbn [fst snd]. unfold taken, given in *. cbn [omap list_omap fst snd]. rewrite IH by done. cbn [ch_queue]. by rewrite <-app_assoc.
    - destruct (ch_queue s) as [|v q] eqn:Hq; cbn [fst snd]; unfold taken, given in *; cbn [omap list_omap fst snd].
      + rewrite IH by done. by rewrite Hq.
      + cbn [app]. f_equal. by rewrite IH.
    - cbn [fst snd]. unfold taken, given in *. cbn [omap list_omap fst snd]. by rewrite IH.
    - cbn [fst snd]. unfold taken, given in *. cbn [omap list_omap fst snd]. by rewrite IH.
  Qed.
  Lemma run_open os s : ch_closed s = false → ch_closed (fold_left (λ s o, (ch_step s o).1) os s) = false.
  Proof. revert s. induction os as [|o os IH]; intros s Hc; [done|]. cbn. apply IH. destruct o; cbn; [by rewrite Hc|by case_match|done|done]. Qed.
End channel.
