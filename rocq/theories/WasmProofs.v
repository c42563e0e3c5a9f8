(** Proofs about the browser's WebSocket transport. *)
From stdpp Require Import sets list strings.
From Verif Require Import ListLib TextLib Utf8Lib JsonLib SerdeLib TypesModel RpcModel RpcSpec RpcProofs HttpModel HttpProofs WasmModel WasmSpec.

Lemma tagged_agree {A} (tag : A → list N) bd all l l' : assoc (lit "method") l = assoc (lit "method") l' → assoc (lit "params") l = assoc (lit "params") l' →
  tagged tag bd all l = tagged tag bd all l'.
Proof. intros H1 H2. unfold tagged, str_field. by rewrite H1, H2. Qed.
Definition like (l : list (list N * json)) (m : list N) (b : body) (p : json) : Prop :=
  assoc (lit "method") l = Some (JStr m) ∧ assoc (lit "params") l = match b with BUnit => None | BTy _ => Some p end.
Lemma like_doc l m b p : like l m b p → assoc (lit "method") l = assoc (lit "method") (tagged_doc m b p) ∧ assoc (lit "params") l = assoc (lit "params") (tagged_doc m b p).
Proof. intros [-> ->]. unfold tagged_doc. by destruct b. Qed.
Lemma like_hit {A} (tag : A → list N) bd all a l p : NoDup (tag <$> all) → a ∈ all → body_ty_ok (bd a) → holds (bd a) p → like l (tag a) (bd a) p → tagged tag bd all l = Some (a, p).
Proof. intros Hn Ha Hb Hp Hl. apply like_doc in Hl as [E1 E2]. rewrite (tagged_agree tag bd all _ _ E1 E2). by apply tagged_back. Qed.
Lemma like_miss {A} (tag : A → list N) bd all l m b p : m ∉ tag <$> all → like l m b p → tagged tag bd all l = None.
Proof. intros Hm Hl. apply like_doc in Hl as [E1 E2]. rewrite (tagged_agree tag bd all _ _ E1 E2). by apply tagged_miss. Qed.
Lemma client_read l c p : holds (creq_body c) p → like l (creq_tag c) (creq_body c) p → request_of_doc (JObj l) = Some (RClient c p).
Proof. intros Hp Hl. unfold request_of_doc. by rewrite (like_hit _ _ _ c _ p creq_tags (creq_all c) (creq_body_ok c) Hp Hl). Qed.
Lemma server_read l c p : holds (sreq_body c) p → c ≠ SCreateMessage → like l (sreq_tag c) (sreq_body c) p → request_of_doc (JObj l) = Some (RServer c p).
Proof.
  intros Hp Hc Hl. unfold request_of_doc. rewrite (like_miss creq_tag creq_body creqs l (sreq_tag c) (sreq_body c) p); [|destruct c; [done| |]; by apply (bool_decide_unpack _); vm_compute|done].
  by rewrite (like_hit _ _ _ c _ p sreq_tags (sreq_all c) (sreq_body_ok c) Hp Hl).
Qed.
Lemma cnot_read l c p : holds (cnot_body c) p → like l (cnot_tag c) (cnot_body c) p → notification_of_doc (JObj l) = Some (NClient c p).
Proof. intros Hp Hl. unfold notification_of_doc. by rewrite (like_hit _ _ _ c _ p cnot_tags (cnot_all c) (cnot_body_ok c) Hp Hl). Qed.
Lemma snot_read l c p : holds (snot_body c) p → c ∉ [SProgress; SRootsListChanged] → like l (snot_tag c) (snot_body c) p → notification_of_doc (JObj l) = Some (NServer c p).
Proof.
  intros Hp Hc Hl. unfold notification_of_doc.
  rewrite (like_miss cnot_tag cnot_body cnots l (snot_tag c) (snot_body c) p); [|destruct c; try (by apply (bool_decide_unpack _); vm_compute); exfalso; apply Hc; repeat constructor|done].
  by rewrite (like_hit _ _ _ c _ p snot_tags (snot_all c) (snot_body_ok c) Hp Hl).
Qed.
Lemma has_key_some k l : has_key k (JObj l) = match assoc (lit k) l with Some _ => true | None => false end.
Proof. done. Qed.
Lemma wasm_request l i r : assoc (lit "id") l = Some (rid_json i) → is_Some (assoc (lit "method") l) → rid_ok i → request_of_doc (JObj l) = Some r → wasm_of_doc (JObj l) = Some (MsgRequest i r).
Proof.
  intros Hi [m Hm] Hr H. unfold wasm_of_doc. rewrite !has_key_some, Hi, Hm. cbn [andb mbind option_bind]. rewrite rid_roundtrip by done. by rewrite H.
Qed.
Lemma wasm_response r : good_response r → wasm_of_doc (response_json r) = Some (MsgResponse r).
Proof.
  intros H. unfold wasm_of_doc. assert (has_key "method" (response_json r) = false) as -> by (destruct r as [? ? []]; done). cbn [andb].
  assert (has_key "result" (response_json r) || has_key "error" (response_json r) = true) as -> by (destruct r as [? ? []]; done).
  by rewrite response_roundtrip.
Qed.
Lemma wasm_notification l n : assoc (lit "id") l = None → assoc (lit "result") l = None → assoc (lit "error") l = None → is_Some (assoc (lit "method") l) → notification_of_doc (JObj l) = Some n →
  wasm_of_doc (JObj l) = Some (MsgNotification n).
Proof. intros Hi Hr He [m Hm] H. unfold wasm_of_doc. rewrite !has_key_some, Hi, Hm, Hr, He. cbn [andb orb]. by rewrite H. Qed.
Lemma doc_like m b p : like (tagged_doc m b p) m b p.
Proof. unfold like, tagged_doc. by destruct b. Qed.
Lemma doc_id_like m b p i : like (tagged_doc m b p ++ [(lit "id", i)]) m b p ∧ assoc (lit "id") (tagged_doc m b p ++ [(lit "id", i)]) = Some i.
Proof. unfold like, tagged_doc. by destruct b. Qed.
(** *** Between two browsers' transports *)
Lemma wasm_back m : unambiguous m → wasm_of_doc (wasm_doc m) = Some m.
Proof.
  destruct m as [i [c p|c p]|r|[c p|c p|p|p]]; cbn [unambiguous]; try done.
  - intros [Hi Hp]. destruct (doc_id_like (creq_tag c) (creq_body c) p (rid_json i)) as [Hl Hd]. cbn [wasm_doc request_doc]. apply wasm_request; [exact Hd|destruct Hl as [E _]; rewrite E; by eexists|done|by apply client_read].
  - intros (Hi & Hp & Hc). destruct (doc_id_like (sreq_tag c) (sreq_body c) p (rid_json i)) as [Hl Hd]. cbn [wasm_doc request_doc]. apply wasm_request; [exact Hd|destruct Hl as [E _]; rewrite E; by eexists|done|by apply server_read].
  - apply wasm_response.
  - intros Hp. pose proof (doc_like (cnot_tag c) (cnot_body c) p) as Hl. cbn [wasm_doc]. apply wasm_notification; [unfold tagged_doc; by destruct (cnot_body c)|unfold tagged_doc; by destruct (cnot_body c)|unfold tagged_doc; by destruct (cnot_body c)|unfold tagged_doc; by eexists|]. by apply cnot_read.
  - intros [Hp Hc]. pose proof (doc_like (snot_tag c) (snot_body c) p) as Hl. cbn [wasm_doc]. apply wasm_notification; [unfold tagged_doc; by destruct (snot_body c)|unfold tagged_doc; by destruct (snot_body c)|unfold tagged_doc; by destruct (snot_body c)|unfold tagged_doc; by eexists|]. by apply snot_read.
Qed.
(** *** What the SDK's servers write *)
Lemma rpc_request_like i r : good_request r → not_elicitation (MsgRequest i r) → match r with
  | RClient c p => ∃ l, message_json (MsgRequest i r) = JObj l ∧ assoc (lit "id") l = Some (rid_json i) ∧ like l (creq_tag c) (creq_body c) p
  | RServer c p => ∃ l, message_json (MsgRequest i r) = JObj l ∧ assoc (lit "id") l = Some (rid_json i) ∧ like l (sreq_tag c) (sreq_body c) p end.
Proof.
  intros Hg He. destruct r as [c p|c p].
  - destruct c; eexists; (split; [reflexivity|]); (split; [done|]); done.
  - destruct c; try done; eexists; (split; [reflexivity|]); (split; [done|]); done.
Qed.
Lemma rpc_note_like n : good_notification n → ∃ l, message_json (MsgNotification n) = JObj l ∧ assoc (lit "id") l = None ∧ assoc (lit "result") l = None ∧ assoc (lit "error") l = None ∧
  match n with
  | NClient c p => like l (cnot_tag c) (cnot_body c) p
  | NServer c p => like l (snot_tag c) (snot_body c) p
  | NProgress p => like l (cnot_tag CProgress) (cnot_body CProgress) p
  | NCancelled p => like l (cnot_tag CCancelled) (cnot_body CCancelled) p
  end.
Proof.
  intros Hg. destruct n as [c p|c p|p|p]; [destruct c|destruct c| |]; eexists; (split; [reflexivity|]); (split; [done|]); (split; [done|]); (split; [done|]); done.
Qed.
Lemma wasm_reads m : good_message m → not_elicitation m → wasm_of_doc (message_json m) = Some (browser_sees m).
Proof.
  destruct m as [i r|r|n]; cbn [good_message].
  - intros [Hi Hg] He. pose proof (rpc_request_like i r Hg He) as H. destruct r as [c p|c p]; destruct H as (l & -> & Hid & Hl).
    + apply wasm_request; [done|destruct Hl as [E _]; rewrite E; by eexists|done|]. by apply client_read.
    + assert (c = SCreateMessage ∨ c ≠ SCreateMessage) as [->|Hc] by (destruct c; [by left|by right..]).
      * apply wasm_request; [done|destruct Hl as [E _]; rewrite E; by eexists|done|]. apply client_read; done.
      * assert (browser_sees (MsgRequest i (RServer c p)) = MsgRequest i (RServer c p)) as -> by (by destruct c).
        apply wasm_request; [done|destruct Hl as [E _]; rewrite E; by eexists|done|]. by apply server_read.
  - intros Hg _. by apply wasm_response.
  - intros Hg _. destruct (rpc_note_like n Hg) as (l & -> & Hi & Hr & He & Hl).
    assert (is_Some (assoc (lit "method") l)) as Hm by (destruct n; destruct Hl as [E _]; rewrite E; by eexists).
    destruct n as [c p|c p|p|p]; [| |by apply wasm_notification, cnot_read..].
    + apply wasm_notification; try done. by apply cnot_read.
    + assert (c = SProgress ∨ c = SRootsListChanged ∨ c ∉ [SProgress; SRootsListChanged]) as [->|[->|Hc]].
      { destruct c; [by left|right; right; by intros [?|[?|?%elem_of_nil]%elem_of_cons]%elem_of_cons..|right; by left| |]; right; right; by intros [?|[?|?%elem_of_nil]%elem_of_cons]%elem_of_cons. }
      * by apply wasm_notification, cnot_read.
      * by apply wasm_notification, cnot_read.
      * assert (browser_sees (MsgNotification (NServer c p)) = MsgNotification (NServer c p)) as -> by (destruct c; try done; exfalso; apply Hc; repeat constructor).
        apply wasm_notification; try done. by apply snot_read.
Qed.
(** *** What they make of what the browser writes *)
Lemma no_version_request l : assoc (lit "jsonrpc") l = None → request_of_json (JObj l) = None.
Proof.
  intros H. unfold request_of_json, t_rpc_request, struct, req. cbn [decode dec_fields]. rewrite H. done.
Qed.
Lemma no_version_note l : assoc (lit "jsonrpc") l = None → notification_of_json (JObj l) = None.
Proof.
  intros H. unfold notification_of_json, t_rpc_notification, struct, req. cbn [decode dec_fields]. rewrite H. done.
Qed.
Lemma keyless_unread l : assoc (lit "method") l = None → assoc (lit "result") l = None → assoc (lit "error") l = None → message_of_json (JObj l) = None ∧ wasm_of_doc (JObj l) = None.
Proof. intros Hm Hr He. unfold message_of_json, wasm_of_doc. by rewrite !has_key_some, Hm, Hr, He. Qed.
Lemma progress_keyless p : is_of t_progress p → ∃ l, p = JObj l ∧ assoc (lit "method") l = None ∧ assoc (lit "result") l = None ∧ assoc (lit "error") l = None.
Proof.
  intros (l & r & -> & Hl & Hr). cbn [extra_ok] in Hr. subst r. destruct Hl as (v1 & l1 & -> & _ & v2 & l2 & -> & _ & Hl).
  destruct Hl as [->|(v3 & l3 & -> & _ & _ & ->)]; eexists; (split; [reflexivity|]); done.
Qed.
Lemma cancelled_keyless p : is_of t_cancelled p → ∃ l, p = JObj l ∧ assoc (lit "method") l = None ∧ assoc (lit "result") l = None ∧ assoc (lit "error") l = None.
Proof.
  intros (l & r & -> & Hl & Hr). cbn [extra_ok] in Hr. subst r. destruct Hl as (v1 & l1 & -> & _ & Hl).
  destruct Hl as [->|(v3 & l3 & -> & _ & _ & ->)]; eexists; (split; [reflexivity|]); done.
Qed.
Lemma progress_unread p : is_of t_progress p → message_of_json p = None.
Proof. intros H. destruct (progress_keyless p H) as (l & -> & ? & ? & ?). by apply keyless_unread. Qed.
Lemma cancelled_unread p : is_of t_cancelled p → message_of_json p = None.
Proof. intros H. destruct (cancelled_keyless p H) as (l & -> & ? & ? & ?). by apply keyless_unread. Qed.
Lemma browser_unread m : good_message m → (∀ r, m ≠ MsgResponse r) → message_of_json (wasm_doc m) = None.
Proof.
  destruct m as [i r|r|n]; cbn [good_message]; [|by intros _ H; destruct (H r)|].
  - intros _ _. cbn [wasm_doc]. set (l := request_doc r ++ _). assert (assoc (lit "jsonrpc") l = None) as Hv by (subst l; destruct r as [c p|c p]; unfold request_doc, tagged_doc; destruct c; done).
    assert (is_Some (assoc (lit "id") l)) as [x Hi] by (subst l; destruct r as [c p|c p]; unfold request_doc, tagged_doc; destruct c; by eexists).
    assert (is_Some (assoc (lit "method") l)) as [y Hm] by (subst l; destruct r as [c p|c p]; unfold request_doc, tagged_doc; destruct c; by eexists).
    unfold message_of_json. rewrite !has_key_some, Hi, Hm. by rewrite no_version_request.
  - intros Hg _. assert (∀ tag b p, message_of_json (JObj (tagged_doc tag b p)) = None) as HT.
    { intros tag b p. set (l := tagged_doc tag b p). assert (assoc (lit "jsonrpc") l = None) as Hv by (subst l; unfold tagged_doc; destruct b; done).
      assert (assoc (lit "id") l = None) as Hi by (subst l; unfold tagged_doc; destruct b; done).
      assert (is_Some (assoc (lit "method") l)) as [y Hm] by (subst l; unfold tagged_doc; destruct b; by eexists).
      unfold message_of_json. rewrite !has_key_some, Hi, Hm. unfold parse_notification. by rewrite no_version_note. }
    destruct n as [c p|c p|p|p]; cbn [wasm_doc]; [apply HT|apply HT| |].
    + by apply progress_unread.
    + by apply cancelled_unread.
Qed.
(** *** Histories *)
Lemma w_conserved w os : wt_queue w ++ omap (λ t, parse_value t ≫= wasm_of_doc) (arrived os) = w_got w os ++ wt_queue (w_run w os).
Proof.
  revert w. induction os as [|o os IH]; intros w; [cbn; by rewrite app_nil_r|]. unfold w_run. cbn [fold_left w_got]. rewrite <- app_assoc. change (fold_left _ os ?x) with (w_run x os). rewrite <- IH.
  destruct o as [m a| |a|[t|]|s]; cbn [w_step].
  - destruct (sock_open (wt_sock w)); [destruct a|]; done.
  - destruct (wt_queue w) as [|m q] eqn:E; cbn [fst snd]; [by rewrite E|done].
  - by destruct a.
  - cbn [fst snd on_message app]. unfold arrived. cbn [omap list_omap]. destruct (parse_value t ≫= wasm_of_doc) as [m|]; [|done]. cbn [wt_queue]. by rewrite <- app_assoc.
  - done.
  - done.
Qed.
Lemma await_spec tries n seen b k : await tries n seen = (b, k) → (n ≤ k ∧ k ≤ n + tries)%nat ∧ (∀ j, n ≤ j → j < k → seen j = Connecting)%nat ∧ (b = true ↔ seen k = Open) ∧ (seen k = Connecting → k = n + tries)%nat.
Proof.
  revert n. induction tries as [|tries IH]; intros n; cbn [await]; destruct (seen n) eqn:E; intros H.
  all: try (apply pair_equal_spec in H as [<- <-]; rewrite E; (split; [lia|]); (split; [intros j ? ?; lia|]); (split; [by split|first [done|lia]])).
  apply IH in H as (H1 & H2 & H3 & H4). split; [lia|]. split; [|split; [done|intros H; apply H4 in H; lia]].
  intros j ? ?. destruct (decide (j = n)) as [->|]; [done|]. apply H2; lia.
Qed.
