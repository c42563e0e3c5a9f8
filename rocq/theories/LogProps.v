(** Contexts of tasks, log entries, and the channel and timer of the browser runtime: C182 to C188 *)
From stdpp Require Import gmap list strings sets.
From Verif Require Import ListLib TextLib Utf8Lib JsonLib RpcModel ContextModel LogModel LogSpec LogProofs.
Local Open Scope N_scope.

(** *** C182: in a browser, sleep waits for the duration it is given *)
(** A whole number of milliseconds below 2^31 is waited for exactly. *)
Theorem C182_wait_partial millis : millis < 2 ^ 31 → sleep_millis (millis * 1000000) = millis.
Proof. intros H. change (2 ^ 31) with 2147483648 in H. rewrite sleep_ok by lia. apply N.div_mul. lia. Qed.
Print Assumptions C182_wait_partial.
(** It never waits longer. *)
Theorem C182_not_longer nanos : sleep_millis nanos * 1000000 ≤ nanos.
Proof. pose proof (sleep_le nanos). pose proof (N.mul_div_le nanos 1000000). lia. Qed.
Print Assumptions C182_not_longer.
(** A fraction of a millisecond is not waited for, and a wait of 2^31 to 2^32 milliseconds (25 to 50 days), modulo
    2^32, is no wait at all. *)
Theorem C182_fraction_refuted millis nanos : millis < 2 ^ 31 → 0 < nanos < 1000000 →
  sleep_millis (millis * 1000000 + nanos) * 1000000 < millis * 1000000 + nanos.
Proof.
  intros H Hn. change (2 ^ 31) with 2147483648 in H. rewrite sleep_ok by lia. rewrite N.add_comm, N.div_add by lia. rewrite N.div_small by lia. lia.
Qed.
Print Assumptions C182_fraction_refuted.
Theorem C182_long_refuted k millis : 2 ^ 31 ≤ millis < 2 ^ 32 → sleep_millis ((k * 2 ^ 32 + millis) * 1000000) = 0.
Proof.
  change (2 ^ 31) with 2147483648. change (2 ^ 32) with 4294967296. intros H. apply (sleep_zero _ k); lia.
Qed.
Print Assumptions C182_long_refuted.
Example C182_example :
  sleep_millis 1500000000 = 1500 ∧ sleep_millis 999999 = 0 ∧
  sleep_millis (30 * 86400 * 1000000000) = 0 ∧ sleep_millis (20 * 86400 * 1000000000) = 20 * 86400 * 1000.
Proof. by vm_compute. Qed.

(** *** C183: the channel of the browser runtime delivers every value once, in order *)
Theorem C183_order {A} (buffer : N) (os : list (cop A)) :
  let h := ch_trace (channel buffer) os in
  ∃ rest, given h = taken h ++ rest ∧ rest = ch_queue (ch_run buffer os).
Proof. cbn zeta. exists (ch_queue (ch_run buffer os)). split; [|done]. unfold ch_run. by rewrite (trace_inv (channel buffer) os). Qed.
Print Assumptions C183_order.
(** What is left is received by as many further calls. *)
Theorem C183_drain {A} (buffer : N) (os : list (cop A)) :
  let h := ch_trace (channel buffer) (os ++ replicate (length (given (ch_trace (channel buffer) os))) CRecv) in
  taken h = given h.
Proof.
  cbn zeta. pose proof (trace_inv (channel buffer) os eq_refl) as Ho. cbn [ch_queue channel app] in Ho.
  set (n := length _). assert (length (ch_queue (fold_left (λ s o, (ch_step s o).1) os (channel buffer))) ≤ n)%nat as Hn.
  { unfold n. rewrite <-Ho, app_length. lia. }
  pose proof (trace_inv (channel buffer) (os ++ replicate n CRecv) eq_refl) as H. cbn [ch_queue channel app] in H. rewrite <-H.
  rewrite fold_left_app. assert (∀ s : chan A, (length (ch_queue s) ≤ n)%nat → ch_queue (fold_left (λ s o, (ch_step s o).1) (replicate n CRecv) s) = []) as Hz; [|rewrite Hz by done; by rewrite app_nil_r].
  clear. induction n as [|n IH]; intros s Hl; [cbn; destruct (ch_queue s); [done|cbn in Hl; lia]|]. cbn. destruct (ch_queue s) as [|v q] eqn:Hq; cbn; apply IH; [by rewrite Hq; cbn; lia|cbn in *; lia].
Qed.
Print Assumptions C183_drain.
Example C183_example :
  (ch_trace (channel 1) [CSend 1; CSend 2; CRecv; CSend 3; CRecv; CRecv]).*2 = [CSent; CSent; CGot 1; CSent; CGot 2; CGot 3].
Proof. by vm_compute. Qed.

(** *** C184: receiving ends only when the sender is gone, sending waits for room and fails without a receiver *)
(** Receiving gives a value whenever one was sent and not yet received. *)
Theorem C184_get_partial {A} (buffer : N) (os : list (cop A)) :
  (length (taken (ch_trace (channel buffer) os)) < length (given (ch_trace (channel buffer) os)))%nat →
  ∃ v, (ch_step (ch_run buffer os) CRecv).2 = CGot v ∧ given (ch_trace (channel buffer) os) !! length (taken (ch_trace (channel buffer) os)) = Some v.
Proof.
  intros Hl. destruct (C183_order buffer os) as (rest & Hr & ->). rewrite Hr in Hl. rewrite app_length in Hl. rewrite Hr.
  destruct (ch_queue (ch_run buffer os)) as [|v q] eqn:Hq; [cbn in Hl; lia|]. exists v. split; [cbn; by rewrite Hq|]. by apply list_lookup_middle.
Qed.
Print Assumptions C184_get_partial.
(** But it ends whenever nothing is waiting, with the sender still there. *)
Theorem C184_end_refuted {A} (buffer : N) (os : list (cop A)) :
  length (taken (ch_trace (channel buffer) os)) = length (given (ch_trace (channel buffer) os)) →
  CDropSender ∉ os → (ch_step (ch_run buffer os) CRecv).2 = CEnd.
Proof.
  intros Hl Hd. destruct (C183_order buffer os) as (rest & Hr & ->). rewrite Hr in Hl. rewrite app_length in Hl.
  destruct (ch_queue (ch_run buffer os)) as [|v q] eqn:Hq; [cbn; by rewrite Hq|cbn in Hl; lia].
Qed.
Print Assumptions C184_end_refuted.
(** Sending always succeeds at once: however many values wait, whatever the size of the buffer, and with the
    receiver gone. *)
Theorem C184_send_refuted {A} (buffer : N) (os : list (cop A)) v : (ch_step (ch_run buffer os) (CSend v)).2 = CSent.
Proof. cbn. unfold ch_run. by rewrite (run_open os (channel buffer) eq_refl). Qed.
Print Assumptions C184_send_refuted.
Theorem C184_room_refuted {A} (buffer : N) (v : A) n : length (ch_queue (ch_run buffer (replicate n (CSend v)))) = n.
Proof.
  destruct (C183_order buffer (replicate n (CSend v))) as (rest & Hr & Hq). rewrite <-Hq. clear Hq.
  assert (∀ s : chan A, ch_closed s = false → given (ch_trace s (replicate n (CSend v))) = replicate n v ∧ taken (ch_trace s (replicate n (CSend v))) = []) as H.
  { clear. induction n as [|n IH]; intros s Hs; [done|]. cbn. rewrite Hs. cbn. destruct (IH (MkChan (ch_queue s ++ [v]) false) eq_refl) as [H1 H2].
    unfold given, taken in *. cbn. by rewrite H1, H2. }
  destruct (H (channel buffer) eq_refl) as [H1 H2]. rewrite H1, H2 in Hr. cbn in Hr. rewrite <-Hr. apply replicate_length.
Qed.
Print Assumptions C184_room_refuted.
Example C184_example :
  (ch_trace (channel 1) [CRecv; CSend 1; CRecv; CRecv; CDropReceiver; CSend 2; CSend 3]).*2 = [CEnd; CSent; CGot 1; CEnd; CNone; CSent; CSent].
Proof. by vm_compute. Qed.

(** *** C185: a log entry names the request of the innermost scope its task is in, and none outside *)
Theorem C185_scope (h : list event) t level msg c : within h t c →
  ∃ e, logged h (ELog t level msg) = Some e ∧ names e c ∧ le_level e = level ∧ le_msg e = msg.
Proof. intros H. apply within_scopes in H. eexists. split; [cbn; by rewrite H|]. done. Qed.
Print Assumptions C185_scope.
Theorem C185_none (h : list event) t level msg : outside h t →
  ∃ e, logged h (ELog t level msg) = Some e ∧ names_none e ∧ le_level e = level ∧ le_msg e = msg.
Proof. intros H. apply outside_current in H. eexists. split; [cbn; by rewrite H|]. done. Qed.
Print Assumptions C185_none.
(** There is no third case, and the innermost scope is one: so other tasks never change what an entry names. *)
Theorem C185_cases (h : list event) t : nested h → outside h t ∨ ∃ c, within h t c.
Proof. intros Hn. destruct (current h t) as [c|] eqn:H; [right; exists c; by apply within_scopes|left; by apply current_outside]. Qed.
Print Assumptions C185_cases.
Theorem C185_one (h : list event) t c c' : within h t c → within h t c' → c = c'.
Proof. rewrite !within_scopes. congruence. Qed.
Print Assumptions C185_one.
Definition c185_a : context := Ctx (IdNum 7) (lit "trace-a") None (lit "s1") (Some (lit "ann")) None None ∅ ∅.
Definition c185_b : context := Ctx (IdNum 8) (lit "trace-b") None (lit "s2") None (Some (lit "sess")) None ∅ ∅.
Example C185_example :
  let h := [EEnter 1 c185_a; EEnter 2 c185_b; EEnter 1 c185_b; ELog 1 (lit "info") (lit "x"); ELeave 1; ELeave 2] in
  within h 1 c185_a ∧ outside h 2 ∧ nested h ∧
  (le_request <$> logged h (ELog 1 (lit "info") (lit "done"))) = Some (Some (IdNum 7)).
Proof.
  cbn zeta. split; [apply within_scopes; by vm_compute|]. split; [|split; [|by vm_compute]].
  - apply closed_other; [done..|]. apply (closed_scope 2 c185_b [EEnter 1 c185_b; ELog 1 (lit "info") (lit "x"); ELeave 1] []); [|constructor]. repeat (apply closed_other; [done..|]). constructor.
  - intros h1 h2 t H. destruct h1 as [|e1 h1]; [done|]. destruct h1 as [|e2 h1]; [done|]. destruct h1 as [|e3 h1]; [done|]. destruct h1 as [|e4 h1]; [done|].
    destruct h1 as [|e5 h1].
    { inversion H; subst. exists c185_b. apply within_scopes. by vm_compute. }
    destruct h1 as [|e6 h1]; [inversion H; subst; exists c185_b; apply within_scopes; by vm_compute|].
    apply (f_equal length) in H. cbn in H. rewrite app_length in H. cbn in H. lia.
Qed.

(** *** C186: log entries of work started within a request name the request *)
(** True of a started task that runs in a scope of its own with the context. *)
Theorem C186_own_partial (h1 h2 : list event) t new c level msg : (∀ c, EEnter new c ∉ h2) → ELeave new ∉ h2 →
  ∃ e, logged (h1 ++ ESpawn t new :: EEnter new c :: h2) (ELog new level msg) = Some e ∧ names e c.
Proof.
  intros He Hl. destruct (C185_scope (h1 ++ ESpawn t new :: EEnter new c :: h2) new level msg c) as (e & ? & ? & _); [|by exists e].
  exists (h1 ++ [ESpawn t new]), h2. split; [by rewrite <-app_assoc|]. by apply fresh_outside.
Qed.
Print Assumptions C186_own_partial.
(** A task started within a request, with no scope of its own, names none. *)
Theorem C186_spawn_refuted (h1 h2 : list event) t new c level msg : within h1 t c →
  (∀ c, EEnter new c ∉ h1 ++ h2) → ELeave new ∉ h1 ++ h2 →
  ∃ e, logged (h1 ++ ESpawn t new :: h2) (ELog new level msg) = Some e ∧ names_none e.
Proof.
  intros _ He Hl. destruct (C185_none (h1 ++ ESpawn t new :: h2) new level msg) as (e & ? & ? & _); [|by exists e].
  apply fresh_outside.
  - intros c' Hc. apply (He c'). rewrite elem_of_app, elem_of_cons in Hc. rewrite elem_of_app. naive_solver.
  - intros Hc. apply Hl. rewrite elem_of_app, elem_of_cons in Hc. rewrite elem_of_app. naive_solver.
Qed.
Print Assumptions C186_spawn_refuted.
Example C186_example :
  (le_request <$> logged [EEnter 1 c185_a; ESpawn 1 2] (ELog 2 (lit "info") (lit "x"))) = Some None ∧
  (le_request <$> logged [EEnter 1 c185_a; ESpawn 1 2; EEnter 2 c185_a] (ELog 2 (lit "info") (lit "x"))) = Some (Some (IdNum 7)).
Proof. by vm_compute. Qed.

(** *** C187: an entry is logged at the level it names, in capitals or not *)
Theorem C187_level t :
  (spelled t "trace" → level_of t = Trace) ∧ (spelled t "debug" → level_of t = Debug) ∧ (spelled t "info" → level_of t = Info) ∧
  (spelled t "warn" → level_of t = Warn) ∧ (spelled t "error" → level_of t = Error).
Proof.
  assert (∀ w, forallb (λ c, (97 <=? c) && (c <=? 122)) (lit w) = true → spelled t w → lower <$> t = lit w) as H.
  { intros w Hw. apply spelled_lower. rewrite forallb_forall in Hw. apply Forall_forall. intros c Hc. apply elem_of_list_In, Hw, andb_true_iff in Hc as [H1%N.leb_le H2%N.leb_le]. done. }
  split_and!; intros Hs; unfold level_of; cbn zeta; apply H in Hs; [|by vm_compute| |by vm_compute| |by vm_compute| |by vm_compute| |by vm_compute]; rewrite Hs; by vm_compute.
Qed.
Print Assumptions C187_level.
(** Any other name is logged at info: in particular the protocol's own names for warnings and worse, and nothing
    but the five words is logged at another level. *)
Theorem C187_other_partial t : level_of t ≠ Info → spelled t "trace" ∨ spelled t "debug" ∨ spelled t "warn" ∨ spelled t "error".
Proof.
  assert (∀ w, forallb (λ c, (97 <=? c) && (c <=? 122)) (lit w) = true → lower <$> t = lit w → spelled t w) as H.
  { intros w Hw. apply spelled_lower. rewrite forallb_forall in Hw. apply Forall_forall. intros c Hc. apply elem_of_list_In, Hw, andb_true_iff in Hc as [H1%N.leb_le H2%N.leb_le]. done. }
  unfold level_of. cbn zeta. intros Hi. repeat (let E := fresh "E" in case_bool_decide as E; [apply H in E; [|by vm_compute]; first [by destruct Hi|tauto]|]). by destruct Hi.
Qed.
Print Assumptions C187_other_partial.
Theorem C187_warning_refuted t : spelled t "warning" ∨ spelled t "critical" ∨ spelled t "alert" ∨ spelled t "emergency" ∨ spelled t "fatal" → level_of t = Info.
Proof.
  assert (∀ w, forallb (λ c, (97 <=? c) && (c <=? 122)) (lit w) = true → spelled t w → lower <$> t = lit w) as H.
  { intros w Hw. apply spelled_lower. rewrite forallb_forall in Hw. apply Forall_forall. intros c Hc. apply elem_of_list_In, Hw, andb_true_iff in Hc as [H1%N.leb_le H2%N.leb_le]. done. }
  intros Hs. unfold level_of. cbn zeta.
  destruct Hs as [Hs|[Hs|[Hs|[Hs|Hs]]]]; apply H in Hs; [|by vm_compute| |by vm_compute| |by vm_compute| |by vm_compute| |by vm_compute]; rewrite Hs; by vm_compute.
Qed.
Print Assumptions C187_warning_refuted.
Example C187_example : level_of (lit "WARN") = Warn ∧ level_of (lit "Error") = Error ∧ level_of (lit "warning") = Info ∧ spelled (lit "WaRn") "warn".
Proof.
  split; [by vm_compute|]. split; [by vm_compute|]. split; [by vm_compute|]. apply spelled_lower; [|by vm_compute]. apply (bool_decide_unpack _). by vm_compute.
Qed.

(** *** C188: a reader of the line finds the message, the level, the request and the last value of each field *)
Theorem C188_line time e fields : Forall scalar time → writable e → fields ≡ₚ map_to_list (le_fields e) →
  finds (log_line time e fields) "message" (JStr (le_msg e)) ∧
  finds (log_line time e fields) "level" (JStr (le_level e)) ∧
  finds (log_line time e fields) "request_id" (match le_request e with Some (IdStr s) => JStr s | Some (IdNum z) => JInt z | None => JNull end) ∧
  finds (log_line time e fields) "trace_id" (text_or_null (le_trace e)) ∧
  finds (log_line time e fields) "span_id" (text_or_null (le_span e)) ∧
  finds (log_line time e fields) "user_id" (text_or_null (le_user e)) ∧
  finds (log_line time e fields) "session_id" (text_or_null (le_session e)) ∧
  finds (log_line time e fields) "fields" (JObj fields).
Proof.
  intros Ht Hw Hp. pose proof (of_to_bytes _ (entry_storable time e fields Ht Hw Hp)) as Hb. unfold finds, log_line. rewrite Hb.
  assert (∀ o, text_or_null o = null_or (JStr <$> o)) as Hn by (by intros []).
  assert (match le_request e with Some (IdStr s) => JStr s | Some (IdNum z) => JInt z | None => JNull end = null_or (rid_json <$> le_request e)) as -> by (by destruct (le_request e) as [[]|]).
  rewrite !Hn. split_and!; eexists; (split; [reflexivity|]); (split; [repeat first [by left|right]|by apply (entry_nodup time e fields)]).
Qed.
Print Assumptions C188_line.
Theorem C188_field e k v k' : le_fields (with_field e k v) !! k' = (if bool_decide (k = k') then Some v else le_fields e !! k').
Proof. cbn [with_field le_fields]. case_bool_decide as H; [by subst; rewrite lookup_insert|by rewrite lookup_insert_ne]. Qed.
Print Assumptions C188_field.
(** Fields change nothing else of the entry. *)
Theorem C188_rest e k v : le_msg (with_field e k v) = le_msg e ∧ le_level (with_field e k v) = le_level e ∧ ∀ c, names e c → names (with_field e k v) c.
Proof. done. Qed.
Print Assumptions C188_rest.
Definition c188_entry : entry := with_field (with_field (new_entry (Some c185_a) (lit "info") (lit "a ""quoted"" line")) (lit "n") (JInt 1)) (lit "n") (JArr [JInt 2]).
Example C188_example : le_fields c188_entry !! lit "n" = Some (JArr [JInt 2]) ∧
  log_line (lit "t") c188_entry (map_to_list (le_fields c188_entry)) =
  lit "{""timestamp"":""t"",""level"":""info"",""message"":""a \""quoted\"" line"",""request_id"":7,""trace_id"":""trace-a"",""span_id"":""s1"",""user_id"":""ann"",""session_id"":null,""fields"":{""n"":[2]},""error"":null}".
Proof. by vm_compute. Qed.
