(** Properties C03 - C06 and C62 - C64 (batches). *)
From Coq Require Import QArith.
From stdpp Require Import gmap strings list sorting.
From Verif Require Import ListLib ProtocolModel BatchModel BatchProofs.
Local Close Scope Q_scope.
Local Open Scope nat_scope.

(** C03: for every complete schedule, and every order in which results are collected, there is
    one response per request and the one at position [i] is what task [i] produced (its handler's
    response, or the timeout response). *)
Theorem C03_parallel_order : ∀ cfg reqs sched s l l',
  bruns cfg (binit cfg reqs) sched = Some s → joined s = Some l → l' ≡ₚ l →
  length (responses_of l') = length reqs ∧
  ∀ i r, responses_of l' !! i = Some r ↔
         (Finish i r ∈ sched ∨ (TimeoutAt i ∈ sched ∧ r = MkBResp (RString "null") (PError (-32603) "Request timeout"))).
Proof. exact parallel_result. Qed.
Print Assumptions C03_parallel_order.

Theorem C03_batch_count : ∀ handled b out, process_batch handled b out →
  length (match out with SingleResp r => [r] | BatchResp l => l end) = length (into_requests b).
Proof. exact process_batch_count. Qed.
Print Assumptions C03_batch_count.

(** C04, the part that holds: as long as no per-request timeout fires. *)
Theorem C04_ids_match_partial : ∀ cfg reqs sched s l l',
  bruns cfg (binit cfg reqs) sched = Some s → joined s = Some l → l' ≡ₚ l →
  (∀ i r q, Finish i r ∈ sched → reqs !! i = Some q → br_id r = bq_id q) →
  (∀ i, TimeoutAt i ∉ sched) →
  br_id <$> responses_of l' = bq_id <$> reqs.
Proof. exact ids_match. Qed.
Print Assumptions C04_ids_match_partial.

(** C04 fails whenever one does: in every batch the answer in that place has the id "null" instead
    of the request's. *)
Theorem C04_timeout_id_refuted : ∀ cfg reqs sched s l l' i q,
  bruns cfg (binit cfg reqs) sched = Some s → joined s = Some l → l' ≡ₚ l →
  TimeoutAt i ∈ sched → reqs !! i = Some q →
  ∃ r, responses_of l' !! i = Some r ∧ br_id r = RString "null" ∧ (bq_id q ≠ RString "null" → br_id r ≠ bq_id q).
Proof.
  intros cfg reqs sched s l l' i q Hr Hj Hp Ht Hq. destruct (parallel_result _ _ _ _ _ _ Hr Hj Hp) as [_ H].
  eexists. split; [apply H; right; split; [done|reflexivity]|]. split; [done|]. cbn. congruence.
Qed.
Print Assumptions C04_timeout_id_refuted.

(** C05: at most [max_concurrency] handlers run at any point of any schedule. *)
Theorem C05_concurrency_bounded : ∀ cfg reqs sched s,
  bruns cfg (binit cfg reqs) sched = Some s →
  length (filter (λ t, is_running t = true) (stats s)) ≤ max_concurrency cfg.
Proof. exact concurrency_bounded. Qed.
Print Assumptions C05_concurrency_bounded.

(** C05: with a positive limit no schedule gets stuck (without relying on timeouts) ... *)
Theorem C05_progress : ∀ cfg reqs sched s,
  0 < max_concurrency cfg →
  bruns cfg (binit cfg reqs) sched = Some s →
  (∃ l, joined s = Some l) ∨ ∃ o s', bexec cfg s o = Some s' ∧ (∀ i, o ≠ TimeoutAt i).
Proof. exact progress_all. Qed.
Print Assumptions C05_progress.

(** ... and every schedule has ended, with all results, after exactly two steps per request. *)
Theorem C05_terminates : ∀ cfg reqs sched s,
  bruns cfg (binit cfg reqs) sched = Some s →
  length sched ≤ 2 * length reqs ∧
  (length sched = 2 * length reqs ↔ ∃ l, joined s = Some l).
Proof. exact completes. Qed.
Print Assumptions C05_terminates.

(** The guard is needed: with limit 0 no step is ever possible. *)
Theorem C05_zero_limit_stuck : ∀ cfg reqs sched s,
  max_concurrency cfg = 0 → bruns cfg (binit cfg reqs) sched = Some s → sched = [].
Proof. exact zero_concurrency_stuck. Qed.
Print Assumptions C05_zero_limit_stuck.

(** C06: arrays of a length other than one are answered by arrays, single requests by single
    responses. *)
Theorem C06_shape_partial : ∀ handled rs out, length rs ≠ 1 →
  process_batch handled (BatchReq rs) out → ∃ l, out = BatchResp l ∧ length l = length rs.
Proof. exact process_batch_shape_long. Qed.
Print Assumptions C06_shape_partial.

Theorem C06_single_shape : ∀ handled q out,
  process_batch handled (SingleReq q) out → ∃ r, out = SingleResp r ∧ handled q r.
Proof. exact process_batch_shape_single. Qed.
Print Assumptions C06_single_shape.

(** C06 fails for an array of one request: the only possible answer is a bare object. *)
Theorem C06_array_of_one_refuted : ∀ (handled : brequest → bresponse → Prop) q r, handled q r →
  process_batch handled (BatchReq [q]) (SingleResp r) ∧
  ∀ out, process_batch handled (BatchReq [q]) out → ∀ l, out ≠ BatchResp l.
Proof.
  intros handled q r Hh. split.
  - by apply (pb_one handled (BatchReq [q]) q r eq_refl Hh).
  - intros out H l. inversion H as [|b q' r' Hb Hh'|b sched s l0 l' Hlt]; subst; simpl in *; [done|lia].
Qed.
Print Assumptions C06_array_of_one_refuted.

(** C62: the documented limit of [n] requests per second is not enforced: for every rate [n], [n * n]
    requests queued at once all pass within the first second. *)
Theorem C62_rate_limit_refuted : ∀ n, 0 < n →
  length (rate_limit_times n (n * n)) = n * n ∧
  ∀ k t, rate_limit_times n (n * n) !! k = Some t → (t <= 1000000000)%N.
Proof.
  intros n Hn. split; [by apply rate_limit_all|]. intros k t H.
  apply (rate_limit_quadratic n k t Hn); [|done]. apply lookup_lt_Some in H. by rewrite rate_limit_all in H.
Qed.
Print Assumptions C62_rate_limit_refuted.
Example C62_example :
  length (filter (λ t, (t <= 1000000000)%N) (rate_limit_times 10 200)) = 100.
Proof. vm_compute. reflexivity. Qed.

(** C63: [fail_fast] has no effect on what can happen: the schedules and their outcomes are the
    same with and without it, and every request is handled in every complete schedule, whatever
    failed before; a request that waits can be started right after any failure. *)
Theorem C63_fail_fast_refuted : ∀ cfg reqs sched,
  (∀ ff, bruns (MkBConfig (max_concurrency cfg) ff (request_timeout_ms cfg)) (binit cfg reqs) sched = bruns cfg (binit cfg reqs) sched) ∧
  (∀ s l, bruns cfg (binit cfg reqs) sched = Some s → joined s = Some l → ∀ i, i < length reqs → Start i ∈ sched) ∧
  (∀ s i j code message, bruns cfg (binit cfg reqs) (sched ++ [Finish j (MkBResp (RNumber (Z.of_nat j)) (PError code message))]) = Some s →
     stats s !! i = Some Idle → ∃ s', bexec cfg s (Start i) = Some s').
Proof.
  intros cfg reqs sched. split; [|split].
  - intros ff. apply bruns_fail_fast.
  - intros s l Hr Hj i Hi. by eapply all_started.
  - intros s i j code message Hr Hi. destruct (bruns_after_finish _ _ _ _ _ _ Hr) as [p Hp]. cbn [bexec]. rewrite Hi, Hp. by eexists.
Qed.
Print Assumptions C63_fail_fast_refuted.

(** C64: the counters always add up, for every sequence of processed batches. *)
Theorem C64_metrics_counts : ∀ bs : list (N * list bresponse),
  let m := fold_left (λ m b, record_batch m (N.of_nat (length b.2)) b.1 b.2) bs metrics0 in
  (m_ok m + m_err m + m_timeout m = m_total m)%N ∧
  m_total m = foldr (λ b n, (N.of_nat (length (snd b)) + n)%N) 0%N bs ∧
  m_max m = foldr (λ b n, N.max (fst b) n) 0%N bs.
Proof. exact metrics_counts. Qed.
Print Assumptions C64_metrics_counts.

(** C64: every response is counted in its own class: a success, an error whose message contains
    "timeout", or another error. *)
Theorem C64_metrics_classes : ∀ bs : list (N * list bresponse),
  let m := record_all bs in let rs := concat (snd <$> bs) in
  m_ok m = N.of_nat (length (filter (λ r, is_success r = true) rs)) ∧
  m_timeout m = N.of_nat (length (filter (λ r, is_timeout r = true) rs)) ∧
  m_err m = N.of_nat (length (filter (λ r, is_other_error r = true) rs)).
Proof. exact metrics_classes. Qed.
Print Assumptions C64_metrics_classes.

(** C64: the average is total batch time over total requests if the first batch is non-empty ... *)
Theorem C64_average_partial : ∀ t rs bs, rs ≠ [] →
  ∃ a, m_avg (record_all ((t, rs) :: bs)) = Some a ∧
   (a * inject_Z (Z.of_N (m_total (record_all ((t, rs) :: bs))))
     == inject_Z (Z.of_N (foldr (λ b n, (fst b + n)%N) 0%N ((t, rs) :: bs))))%Q.
Proof. exact avg_correct. Qed.
Print Assumptions C64_average_partial.

(** ... and NaN for ever after an empty first batch. *)
Theorem C64_average_nan_refuted : ∀ t bs, m_avg (record_all ((t, []) :: bs)) = None.
Proof. exact avg_nan. Qed.
Print Assumptions C64_average_nan_refuted.

(** Non-vacuity: the second of two requests times out; after an error with [fail_fast] set and one
    request at a time, the second request is started. *)
Example C04_example :
  let reqs := [MkBReq (RNumber 1) "a" 0; MkBReq (RNumber 2) "b" 0] in
  ∃ s l,
    bruns default_bconfig (binit default_bconfig reqs) [Start 0; Start 1; TimeoutAt 1; Finish 0 (MkBResp (RNumber 1) (PResult 5))] = Some s ∧ joined s = Some l ∧
    br_id <$> responses_of l = [RNumber 1; RString "null"] ∧ bq_id <$> reqs = [RNumber 1; RNumber 2].
Proof. eexists; eexists. split; [vm_compute; reflexivity|]. split; [vm_compute; reflexivity|]. vm_compute; done. Qed.
Example C63_example :
  let cfg := MkBConfig 1 true None in
  let reqs := [MkBReq (RNumber 0) "a" 0; MkBReq (RNumber 1) "b" 0] in
  ∃ s, bruns cfg (binit cfg reqs) [Start 0; Finish 0 (MkBResp (RNumber 0) (PError (-32000) "boom")); Start 1] = Some s ∧ stats s !! 1 = Some Running.
Proof. eexists. vm_compute. done. Qed.

(** Non-vacuity: three requests, limit two, results finish in the order 2, 0, 1. *)
Example C03_example :
  let cfg := MkBConfig 2 false None in
  let reqs := [MkBReq (RNumber 1) "a" 0; MkBReq (RNumber 2) "b" 0; MkBReq (RNumber 3) "c" 0] in
  let ok z := MkBResp (RNumber z) (PResult z) in
  ∃ s l,
  bruns cfg (binit cfg reqs)
    [Start 0; Start 2; Finish 2 (ok 3%Z); Start 1; Finish 0 (ok 1%Z); Finish 1 (ok 2%Z)] = Some s ∧
  joined s = Some l ∧ responses_of (reverse l) = [ok 1%Z; ok 2%Z; ok 3%Z].
Proof. eexists; eexists. split; [vm_compute; reflexivity|]. split; vm_compute; reflexivity. Qed.
Example C64_example :
  (match m_avg (record_all [(30%N, [MkBResp (RNumber 1) (PResult 0)]);
                            (10%N, [MkBResp (RNumber 1) (PError 1 "timeout")])]) with
   | Some a => Qeq_bool a 20 = true
   | None => False
   end)%Q.
Proof. vm_compute. reflexivity. Qed.
