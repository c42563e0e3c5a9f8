(** Theorems about batches with a shared state. *)
From stdpp Require Import gmap strings list list_numbers.
From Verif Require Import ListLib ProtocolModel BatchModel BatchProofs SharedModel SharedSpec.

Section proofs.
  Context {S : Type} (cfg : bconfig) (h : shandler S) (reqs : list brequest) (x0 : S).
  Lemma one_snoc x l p : one_by_one h reqs x (l ++ [p]) = section h reqs p (one_by_one h reqs x l).
  Proof. unfold one_by_one. by rewrite fold_left_app. Qed.
  Lemma found_snoc i x l p : found h reqs i x (l ++ [p]) = found h reqs i x l ++ (if decide (p.1 = i) then [one_by_one h reqs x l] else []).
  Proof. revert x. induction l as [|p' l IH]; intros x; cbn [app found]; [by rewrite app_nil_r|]. rewrite IH, <-app_assoc. done. Qed.

  (** What is true at every point of every schedule. *)
  Record inv (T : list sstep) (s : sstate S) : Prop := MkInv {
    i_shared : s_shared s = one_by_one h reqs x0 (s_ran s);
    i_len : length (s_seen s) = length reqs;
    i_stats : length (stats (s_batch s)) = length reqs;
    i_seen : ∀ i l, s_seen s !! i = Some l → l = found h reqs i x0 (s_ran s) ∧ filter (λ p, p.1 = i) (s_ran s) = pair i <$> seq 0 (length l) ∧
                                            ∀ q, reqs !! i = Some q → length l ≤ length (secs h q);
    i_only : ∀ p, p ∈ s_ran s → p.1 < length reqs;
    i_nodup : NoDup (s_ran s);
    i_done : ∀ i r, stats (s_batch s) !! i = Some (Done r) →
      (∃ q l, reqs !! i = Some q ∧ s_seen s !! i = Some l ∧ length l = length (secs h q) ∧ r = reply h q l) ∨
      r = timeout_response ∧ STimeout i ∈ T }.
  Lemma inv_init : inv [] (sinit cfg x0 reqs).
  Proof.
    split; cbn [sinit s_shared s_seen s_batch s_ran binit stats]; [done|by rewrite fmap_length..| | |constructor|].
    - intros i l Hl. apply list_lookup_fmap_Some in Hl as (q & _ & ->). cbn [length seq found]. split; [reflexivity|]. split; [reflexivity|]. intros. lia.
    - intros p Hp. by apply elem_of_nil in Hp.
    - intros i r Hr. apply list_lookup_fmap_Some in Hr as (q & _ & ?). done.
  Qed.
  Lemma inv_batch T T' s b : inv T s → T ⊆ T' → length (stats b) = length reqs →
    (∀ i r, stats b !! i = Some (Done r) → stats (s_batch s) !! i = Some (Done r) ∨
      (∃ q l, reqs !! i = Some q ∧ s_seen s !! i = Some l ∧ length l = length (secs h q) ∧ r = reply h q l) ∨ r = timeout_response ∧ STimeout i ∈ T') →
    inv T' (MkSState (s_shared s) (s_seen s) b (s_ran s)).
  Proof.
    intros I HT Hl Hd. destruct I as [I1 I2 I3 I4 I5 I6 I7]. split; cbn; try done. intros i r Hr. destruct (Hd i r Hr) as [H|H]; [|done].
    destruct (I7 i r H) as [?|[? ?]]; [by left|right; auto].
  Qed.
  Lemma inv_step T s o s' : inv T s → sexec cfg h reqs s o = Some s' → inv (T ++ [o]) s'.
  Proof.
    intros I H. assert (T ⊆ T ++ [o]) as HT by (intros y Hy; apply elem_of_app; by left). destruct o as [i|i|i|i]; cbn [sexec] in H.
    - apply bind_Some in H as (b & Hb & [= <-]). cbn [bexec] in Hb. destruct (stats (s_batch s) !! i) as [[]|] eqn:E; try done. destruct (permits (s_batch s)); [done|]. injection Hb as <-.
      apply (inv_batch T); [done|done|cbn; by rewrite insert_length, (i_stats T s I)|]. cbn. intros j r Hr. left. destruct (decide (i = j)) as [<-|]; [|by rewrite list_lookup_insert_ne in Hr].
      rewrite list_lookup_insert in Hr by (by eapply lookup_lt_Some). done.
    - destruct (stats (s_batch s) !! i) as [[]|] eqn:E; try done. destruct (reqs !! i) as [q|] eqn:Eq; [|done]. destruct (s_seen s !! i) as [l|] eqn:El; [|done].
      destruct (secs h q !! length l) as [f|] eqn:Ef; [|done]. injection H as <-. destruct (i_seen T s I i l El) as (Hl & Hfil & Hle).
      assert (section h reqs (i, length l) (s_shared s) = f (s_shared s)) as Hs. { unfold section. cbn [fst snd]. by rewrite Eq, Ef. }
      split; cbn [s_shared s_seen s_batch s_ran].
      + rewrite one_snoc, <-(i_shared T s I). done.
      + by rewrite insert_length, (i_len T s I).
      + apply (i_stats T s I).
      + intros j m Hm. destruct (decide (i = j)) as [<-|Hj].
        * rewrite list_lookup_insert in Hm by (by eapply lookup_lt_Some). injection Hm as <-. rewrite found_snoc. cbn [fst]. rewrite decide_True by done. split; [by rewrite <-Hl, <-(i_shared T s I)|].
          rewrite filter_app, Hfil, app_length. cbn [length]. rewrite filter_cons_True, filter_nil by done. rewrite seq_app, fmap_app. split; [done|].
          intros q' [= <-]%(λ H, eq_trans (eq_sym Eq) H). apply lookup_lt_Some in Ef. lia.
        * rewrite list_lookup_insert_ne in Hm by done. destruct (i_seen T s I j m Hm) as (H1 & H2 & H3). rewrite found_snoc. cbn [fst]. rewrite decide_False, app_nil_r by done. split; [done|]. split; [|done].
          rewrite filter_app, H2, filter_cons_False, filter_nil by done. by rewrite app_nil_r.
      + intros p [Hp| ->%elem_of_list_singleton]%elem_of_app; [by apply (i_only T s I)|]. by apply lookup_lt_Some in Eq.
      + apply NoDup_app. split; [apply (i_nodup T s I)|]. split; [|apply NoDup_singleton]. intros p Hp ->%elem_of_list_singleton.
        assert ((i, length l) ∈ filter (λ p, p.1 = i) (s_ran s)) as Hx by by apply elem_of_list_filter. rewrite Hfil in Hx. apply elem_of_list_fmap in Hx as (k & [= <-] & Hk). apply elem_of_seq in Hk. lia.
      + intros j r Hr. destruct (i_done T s I j r Hr) as [(q' & l' & Hq' & Hl' & H1 & H2)|[H1 H2]]; [left|right; auto]. exists q', l'. split; [done|]. split; [|done]. rewrite list_lookup_insert_ne; [done|]. intros <-. by rewrite E in Hr.
    - destruct (reqs !! i) as [q|] eqn:Eq; [|done]. destruct (s_seen s !! i) as [l|] eqn:El; [|done]. case_decide as Hn; [|done].
      apply bind_Some in H as (b & Hb & [= <-]). cbn [bexec] in Hb. destruct (stats (s_batch s) !! i) as [[]|] eqn:E; try done. injection Hb as <-.
      apply (inv_batch T); [done|done|cbn; by rewrite insert_length, (i_stats T s I)|]. cbn. intros j r Hr. destruct (decide (i = j)) as [<-|]; [|left; by rewrite list_lookup_insert_ne in Hr].
      rewrite list_lookup_insert in Hr by (by eapply lookup_lt_Some). injection Hr as <-. right; left. by exists q, l.
    - apply bind_Some in H as (b & Hb & [= <-]). cbn [bexec] in Hb. destruct (request_timeout_ms cfg) eqn:Et; [|done]. destruct (stats (s_batch s) !! i) as [[]|] eqn:E; try done. injection Hb as <-.
      apply (inv_batch T); [done|done|cbn; by rewrite insert_length, (i_stats T s I)|]. cbn. intros j r Hr. destruct (decide (i = j)) as [<-|]; [|left; by rewrite list_lookup_insert_ne in Hr].
      rewrite list_lookup_insert in Hr by (by eapply lookup_lt_Some). injection Hr as <-. right; right. split; [done|]. apply elem_of_app. right. by left.
  Qed.
  Lemma inv_runs T sched s s' : inv T s → sruns cfg h reqs s sched = Some s' → inv (T ++ sched) s'.
  Proof.
    revert T s. induction sched as [|o sched IH]; intros T s I H; cbn [sruns] in H; [injection H as <-; by rewrite app_nil_r|]. destruct (sexec cfg h reqs s o) as [s1|] eqn:E; [|done]. rewrite cons_middle, app_assoc. eapply IH; [|done]. by eapply inv_step.
  Qed.
  (** The batch underneath. *)
  Lemma erased sched s s' : sruns cfg h reqs s sched = Some s' → ∃ sched', bruns cfg (s_batch s) sched' = Some (s_batch s') ∧ ∀ i, TimeoutAt i ∈ sched' → STimeout i ∈ sched.
  Proof.
    revert s. induction sched as [|o sched IH]; intros s H; cbn [sruns] in H.
    - injection H as <-. exists []. split; [done|]. intros i Hi. by apply elem_of_nil in Hi.
    - destruct (sexec cfg h reqs s o) as [s1|] eqn:E; [|done]. destruct (IH s1 H) as (sched' & Hr & Ht).
      assert (s_batch s1 = s_batch s ∨ ∃ o', bexec cfg (s_batch s) o' = Some (s_batch s1) ∧ ∀ i, o' = TimeoutAt i → o = STimeout i) as [Hb|(o' & Hb & Ho')].
      { destruct o as [i|i|i|i]; cbn [sexec] in E.
        - apply bind_Some in E as (b & Hb & [= <-]). right. by exists (Start i).
        - left. destruct (stats (s_batch s) !! i) as [[]|]; try done. destruct (reqs !! i); [|done]. destruct (s_seen s !! i); [|done]. destruct (secs h b !! length l); [|done]. by injection E as <-.
        - right. destruct (reqs !! i) as [q|]; [|done]. destruct (s_seen s !! i) as [l|]; [|done]. case_decide; [|done]. apply bind_Some in E as (b & Hb & [= <-]). by eexists.
        - apply bind_Some in E as (b & Hb & [= <-]). right. exists (TimeoutAt i). split; [done|]. by intros j [= ->]. }
      + exists sched'. rewrite <-Hb. split; [done|]. intros i Hi. right. by apply Ht.
      + exists (o' :: sched'). cbn [bruns]. rewrite Hb. split; [done|]. intros i [Hi|Hi]%elem_of_cons; [rewrite (Ho' i) by done; by left|right; by apply Ht].
  Qed.
  Lemma found_prefix T s i q : inv T s → reqs !! i = Some q → ∃ l, s_seen s !! i = Some l ∧ l = found h reqs i x0 (s_ran s) ∧ filter (λ p, p.1 = i) (s_ran s) = pair i <$> seq 0 (length l) ∧ length l ≤ length (secs h q).
  Proof.
    intros I Hq. destruct (lookup_lt_is_Some_2 (s_seen s) i) as [l Hl]; [rewrite (i_len T s I); by eapply lookup_lt_Some|]. destruct (i_seen T s I i l Hl) as (H1 & H2 & H3). exists l. auto.
  Qed.
End proofs.

(** ** C218 *)
(** At every point of every schedule the shared state is what the sections run so far make of it one after the other; the
    sections of one request have run in their order, each once. *)
Theorem C218_one_by_one : ∀ {S} cfg (h : shandler S) reqs x sched s, sruns cfg h reqs (sinit cfg x reqs) sched = Some s →
  s_shared s = one_by_one h reqs x (s_ran s) ∧ NoDup (s_ran s) ∧
  ∀ i q, reqs !! i = Some q → ∃ k, k ≤ length (secs h q) ∧ filter (λ p, p.1 = i) (s_ran s) = pair i <$> seq 0 k.
Proof.
  intros S cfg h reqs x sched s H. pose proof (inv_runs cfg h reqs x [] sched _ _ (inv_init cfg h reqs x) H) as I. split; [apply (i_shared _ _ _ _ _ I)|]. split; [apply (i_nodup _ _ _ _ _ I)|].
  intros i q Hq. destruct (found_prefix h reqs x _ s i q I Hq) as (l & _ & _ & H1 & H2). by exists (length l).
Qed.
Print Assumptions C218_one_by_one.
(** When the batch returns, each response is the handler's, computed from the states its sections found, all of them run – or the request was
    cut off by the timeout. *)
Theorem C218_replies : ∀ {S} cfg (h : shandler S) reqs x sched s l l', sruns cfg h reqs (sinit cfg x reqs) sched = Some s → joined (s_batch s) = Some l → l' ≡ₚ l →
  length (responses_of l') = length reqs ∧
  ∀ i q, reqs !! i = Some q →
    (responses_of l' !! i = Some (reply h q (found h reqs i x (s_ran s))) ∧ filter (λ p, p.1 = i) (s_ran s) = pair i <$> seq 0 (length (secs h q))) ∨
    (responses_of l' !! i = Some (MkBResp (RString "null") (PError (-32603) "Request timeout")) ∧ STimeout i ∈ sched).
Proof.
  intros S cfg h reqs x sched s l l' H Hj Hp. pose proof (inv_runs cfg h reqs x [] sched _ _ (inv_init cfg h reqs x) H) as I. destruct (erased _ _ _ _ _ _ H) as (sched' & Hr & Ht). cbn [sinit s_batch] in Hr.
  destruct (parallel_result _ _ _ _ _ _ Hr Hj Hp) as [Hlen Hres]. split; [done|]. intros i q Hq. rewrite !(responses_lookup _ _ _ i Hj Hp).
  destruct (stats (s_batch s) !! i) as [t|] eqn:E; cycle 1. { apply lookup_ge_None in E. apply lookup_lt_Some in Hq. rewrite (i_stats _ _ _ _ _ I) in E. lia. }
  assert (is_done t = true) as Hd. { apply (proj1 (joined_Some_iff (s_batch s))); [by exists l|]. by eapply elem_of_list_lookup_2. }
  destruct t as [| |r]; try done. destruct (found_prefix h reqs x _ s i q I Hq) as (m & Hm & H1 & H2 & _).
  destruct (i_done _ _ _ _ _ I i r E) as [(q' & m' & Hq' & Hm' & Hn & ->)|[-> Hin]]; [left|by right].
  rewrite Hq in Hq'. injection Hq' as <-. rewrite Hm in Hm'. injection Hm' as <-. rewrite <-H1, H2, Hn. done.
Qed.
Print Assumptions C218_replies.
(** Without a timeout every section of every request has run exactly once when the batch returns. *)
Theorem C218_all_once : ∀ {S} cfg (h : shandler S) reqs x sched s l, sruns cfg h reqs (sinit cfg x reqs) sched = Some s → joined (s_batch s) = Some l →
  (∀ i, STimeout i ∉ sched) → s_ran s ≡ₚ all_sections h reqs.
Proof.
  intros S cfg h reqs x sched s l H Hj Ht. pose proof (inv_runs cfg h reqs x [] sched _ _ (inv_init cfg h reqs x) H) as I. destruct (C218_replies cfg h reqs x sched s l l H Hj (Permutation_refl l)) as [_ Hall].
  assert (∀ i k, (i, k) ∈ s_ran s ↔ ∃ q, reqs !! i = Some q ∧ k < length (secs h q)) as Hin.
  { intros i k. split.
    - intros Hp. destruct (lookup_lt_is_Some_2 reqs i) as [q Hq]; [by apply (i_only _ _ _ _ _ I) in Hp|]. exists q. split; [done|].
      destruct (Hall i q Hq) as [[_ Hf]|[_ ?]]; [|by apply Ht in H0]. assert ((i, k) ∈ filter (λ p, p.1 = i) (s_ran s)) as Hx by by apply elem_of_list_filter.
      rewrite Hf in Hx. apply elem_of_list_fmap in Hx as (k' & [= <-] & Hk). apply elem_of_seq in Hk. lia.
    - intros (q & Hq & Hk). destruct (Hall i q Hq) as [[_ Hf]|[_ ?]]; [|by apply Ht in H0]. assert ((i, k) ∈ filter (λ p, p.1 = i) (s_ran s)) as Hx; [|by apply elem_of_list_filter in Hx as [_ ?]].
      rewrite Hf. apply elem_of_list_fmap. exists k. split; [done|]. apply elem_of_seq. lia. }
  apply NoDup_Permutation; [apply (i_nodup _ _ _ _ _ I)| |].
  - unfold all_sections. clear. assert (∀ n, NoDup (concat (imap (λ i q, pair (n + i) <$> seq 0 (length (secs h q))) reqs))) as G; [|exact (G 0)].
    induction reqs as [|q rs IH]; intros n; [constructor|]. cbn [imap concat]. apply NoDup_app. split; [apply NoDup_fmap_2; [by intros ?? [= ->]|apply NoDup_seq]|]. split.
    + intros [i k] H1 H2. apply elem_of_list_fmap in H1 as (k1 & E1 & _). injection E1 as -> ->. apply elem_of_list_In, in_concat in H2 as (l & Hl & H2). apply elem_of_list_In, elem_of_lookup_imap in Hl as (j & q' & -> & _).
      apply elem_of_list_In, elem_of_list_fmap in H2 as (k2 & E2 & _). injection E2 as E2 _. cbn in E2. lia.
    + erewrite imap_ext; [apply (IH (Datatypes.S n))|]. intros i q' _. cbn. f_equal. f_equal. lia.
  - intros [i k]. rewrite Hin. unfold all_sections. split.
    + intros (q & Hq & Hk). apply elem_of_list_In, in_concat. exists (pair i <$> seq 0 (length (secs h q))). split.
      * apply elem_of_list_In, elem_of_lookup_imap. by exists i, q.
      * apply elem_of_list_In, elem_of_list_fmap. exists k. split; [done|]. apply elem_of_seq. lia.
    + intros Hp. apply elem_of_list_In, in_concat in Hp as (l' & Hl & H2). apply elem_of_list_In, elem_of_lookup_imap in Hl as (j & q & -> & Hq).
      apply elem_of_list_In, elem_of_list_fmap in H2 as (k2 & E2 & Hk). injection E2 as -> ->. exists q. split; [done|]. apply elem_of_seq in Hk. lia.
Qed.
Print Assumptions C218_all_once.
(** Refuted: a request answered as timed out may have changed the state.  Whatever has run of a request's handler – all of it, perhaps –,
    the timeout can come next; what the handler did to the state stays. *)
Theorem C218_timeout_refuted : ∀ {S} cfg (h : shandler S) reqs x sched s i q k, is_Some (request_timeout_ms cfg) →
  sruns cfg h reqs (sinit cfg x reqs) sched = Some s → stats (s_batch s) !! i = Some Running → reqs !! i = Some q → k ≤ length (secs h q) → (∀ j, (i, j) ∉ s_ran s) →
  ∃ s', sruns cfg h reqs s (replicate k (SSection i) ++ [STimeout i]) = Some s' ∧
    stats (s_batch s') !! i = Some (Done (MkBResp (RString "null") (PError (-32603) "Request timeout"))) ∧
    s_shared s' = one_by_one h reqs (s_shared s) (pair i <$> seq 0 k).
Proof.
  intros S cfg h reqs x sched s i q k [t Ht] H Hs Hq Hk Hno. pose proof (inv_runs cfg h reqs x [] sched _ _ (inv_init cfg h reqs x) H) as I.
  destruct (found_prefix h reqs x _ s i q I Hq) as (m & Hm & _ & Hf & _).
  assert (m = []) as ->. { destruct m as [|y m]; [done|]. exfalso. apply (Hno 0). assert ((i, 0) ∈ filter (λ p, p.1 = i) (s_ran s)) as Hx by (rewrite Hf; cbn; by left). by apply elem_of_list_filter in Hx as [_ ?]. }
  clear H I Hf Hno. assert (∀ n m s, stats (s_batch s) !! i = Some Running → s_seen s !! i = Some m → length m + n ≤ length (secs h q) →
    ∃ s', sruns cfg h reqs s (replicate n (SSection i) ++ [STimeout i]) = Some s' ∧ stats (s_batch s') !! i = Some (Done timeout_response) ∧
      s_shared s' = one_by_one h reqs (s_shared s) (pair i <$> seq (length m) n)) as G; [|exact (G k [] s Hs Hm Hk)].
  clear s Hs Hm k Hk. induction n as [|n IH]; intros m s Hs Hm Hn; cbn [replicate app sruns].
  - cbn [sexec bexec]. rewrite Ht, Hs. cbn [mbind option_bind]. eexists. split; [done|]. cbn. rewrite list_lookup_insert by (by eapply lookup_lt_Some). done.
  - cbn [sexec]. rewrite Hs, Hq, Hm. destruct (lookup_lt_is_Some_2 (secs h q) (length m)) as [f Hf]; [lia|]. rewrite Hf.
    destruct (IH (m ++ [s_shared s]) (MkSState (f (s_shared s)) (<[i := m ++ [s_shared s]]> (s_seen s)) (s_batch s) (s_ran s ++ [(i, length m)]))) as (s' & H1 & H2 & H3).
    + done.
    + cbn. apply list_lookup_insert. by eapply lookup_lt_Some.
    + rewrite app_length. cbn. lia.
    + exists s'. split; [done|]. split; [done|]. rewrite H3. cbn [s_shared seq fmap list_fmap]. rewrite app_length, Nat.add_1_r. unfold one_by_one. cbn [fold_left]. f_equal. unfold section. cbn [fst snd]. by rewrite Hq, Hf.
Qed.
Print Assumptions C218_timeout_refuted.

(** Three requests that each take a ticket: the tickets are 1 to 3 in the order in which the sections ran, whatever the order of the
    requests; the last one is cut off after it has taken its ticket. *)
Definition ticket : shandler nat := MkSHandler (λ _, [Datatypes.S]) (λ q l, MkBResp (bq_id q) (PResult (Z.of_nat (Datatypes.S (default 0 (head l)))))).
Definition three : list brequest := [MkBReq (RNumber 7) "a" 0; MkBReq (RNumber 8) "b" 0; MkBReq (RNumber 9) "c" 0].
Definition bcfg : bconfig := MkBConfig 2 false (Some 10%N).
Example C218_example :
  let sched := [SStart 1; SStart 0; SSection 0; SSection 1; SReply 1; SStart 2; SSection 2; STimeout 2; SReply 0] in
  let r := sruns bcfg ticket three (sinit bcfg 0 three) sched in
  s_shared <$> r = Some 3 ∧ s_ran <$> r = Some [(0, 0); (1, 0); (2, 0)] ∧
  (r ≫= λ s, joined (s_batch s)) = Some [(0, MkBResp (RNumber 7) (PResult 1)); (1, MkBResp (RNumber 8) (PResult 2)); (2, MkBResp (RString "null") (PError (-32603) "Request timeout"))].
Proof. by vm_compute. Qed.
