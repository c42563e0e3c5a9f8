From stdpp Require Import list list_numbers strings.
From Coq Require Import ZifyBool.
From Verif Require Import ListLib TextLib Utf8Lib JsonLib SimdModel SimdSpec SimdProofs JsonFastModel JsonFastSpec.
Local Open Scope N_scope.

(** *** Numbers *)
Definition punct (c : N) : bool := (c =? 123) || (c =? 91) || (c =? 125) || (c =? 93) || (c =? 44) || (c =? 58).
Definition token (c : N) : Prop := json_ws c = false ∧ (c =? 34) = false ∧ punct c = false ∧ c < 128.
Lemma dig_token c : is_dig c = true → token c.
Proof. unfold is_dig, token, json_ws, punct. lia. Qed.
Lemma digs_token ds : Forall (λ d, is_dig d = true) ds → Forall token ds.
Proof. intros H. eapply Forall_impl; [exact H|]. exact dig_token. Qed.
Lemma scan_int_token t ds r : scan_int t = Some (ds, r) → Forall token ds.
Proof.
  destruct t as [|c t]; cbn [scan_int]; [done|]. destruct (c =? 48) eqn:E.
  - assert (token c) by (unfold token, json_ws, punct; lia). destruct t as [|d t]; [intros [= <- <-]; by apply Forall_singleton|]. destruct (is_dig d); [done|]. intros [= <- <-]. by apply Forall_singleton.
  - destruct (take_digits (c :: t)) as [[|d ds'] r'] eqn:Et; [done|]. intros [= <- <-]. apply take_digits_inv in Et as (_ & H & _). by apply digs_token.
Qed.
Definition frac_head (fr : list N) : Prop := match fr with [] => True | c :: ds => c = 46 ∧ ds ≠ [] ∧ Forall (λ d, is_dig d = true) ds end.
Lemma scan_frac_shape t fr r : scan_frac t = Some (fr, r) → frac_head fr.
Proof.
  destruct t as [|c t]; cbn [scan_frac]; [by intros [= <- <-]|]. destruct (c =? 46) eqn:E; [|by intros [= <- <-]].
  destruct (take_digits t) as [[|d ds] r'] eqn:Et; [done|]. intros [= <- <-]. apply take_digits_inv in Et as (_ & H & _). cbn [frac_head]. split; [lia|done].
Qed.
Lemma scan_exp_shape t ex r : scan_exp t = Some (ex, r) → Forall token ex ∧ scan_exp ex = Some (ex, []) ∧ match ex with [] => True | c :: _ => c = 101 ∨ c = 69 end.
Proof.
  destruct t as [|c t]; cbn [scan_exp]; [by intros [= <- <-]|]. destruct ((c =? 101) || (c =? 69)) eqn:E; [|by intros [= <- <-]].
  assert (token c) as Hc by (unfold token, json_ws, punct; lia). assert (c = 101 ∨ c = 69) as Hc' by lia.
  assert (∀ s sg ds, s = sg ++ ds → ds ≠ [] → Forall (λ d, is_dig d = true) ds → (sg = [] ∨ sg = [43] ∨ sg = [45]) → Forall token (c :: s) ∧ scan_exp (c :: s) = Some (c :: s, []) ∧ (c = 101 ∨ c = 69)) as Hgen.
  { intros s sg ds -> Hne Hd Hsg. split; [|split; [|done]].
    - constructor; [done|]. apply Forall_app. split; [|by apply digs_token]. destruct Hsg as [->|[->| ->]]; repeat constructor.
    - cbn [scan_exp]. rewrite E. pose proof (take_digits_app ds [] Hd I) as Ht. rewrite app_nil_r in Ht.
      destruct Hsg as [->|[->| ->]]; cbn [app].
      + destruct ds as [|d ds]; [done|]. inversion Hd as [|? ? Hd1 ?]; subst. unfold is_dig in Hd1. assert ((d =? 43) || (d =? 45) = false) as -> by lia. by rewrite Ht.
      + change ((43 =? 43) || (43 =? 45)) with true. cbn iota. rewrite Ht. by destruct ds.
      + change ((45 =? 43) || (45 =? 45)) with true. cbn iota. rewrite Ht. by destruct ds. }
  destruct t as [|s t]; [by cbn|]. destruct ((s =? 43) || (s =? 45)) eqn:Es.
  - destruct (take_digits t) as [[|d ds] r'] eqn:Et; [done|]. intros [= <- <-]. apply take_digits_inv in Et as (_ & H & _). apply (Hgen _ [s] (d :: ds)); [done|done|done|]. right. assert (s = 43 ∨ s = 45) as [->| ->] by lia; auto.
  - destruct (take_digits (s :: t)) as [[|d ds] r'] eqn:Et; [done|]. intros [= <- <-]. apply take_digits_inv in Et as (_ & H & _). apply (Hgen _ [] (d :: ds)); auto.
Qed.
Lemma parse_num_prefix t v r : parse_num t = Some (v, r) → ∃ p, t = p ++ r ∧ Forall token p ∧ p ≠ [] ∧ parse_num p = Some (v, []).
Proof.
  unfold parse_num. intros H.
  set (g := λ t : list N, match t with c :: t' => if c =? 45 then ([c], t') else ([], t) | [] => ([], []) end) in *.
  change (match t with c :: t' => if c =? 45 then ([c], t') else ([], t) | [] => ([], []) end) with (g t) in H.
  destruct (g t) as [sg t1] eqn:Eg. destruct (scan_int t1) as [[ds t2]|] eqn:E1; [|done].
  destruct (scan_frac t2) as [[fr t3]|] eqn:E2; [|done]. destruct (scan_exp t3) as [[ex t4]|] eqn:E3; [|done].
  assert (t4 = r) as -> by (by injection H). exists (sg ++ ds ++ fr ++ ex).
  pose proof (scan_int_token _ _ _ E1) as Hds. apply scan_int_inv in E1 as (-> & Hne & Hint).
  pose proof (scan_frac_shape _ _ _ E2) as Hfr. apply scan_frac_inv in E2 as ->.
  pose proof (scan_exp_shape _ _ _ E3) as (Hex & Hsx & Hxh). apply scan_exp_inv in E3 as ->.
  assert (Hg : (sg = [] ∧ t = ds ++ fr ++ ex ++ r ∧ match ds with c :: _ => (c =? 45) = false | [] => True end) ∨ (sg = [45] ∧ t = 45 :: ds ++ fr ++ ex ++ r)).
  { unfold g in Eg. destruct t as [|c t]; [left; simplify_eq; by destruct ds|]. destruct (c =? 45) eqn:Ec.
    - right. assert (c = 45) as -> by lia. injection Eg as <- ->. done.
    - left. injection Eg as <- Et. split; [done|]. split; [done|]. destruct ds as [|d ds]; [done|]. by injection Et as <- _. }
  assert (Hnd : match fr ++ ex with [] => True | c :: _ => is_dig c = false end).
  { destruct fr as [|c fr]; cbn [app]; [destruct ex as [|c ex]; [done|]; unfold is_dig; lia|]. destruct Hfr as [-> _]. done. }
  assert (Hi : scan_int (ds ++ fr ++ ex) = Some (ds, fr ++ ex)) by (by apply Hint).
  assert (Hf : scan_frac (fr ++ ex) = Some (fr, ex)).
  { destruct fr as [|c fr]; cbn [app].
    - destruct ex as [|c ex]; [done|]. cbn [scan_frac]. assert ((c =? 46) = false) as -> by lia. done.
    - destruct Hfr as (-> & Hn & Hd). cbn [scan_frac]. change (46 =? 46) with true. cbn iota. rewrite take_digits_app; [by destruct fr|done|]. destruct ex as [|c ex]; [done|]. unfold is_dig. lia. }
  assert (Hgp : g (sg ++ ds ++ fr ++ ex) = (sg, ds ++ fr ++ ex)).
  { destruct Hg as [(-> & _ & Hc)|(-> & _)]; [|done]. destruct ds as [|d ds]; [done|]. cbn. by rewrite Hc. }
  split; [|split; [|split]].
  - destruct Hg as [(-> & -> & _)|(-> & ->)]; cbn [app]; by rewrite <- !app_assoc.
  - rewrite !Forall_app. split; [destruct Hg as [(-> & _)|(-> & _)]; repeat constructor|]. split; [done|]. split; [|done].
    destruct fr as [|c fr]; [done|]. destruct Hfr as (-> & _ & Hd). constructor; [done|by apply digs_token].
  - destruct ds; [done|]. by destruct sg.
  - change (match sg ++ ds ++ fr ++ ex with c :: t' => if c =? 45 then ([c], t') else ([], sg ++ ds ++ fr ++ ex) | [] => ([], []) end) with (g (sg ++ ds ++ fr ++ ex)).
    rewrite Hgp, Hi, Hf, Hsx. by injection H as <-.
Qed.

(** *** Reading text without its whitespace *)
Lemma squeeze_skip t : squeeze Outside (skip_ws t) = squeeze Outside t.
Proof. induction t as [|c t IH]; [done|]. unfold skip_ws in *. cbn [drop_while squeeze]. destruct (json_ws c) eqn:E; [exact IH|]. cbn [squeeze]. by rewrite E. Qed.
Lemma skip_head t c r : skip_ws t = c :: r → json_ws c = false.
Proof. induction t as [|x t IH]; [done|]. unfold skip_ws in *. cbn [drop_while]. destruct (json_ws x) eqn:E; [exact IH|]. by intros [= <- _]. Qed.
Lemma squeeze_cons t c r : skip_ws t = c :: r → squeeze Outside t = c :: squeeze (if c =? 34 then Inside else Outside) r.
Proof. intros H. pose proof (skip_head _ _ _ H) as Hc. rewrite <- squeeze_skip, H. cbn [squeeze]. by rewrite Hc. Qed.
Lemma squeeze_token p r : Forall token p → squeeze Outside (p ++ r) = p ++ squeeze Outside r.
Proof. induction 1 as [|c p (H1 & H2 & _) Hp IH]; [done|]. cbn [app squeeze]. by rewrite H1, H2, IH. Qed.
Lemma squeeze_skipped t : skip_ws (squeeze Outside t) = squeeze Outside t.
Proof. induction t as [|c t IH]; [done|]. cbn [squeeze]. destruct (json_ws c) eqn:E; [done|]. by apply skip_ws_id. Qed.
Lemma hex_plain h v : hex_val h = Some v → (h =? 34) = false ∧ (h =? 92) = false.
Proof. unfold hex_val. destruct ((48 <=? h) && (h <=? 57)) eqn:E1; [lia|]. destruct ((65 <=? h) && (h <=? 70)) eqn:E2; [lia|]. destruct ((97 <=? h) && (h <=? 102)) eqn:E3; [lia|done]. Qed.
Lemma hex4_plain a b c d v : hex4 a b c d = Some v → Forall (λ h, (h =? 34) = false ∧ (h =? 92) = false) [a; b; c; d].
Proof.
  unfold hex4. destruct (hex_val a) eqn:Ea; [|done]. destruct (hex_val b) eqn:Eb; [|done]. destruct (hex_val c) eqn:Ec; [|done]. destruct (hex_val d) eqn:Ed; [|done]. intros _.
  repeat constructor; by eapply hex_plain.
Qed.
Lemma squeeze_inside p r : Forall (λ h, (h =? 34) = false ∧ (h =? 92) = false) p → squeeze Inside (p ++ r) = p ++ squeeze Inside r.
Proof. induction 1 as [|c p [H1 H2] Hp IH]; [done|]. cbn [app squeeze]. by rewrite H1, H2, IH. Qed.
Lemma cons_fst_inv x o s r : cons_fst x o = Some (s, r) → ∃ s', s = x :: s' ∧ o = Some (s', r).
Proof. destruct o as [[s' r']|]; [|done]. cbn. intros [= <- <-]. eauto. Qed.
Lemma parse_str_squeeze t : ∀ s r, parse_str t = Some (s, r) → parse_str (squeeze Inside t) = Some (s, squeeze Outside r).
Proof.
  induction t as [t IH] using (induction_ltof1 _ length). unfold ltof in IH. intros s r. destruct t as [|c t1]; [done|]. cbn [parse_str squeeze].
  destruct (c =? 34) eqn:E34; [by intros [= <- <-]|]. destruct (c =? 92) eqn:E92.
  - destruct t1 as [|e t2]; [done|]. cbn [squeeze]. destruct (e =? 117) eqn:Eu.
    + destruct t2 as [|h1 [|h2 [|h3 [|h4 t3]]]]; try done. destruct (hex4 h1 h2 h3 h4) as [n|] eqn:Eh; [|done].
      pose proof (squeeze_inside _ t3 (hex4_plain _ _ _ _ _ Eh)) as Hs. cbn [app] in Hs. rewrite Hs, Eh.
      destruct ((56320 <=? n) && (n <=? 57343)); [done|]. destruct ((55296 <=? n) && (n <=? 56319)).
      * destruct t3 as [|b [|u [|k1 [|k2 [|k3 [|k4 t4]]]]]]; try done. destruct ((b =? 92) && (u =? 117)) eqn:Ebu; [|done].
        destruct (hex4 k1 k2 k3 k4) as [m|] eqn:Ek; [|done]. destruct ((56320 <=? m) && (m <=? 57343)) eqn:Em; [|done]. intros H. apply cons_fst_inv in H as (s' & -> & H).
        assert (b = 92 ∧ u = 117) as [-> ->] by lia. change (squeeze Inside (92 :: 117 :: k1 :: k2 :: k3 :: k4 :: t4)) with (92 :: 117 :: squeeze Inside (k1 :: k2 :: k3 :: k4 :: t4)).
        pose proof (squeeze_inside _ t4 (hex4_plain _ _ _ _ _ Ek)) as Hs4. cbn [app] in Hs4. rewrite Hs4. change ((92 =? 92) && (117 =? 117)) with true. cbn iota. rewrite Ek, Em. rewrite (IH t4) with (s := s') (r := r); [done| |done]. cbn [length]. lia.
      * intros H. apply cons_fst_inv in H as (s' & -> & H). rewrite (IH t3) with (s := s') (r := r); [done| |done]. cbn [length]. lia.
    + destruct (unescape e) as [x|]; [|done]. intros H. apply cons_fst_inv in H as (s' & -> & H). rewrite (IH t2) with (s := s') (r := r); [done| |done]. cbn [length]. lia.
  - destruct (c <? 32) eqn:E32; [done|]. intros H. apply cons_fst_inv in H as (s' & -> & H). rewrite (IH t1) with (s := s') (r := r); [done| |done]. cbn [length]. lia.
Qed.
Lemma strip_inv p t r : strip p t = Some r → t = p ++ r.
Proof. revert t. induction p as [|x p IH]; intros t; [by intros [= ->]|]. destruct t as [|y t]; [done|]. cbn [strip]. destruct (x =? y) eqn:E; [|done]. intros H. apply IH in H as ->. assert (x = y) as -> by lia. done. Qed.
Lemma ull_token : Forall token (lit "ull"). Proof. repeat constructor. Qed.
Lemma rue_token : Forall token (lit "rue"). Proof. repeat constructor. Qed.
Lemma alse_token : Forall token (lit "alse"). Proof. repeat constructor. Qed.
Lemma stop_squeeze r c r1 : skip_ws r = c :: r1 → is_dig c = false → (c =? 46) = false → (c =? 101) = false → (c =? 69) = false → stop (squeeze Outside r).
Proof. intros H ????. rewrite (squeeze_cons _ _ _ H). by apply stop_cons. Qed.
Lemma strip_squeeze p t r : Forall token p → strip p t = Some r → strip p (squeeze Outside t) = Some (squeeze Outside r).
Proof. intros Hp H. apply strip_inv in H as ->. rewrite squeeze_token by done. apply strip_app. Qed.

Definition pv_ok (f : nat) : Prop := ∀ d t v r, pv f d t = Some (v, r) → stop (squeeze Outside r) → pv f d (squeeze Outside t) = Some (v, squeeze Outside r).
Definition pitems_ok (f : nat) : Prop := ∀ d t l r, pitems f d t = Some (l, r) → pitems f d (squeeze Outside t) = Some (l, squeeze Outside r).
Definition pfields_ok (f : nat) : Prop := ∀ d t l r, pfields f d t = Some (l, r) → pfields f d (squeeze Outside t) = Some (l, squeeze Outside r).
Lemma pv_step f : pitems_ok f → pfields_ok f → pv_ok (S f).
Proof.
  intros Hi Hf d t v r. cbn [pv]. rewrite squeeze_skipped. destruct (skip_ws t) as [|c r0] eqn:Et; [done|]. rewrite (squeeze_cons _ _ _ Et).
  destruct (c =? 110) eqn:E1; [assert ((c =? 34) = false) as -> by lia; destruct (strip (lit "ull") r0) as [r1|] eqn:E; [|done]; intros [= <- <-] _; by rewrite (strip_squeeze _ _ _ ull_token E)|].
  destruct (c =? 116) eqn:E2; [assert ((c =? 34) = false) as -> by lia; destruct (strip (lit "rue") r0) as [r1|] eqn:E; [|done]; intros [= <- <-] _; by rewrite (strip_squeeze _ _ _ rue_token E)|].
  destruct (c =? 102) eqn:E3; [assert ((c =? 34) = false) as -> by lia; destruct (strip (lit "alse") r0) as [r1|] eqn:E; [|done]; intros [= <- <-] _; by rewrite (strip_squeeze _ _ _ alse_token E)|].
  destruct (c =? 34) eqn:E4; [destruct (parse_str r0) as [[s r1]|] eqn:E; [|done]; intros [= <- <-] _; by rewrite (parse_str_squeeze _ _ _ E)|].
  destruct (c =? 91) eqn:E5.
  { destruct d as [|[|d']]; try done. rewrite squeeze_skipped. destruct (skip_ws r0) as [|c1 r1] eqn:Er; [done|]. rewrite (squeeze_cons _ _ _ Er). destruct (c1 =? 93) eqn:E93.
    - intros [= <- <-] _. by assert ((c1 =? 34) = false) as -> by lia.
    - rewrite <- (squeeze_cons _ _ _ Er). destruct (pitems f (S d') r0) as [[l r2]|] eqn:Ep; [|done]. intros [= <- <-] _. by rewrite (Hi _ _ _ _ Ep). }
  destruct (c =? 123) eqn:E6.
  { destruct d as [|[|d']]; try done. rewrite squeeze_skipped. destruct (skip_ws r0) as [|c1 r1] eqn:Er; [done|]. rewrite (squeeze_cons _ _ _ Er). destruct (c1 =? 125) eqn:E125.
    - intros [= <- <-] _. by assert ((c1 =? 34) = false) as -> by lia.
    - rewrite <- (squeeze_cons _ _ _ Er). destruct (pfields f (S d') r0) as [[l r2]|] eqn:Ep; [|done]. intros [= <- <-] _. by rewrite (Hf _ _ _ _ Ep). }
  intros Hn Hs. apply parse_num_prefix in Hn as (p & Hp & Htok & Hne & Hv).
  assert (c :: squeeze Outside r0 = p ++ squeeze Outside r) as ->; [|by apply parse_num_app]. rewrite <- squeeze_token by done. rewrite <- Hp. cbn [squeeze]. rewrite (skip_head _ _ _ Et), E4. done.
Qed.
Lemma pitems_step f : pv_ok f → pitems_ok f → pitems_ok (S f).
Proof.
  intros Hv Hi d t l r. cbn [pitems]. destruct (pv f d t) as [[v r0]|] eqn:Ep; [|done]. destruct (skip_ws r0) as [|c r1] eqn:Er; [done|]. intros H.
  assert (Hc : c = 44 ∨ c = 93) by (destruct (c =? 44) eqn:?; [lia|]; destruct (c =? 93) eqn:?; [lia|done]).
  rewrite (Hv _ _ _ _ Ep) by (eapply stop_squeeze; [exact Er|unfold is_dig; lia..]). rewrite squeeze_skipped, (squeeze_cons _ _ _ Er). assert ((c =? 34) = false) as -> by lia.
  destruct (c =? 44).
  - destruct (pitems f d r1) as [[vs r2]|] eqn:E; [|done]. rewrite (Hi _ _ _ _ E). by simplify_eq.
  - destruct (c =? 93); [|done]. by simplify_eq.
Qed.
Lemma pfields_step f : pv_ok f → pfields_ok f → pfields_ok (S f).
Proof.
  intros Hv Hf d t l r. cbn [pfields]. rewrite squeeze_skipped. destruct (skip_ws t) as [|q r0] eqn:Et; [done|]. rewrite (squeeze_cons _ _ _ Et). destruct (q =? 34) eqn:Eq; [|done].
  destruct (parse_str r0) as [[k rk]|] eqn:Ek; [|done]. rewrite (parse_str_squeeze _ _ _ Ek), squeeze_skipped. destruct (skip_ws rk) as [|col r2] eqn:Ec; [done|]. rewrite (squeeze_cons _ _ _ Ec).
  destruct (col =? 58) eqn:E58; [|done]. assert ((col =? 34) = false) as -> by lia.
  destruct (pv f d r2) as [[v r3]|] eqn:Ep; [|done]. destruct (skip_ws r3) as [|c r1] eqn:Er; [done|]. intros H.
  assert (Hc : c = 44 ∨ c = 125) by (destruct (c =? 44) eqn:?; [lia|]; destruct (c =? 125) eqn:?; [lia|done]).
  rewrite (Hv _ _ _ _ Ep) by (eapply stop_squeeze; [exact Er|unfold is_dig; lia..]). rewrite squeeze_skipped, (squeeze_cons _ _ _ Er). assert ((c =? 34) = false) as -> by lia.
  destruct (c =? 44).
  - destruct (pfields f d r1) as [[vs r4]|] eqn:E; [|done]. rewrite (Hf _ _ _ _ E). by simplify_eq.
  - destruct (c =? 125); [|done]. by simplify_eq.
Qed.
Lemma pv_squeeze f : pv_ok f ∧ pitems_ok f ∧ pfields_ok f.
Proof. induction f as [|f (IH1 & IH2 & IH3)]; [done|]. split; [by apply pv_step|]. split; [by apply pitems_step|by apply pfields_step]. Qed.

(** *** Fuel: what was read bounds the fuel that is needed *)
Lemma skip_length t : (length (skip_ws t) <= length t)%nat.
Proof. induction t as [|c t IH]; [done|]. unfold skip_ws in *. cbn [drop_while]. destruct (json_ws c); cbn [length]; lia. Qed.
Lemma parse_str_length t : ∀ s r, parse_str t = Some (s, r) → (length r < length t)%nat.
Proof.
  induction t as [t IH] using (induction_ltof1 _ length). unfold ltof in IH. intros s r. destruct t as [|c t1]; [done|]. cbn [parse_str].
  destruct (c =? 34); [intros [= <- <-]; cbn; lia|]. destruct (c =? 92).
  - destruct t1 as [|e t2]; [done|]. destruct (e =? 117).
    + destruct t2 as [|h1 [|h2 [|h3 [|h4 t3]]]]; try done. destruct (hex4 h1 h2 h3 h4) as [n|]; [|done].
      destruct ((56320 <=? n) && (n <=? 57343)); [done|]. destruct ((55296 <=? n) && (n <=? 56319)).
      * destruct t3 as [|b [|u [|k1 [|k2 [|k3 [|k4 t4]]]]]]; try done. destruct ((b =? 92) && (u =? 117)); [|done].
        destruct (hex4 k1 k2 k3 k4) as [m|]; [|done]. destruct ((56320 <=? m) && (m <=? 57343)); [|done]. intros H. apply cons_fst_inv in H as (s' & -> & H). apply IH in H; cbn [length] in *; lia.
      * intros H. apply cons_fst_inv in H as (s' & -> & H). apply IH in H; cbn [length] in *; lia.
    + destruct (unescape e) as [x|]; [|done]. intros H. apply cons_fst_inv in H as (s' & -> & H). apply IH in H; cbn [length] in *; lia.
  - destruct (c <? 32); [done|]. intros H. apply cons_fst_inv in H as (s' & -> & H). apply IH in H; cbn [length] in *; lia.
Qed.
Definition pv_fuel (f : nat) : Prop := ∀ d t v r, pv f d t = Some (v, r) → (length r < length t)%nat ∧ ∀ f', (length t - length r <= f')%nat → pv f' d t = Some (v, r).
Definition pitems_fuel (f : nat) : Prop := ∀ d t v r, pitems f d t = Some (v, r) → (length r < length t)%nat ∧ ∀ f', (length t - length r <= f')%nat → pitems f' d t = Some (v, r).
Definition pfields_fuel (f : nat) : Prop := ∀ d t v r, pfields f d t = Some (v, r) → (length r < length t)%nat ∧ ∀ f', (length t - length r <= f')%nat → pfields f' d t = Some (v, r).
Lemma strip_length p t r : strip p t = Some r → (length r <= length t)%nat.
Proof. intros H. apply strip_inv in H as ->. rewrite app_length. lia. Qed.
Lemma pv_fuel_step f : pitems_fuel f → pfields_fuel f → pv_fuel (S f).
Proof.
  intros Hi Hf d t v r. cbn [pv]. pose proof (skip_length t) as Hl. destruct (skip_ws t) as [|c r0] eqn:Et; [done|]. cbn [length] in Hl.
  destruct (c =? 110) eqn:E1; [destruct (strip (lit "ull") r0) as [r1|] eqn:E; [|done]; intros [= <- <-]; apply strip_length in E as Hs; split; [lia|]; intros [|f'] ?; [lia|]; cbn [pv]; by rewrite Et, E1, E|].
  destruct (c =? 116) eqn:E2; [destruct (strip (lit "rue") r0) as [r1|] eqn:E; [|done]; intros [= <- <-]; apply strip_length in E as Hs; split; [lia|]; intros [|f'] ?; [lia|]; cbn [pv]; by rewrite Et, E1, E2, E|].
  destruct (c =? 102) eqn:E3; [destruct (strip (lit "alse") r0) as [r1|] eqn:E; [|done]; intros [= <- <-]; apply strip_length in E as Hs; split; [lia|]; intros [|f'] ?; [lia|]; cbn [pv]; by rewrite Et, E1, E2, E3, E|].
  destruct (c =? 34) eqn:E4; [destruct (parse_str r0) as [[s r1]|] eqn:E; [|done]; intros [= <- <-]; apply parse_str_length in E as Hs; split; [lia|]; intros [|f'] ?; [lia|]; cbn [pv]; by rewrite Et, E1, E2, E3, E4, E|].
  destruct (c =? 91) eqn:E5.
  { destruct d as [|[|d']]; try done. pose proof (skip_length r0) as Hl0. destruct (skip_ws r0) as [|c1 r1] eqn:Er; [done|]. cbn [length] in Hl0. destruct (c1 =? 93) eqn:E93.
    - intros [= <- <-]. split; [lia|]. intros [|f'] ?; [lia|]. cbn [pv]. by rewrite Et, E1, E2, E3, E4, E5, Er, E93.
    - destruct (pitems f (S d') r0) as [[l r2]|] eqn:Ep; [|done]. intros [= <- <-]. destruct (Hi _ _ _ _ Ep) as [H1 H2]. split; [lia|]. intros [|f'] ?; [lia|]. cbn [pv]. rewrite Et, E1, E2, E3, E4, E5, Er, E93. by rewrite H2 by lia. }
  destruct (c =? 123) eqn:E6.
  { destruct d as [|[|d']]; try done. pose proof (skip_length r0) as Hl0. destruct (skip_ws r0) as [|c1 r1] eqn:Er; [done|]. cbn [length] in Hl0. destruct (c1 =? 125) eqn:E125.
    - intros [= <- <-]. split; [lia|]. intros [|f'] ?; [lia|]. cbn [pv]. by rewrite Et, E1, E2, E3, E4, E5, E6, Er, E125.
    - destruct (pfields f (S d') r0) as [[l r2]|] eqn:Ep; [|done]. intros [= <- <-]. destruct (Hf _ _ _ _ Ep) as [H1 H2]. split; [lia|]. intros [|f'] ?; [lia|]. cbn [pv]. rewrite Et, E1, E2, E3, E4, E5, E6, Er, E125. by rewrite H2 by lia. }
  intros Hn. pose proof Hn as Hn'. apply parse_num_prefix in Hn' as (p & Hp & _ & Hne & _). assert (length r < length (c :: r0))%nat by (rewrite Hp, app_length; destruct p; [done|cbn; lia]). cbn [length] in *. split; [lia|].
  intros [|f'] ?; [lia|]. cbn [pv]. by rewrite Et, E1, E2, E3, E4, E5, E6.
Qed.
Lemma pitems_fuel_step f : pv_fuel f → pitems_fuel f → pitems_fuel (S f).
Proof.
  intros Hv Hi d t l r. cbn [pitems]. destruct (pv f d t) as [[v r0]|] eqn:Ep; [|done]. pose proof (skip_length r0) as Hl. destruct (skip_ws r0) as [|c r1] eqn:Er; [done|]. cbn [length] in Hl. destruct (Hv _ _ _ _ Ep) as [H1 H2].
  destruct (c =? 44) eqn:E44.
  - destruct (pitems f d r1) as [[vs r2]|] eqn:E; [|done]. intros [= <- <-]. destruct (Hi _ _ _ _ E) as [H3 H4]. split; [lia|]. intros [|f'] ?; [lia|]. cbn [pitems]. rewrite H2 by lia. rewrite Er, E44. by rewrite H4 by lia.
  - destruct (c =? 93) eqn:E93; [|done]. intros [= <- <-]. split; [lia|]. intros [|f'] ?; [lia|]. cbn [pitems]. rewrite H2 by lia. by rewrite Er, E44, E93.
Qed.
Lemma pfields_fuel_step f : pv_fuel f → pfields_fuel f → pfields_fuel (S f).
Proof.
  intros Hv Hf d t l r. cbn [pfields]. pose proof (skip_length t) as Hl. destruct (skip_ws t) as [|q r0] eqn:Et; [done|]. cbn [length] in Hl. destruct (q =? 34) eqn:Eq; [|done].
  destruct (parse_str r0) as [[k rk]|] eqn:Ek; [|done]. apply parse_str_length in Ek as Hk. pose proof (skip_length rk) as Hl2. destruct (skip_ws rk) as [|col r2] eqn:Ec; [done|]. cbn [length] in Hl2. destruct (col =? 58) eqn:E58; [|done].
  destruct (pv f d r2) as [[v r3]|] eqn:Ep; [|done]. pose proof (skip_length r3) as Hl3. destruct (skip_ws r3) as [|c r1] eqn:Er; [done|]. cbn [length] in Hl3. destruct (Hv _ _ _ _ Ep) as [H1 H2].
  destruct (c =? 44) eqn:E44.
  - destruct (pfields f d r1) as [[vs r4]|] eqn:E; [|done]. intros [= <- <-]. destruct (Hf _ _ _ _ E) as [H3 H4]. split; [lia|]. intros [|f'] ?; [lia|]. cbn [pfields]. rewrite Et, Eq, Ek, Ec, E58. rewrite H2 by lia. rewrite Er, E44. by rewrite H4 by lia.
  - destruct (c =? 125) eqn:E125; [|done]. intros [= <- <-]. split; [lia|]. intros [|f'] ?; [lia|]. cbn [pfields]. rewrite Et, Eq, Ek, Ec, E58. rewrite H2 by lia. by rewrite Er, E44, E125.
Qed.
Lemma fuel_ok f : pv_fuel f ∧ pitems_fuel f ∧ pfields_fuel f.
Proof. induction f as [|f (IH1 & IH2 & IH3)]; [done|]. split; [by apply pv_fuel_step|]. split; [by apply pitems_fuel_step|by apply pfields_fuel_step]. Qed.
Lemma parse_squeeze t v : parse t = Some v → parse (squeeze Outside t) = Some v.
Proof.
  unfold parse. destruct (pv (S (length t)) 128 t) as [[v' r]|] eqn:E; [|done]. destruct (skip_ws r) as [|c r'] eqn:Er; [|done]. intros [= <-].
  assert (squeeze Outside r = []) as Hr by (by rewrite <- squeeze_skip, Er). pose proof (proj1 (pv_squeeze _) _ _ _ _ E) as E2. rewrite Hr in E2. specialize (E2 I).
  apply (proj1 (fuel_ok _)) in E2 as [_ E2]. rewrite E2; [done|]. cbn [length]. lia.
Qed.

(** *** From positions to bytes *)
Lemma positions_bound p pos l x : x ∈ positions_from pos p l → (pos <= x)%nat.
Proof. revert pos. induction l as [|b l IH]; intros pos; cbn [positions_from]; [by intros ?%elem_of_nil|]. destruct (p b); [intros [->|H]%elem_of_cons; [done|]|intros H]; apply IH in H; lia. Qed.
Lemma found_elem ps i : found ps i = true ↔ i ∈ ps.
Proof. unfold found. rewrite existsb_exists. split; [intros (x & Hx & E); apply Nat.eqb_eq in E as ->; by apply elem_of_list_In|]. intros H. exists i. split; [by apply elem_of_list_In|]. apply Nat.eqb_refl. Qed.
Lemma found_positions p pos l j : found (positions_from pos p l) (pos + j) = at_pos p l j.
Proof.
  revert pos j. induction l as [|b l IH]; intros pos j; [done|]. cbn [positions_from]. destruct j as [|j].
  - unfold at_pos. cbn [lookup list_lookup]. rewrite Nat.add_0_r. destruct (p b) eqn:E; [cbn; by rewrite Nat.eqb_refl|]. apply not_true_iff_false. rewrite found_elem. intros H. apply positions_bound in H. lia.
  - assert (found (positions_from (S pos) p l) (pos + S j) = at_pos p (b :: l) (S j)) as H by (replace (pos + S j)%nat with (S pos + j)%nat by lia; by rewrite IH).
    destruct (p b); [|done]. cbn [found existsb]. assert ((pos + S j =? pos)%nat = false) as -> by (apply Nat.eqb_neq; lia). done.
Qed.
Lemma space_ws : ∀ b, is_space b = json_ws b.
Proof. intros b. unfold is_space, json_ws. lia. Qed.
Lemma strip_squeeze_loop ws l : ∀ i, (∀ j, found ws (i + j) = at_pos is_space l j) →
  strip_loop ws i false false l = squeeze Outside l ∧ strip_loop ws i true false l = squeeze Inside l ∧ strip_loop ws i true true l = squeeze Escaped l.
Proof.
  induction l as [|b l IH]; intros i H; [done|]. destruct (IH (S i)) as (I1 & I2 & I3); [intros j; specialize (H (S j)); replace (S i + j)%nat with (i + S j)%nat by lia; exact H|].
  specialize (H 0%nat). rewrite Nat.add_0_r in H. unfold at_pos in H. cbn [lookup list_lookup] in H. rewrite space_ws in H. cbn [strip_loop squeeze]. rewrite !H. split; [|split].
  - rewrite andb_false_r. cbn [negb andb]. destruct (b =? 34) eqn:E; [assert (json_ws b = false) as -> by (unfold json_ws; lia); by rewrite I2|]. destruct (json_ws b); by rewrite I1.
  - rewrite andb_true_r. cbn [negb andb]. destruct (b =? 92) eqn:E2; [assert ((b =? 34) = false) as -> by lia; by rewrite I3|]. destruct (b =? 34); by rewrite ?I1, ?I2.
  - by rewrite I2.
Qed.
Lemma strip_is_squeeze input : strip_loop (positions is_space input) 0 false false input = squeeze Outside input.
Proof. apply strip_squeeze_loop. intros j. apply (found_positions is_space 0). Qed.

Definition after (p : place) : place := match p with Escaped => Inside | p => p end.
Lemma squeeze_high p c r : 128 <= c → squeeze p (c :: r) = c :: squeeze (after p) r.
Proof. intros H. cbn [squeeze]. assert (json_ws c = false) as -> by (unfold json_ws; lia). assert ((c =? 34) = false) as -> by lia. assert ((c =? 92) = false) as -> by lia. by destruct p. Qed.
Lemma squeeze_highs bs p r : Forall (λ b, 128 <= b) bs → bs ≠ [] → squeeze p (bs ++ r) = bs ++ squeeze (after p) r.
Proof.
  intros H. revert p. induction H as [|b bs Hb Hbs IH]; intros p Hne; [done|]. cbn [app]. rewrite squeeze_high by done. f_equal. destruct bs as [|b' bs]; [done|]. rewrite IH by done. by destruct p.
Qed.
Lemma utf8_cons c t : utf8 (c :: t) = utf8_char c ++ utf8 t.
Proof. done. Qed.
Lemma squeeze_utf8 t : Forall scalar t → ∀ p, squeeze p (utf8 t) = utf8 (squeeze p t).
Proof.
  induction 1 as [|c t Hc Ht IH]; intros p; [done|]. rewrite utf8_cons. destruct (decide (c < 128)) as [Hs|Hs].
  - rewrite utf8_char_ascii by done. cbn [app squeeze]. destruct p.
    + destruct (json_ws c); [apply IH|]. by rewrite utf8_cons, utf8_char_ascii, IH.
    + by rewrite utf8_cons, utf8_char_ascii, IH.
    + by rewrite utf8_cons, utf8_char_ascii, IH.
  - assert (Forall (λ b, 128 <= b) (utf8_char c)) as Hh by (apply Forall_forall; intros b Hb; apply utf8_char_bytes in Hb as [_ Hb]; [apply Hb; lia|unfold scalar in Hc; lia]).
    rewrite squeeze_highs by (done || apply utf8_char_nonempty). rewrite squeeze_high by lia.
    by rewrite utf8_cons, IH.
Qed.
Lemma squeeze_Forall (P : N → Prop) t : Forall P t → ∀ p, Forall P (squeeze p t).
Proof. induction 1 as [|c t Hc Ht IH]; intros p; [constructor|]. cbn [squeeze]. destruct p; [destruct (json_ws c); [apply IH|]|..]; constructor; auto. Qed.
Lemma utf8_bytes t : Forall scalar t → Forall byte (utf8 t).
Proof.
  induction 1 as [|c t Hc Ht IH]; [constructor|]. rewrite utf8_cons, Forall_app. split; [|done]. apply Forall_forall. intros b Hb. apply utf8_char_bytes in Hb as [Hb _]; [done|unfold scalar in Hc; lia].
Qed.
Lemma of_utf8 t : Forall scalar t → of_bytes (utf8 t) = parse_value t.
Proof. intros H. unfold of_bytes. by rewrite utf8_decode_encode. Qed.
Lemma of_squeeze t v : Forall scalar t → of_bytes (utf8 t) = Some v → of_bytes (squeeze Outside (utf8 t)) = Some v.
Proof.
  intros Ht H. rewrite squeeze_utf8 by done. rewrite of_utf8 in H |- * by (try done; by apply squeeze_Forall). unfold parse_value in *. destruct (parse t) as [w|] eqn:E; [|done]. by rewrite (parse_squeeze _ _ E).
Qed.
Lemma find_spaces fuel input : (32 <= fuel)%nat → no_block_ends_in json_ws input → find_whitespace_simd fuel input = Some (positions is_space input).
Proof. intros Hf H. apply find_simd_ok; [done|]. intros i Hi. unfold at_pos. destruct (input !! _) eqn:E; [|done]. rewrite space_ws. by eapply H. Qed.
Lemma fast_valid avx2 fuel t v : (32 <= fuel)%nat → Forall scalar t → aligned t → no_block_ends_in json_ws (utf8 t) → of_bytes (utf8 t) = Some v → parse_json_fast avx2 fuel (utf8 t) = Some (Some v).
Proof.
  intros Hf Ht Ha Hb Hv. unfold parse_json_fast. destruct avx2; [|by rewrite Hv]. rewrite utf8_boundaries by done. rewrite find_spaces by done. destruct (_ <? _)%nat; [by rewrite Hv|]. rewrite strip_is_squeeze. by rewrite of_squeeze with (v := v).
Qed.
Lemma fast_same avx2 fuel t : (32 <= fuel)%nat → Forall scalar t → aligned t → no_block_ends_in json_ws (utf8 t) → (length (positions json_ws (utf8 t)) < length (utf8 t) / 10)%nat ∨ without_whitespace t = t →
  parse_json_fast avx2 fuel (utf8 t) = Some (of_bytes (utf8 t)).
Proof.
  intros Hf Ht Ha Hb Hv. unfold parse_json_fast. destruct avx2; [|done]. rewrite utf8_boundaries by done. rewrite find_spaces by done. do 2 f_equal.
  assert (∀ k l, positions_from k is_space l = positions_from k json_ws l) as He by (intros k l; revert k; induction l as [|b l IH]; intros k; [done|]; cbn [positions_from]; by rewrite space_ws, IH).
  unfold positions. rewrite He. destruct (_ <? _)%nat eqn:E; [done|]. apply Nat.ltb_ge in E. destruct Hv as [Hv|Hv]; [unfold positions in Hv; lia|]. rewrite <- He. fold (positions is_space (utf8 t)). rewrite strip_is_squeeze, squeeze_utf8 by done. unfold without_whitespace in Hv. by rewrite Hv.
Qed.
Lemma fast_hangs fuel t i b : validate_utf8_simd (utf8 t) = true → (i * 32 + 32 <= length (utf8 t))%nat → utf8 t !! (i * 32 + 31)%nat = Some b → json_ws b = true → parse_json_fast true fuel (utf8 t) = None.
Proof. intros Hv Hi Hb Hs. unfold parse_json_fast. rewrite Hv. unfold find_whitespace_simd. rewrite (find_simd_hangs _ _ _ i); [done|done|]. unfold at_pos. rewrite Hb. by rewrite space_ws. Qed.
