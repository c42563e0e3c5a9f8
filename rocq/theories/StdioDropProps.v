(** Theorems about giving up on the stdio transport. *)
From Coq Require Import ZifyBool.
From stdpp Require Import sets list strings.
From Verif Require HttpClientProofs.
From Verif Require Import ListLib TextLib Utf8Lib JsonLib WhiteSpec RpcModel RpcSpec RpcProofs StdioModel StdioSpec StdioProofs StdioProofs2 StdioDropModel StdioDropSpec.
Local Open Scope N_scope.

(** *** A call in progress is the rest of a call of StdioModel.v *)
Definition finish (x : headers * list N) : received * stdio :=
  match x.1 with
  | HEof => (RClosed, {| sd_in := x.2; sd_out := []; sd_closed := true |})
  | HMissing => (RInvalid, open_on x.2)
  | HNotText => (RIo, open_on x.2)
  | HLength n =>
    if isize_max <? n then (RPanic, open_on x.2) else if N.of_nat (length x.2) <? n then (RIo, open_on [])
    else (result_of (take (N.to_nat n) x.2), open_on (drop (N.to_nat n) x.2))
  end.
Definition cont (p : progress) (inp : list N) : received * stdio :=
  match p with
  | PHead len line => finish (read_headers (S (length (line ++ inp))) len (line ++ inp))
  | PBody n got => if N.of_nat (length (got ++ inp)) <? n then (RIo, open_on []) else (result_of (take (N.to_nat n) (got ++ inp)), open_on (drop (N.to_nat n) (got ++ inp)))
  end.
Definition wf (p : progress) : Prop := match p with PHead _ line => 10 ∉ line | PBody n got => N.of_nat (length got) < n end.
Lemma receive_cont inp : receive (open_on inp) = cont (PHead None []) inp.
Proof. unfold receive, cont, finish, open_on. cbn [sd_closed sd_in sd_out app]. destruct (read_headers _ _ _) as [[] ?]; reflexivity. Qed.
Lemma read_line_shorter inp l r : inp ≠ [] → read_line inp = (l, r) → (length r < length inp)%nat.
Proof.
  revert l r. induction inp as [|c inp IH]; intros l r Hn; [done|]. cbn [read_line]. destruct (c =? 10).
  - intros E. apply pair_equal_spec in E as [_ <-]. cbn. lia.
  - destruct (read_line inp) as [l1 r1] eqn:E1. intros E. apply pair_equal_spec in E as [_ <-]. destruct inp as [|d inp]; [cbn in E1; apply pair_equal_spec in E1 as [_ <-]; cbn; lia|]. specialize (IH l1 r1 ltac:(done) eq_refl). cbn in *. lia.
Qed.
Lemma headers_fuel f f' len inp : (length inp < f)%nat → (length inp < f')%nat → read_headers f len inp = read_headers f' len inp.
Proof.
  revert f' len inp. induction f as [|f IH]; intros f' len inp H1 H2; [lia|]. destruct f' as [|f']; [lia|]. cbn [read_headers]. destruct inp as [|c inp]; [done|].
  destruct (read_line (c :: inp)) as [l r] eqn:E. apply read_line_shorter in E; [|done]. destruct (utf8_decode l) as [t|]; [|done]. destruct (trim t); [done|]. apply IH; cbn in *; lia.
Qed.
Lemma cont_step p c inp : wf p → cont p (c :: inp) = (match step_byte p c with inl p' => cont p' inp | inr r => (r, open_on inp) end) ∧ ∀ p', step_byte p c = inl p' → wf p'.
Proof.
  intros Hw. destruct p as [len line|n got]; cbn [wf] in Hw.
  - unfold step_byte. destruct (c =? 10) eqn:Ec.
    + apply N.eqb_eq in Ec. subst c. assert (cont (PHead len line) (10 :: inp) = finish (match utf8_decode (line ++ [10]) with None => (HNotText, inp) | Some t => match trim t with [] => (match len with Some n => HLength n | None => HMissing end, inp) | l => read_headers (length (line ++ 10 :: inp)) (match parse_content_length l with Some n => Some n | None => len end) inp end end)) as ->.
      { unfold cont. cbn [read_headers]. destruct (line ++ 10 :: inp) eqn:E; [by destruct line|]. rewrite <-E. rewrite read_line_app by done. reflexivity. }
      destruct (utf8_decode (line ++ [10])) as [t|]; [|split; [done|by intros ? ?]]. destruct (trim t) as [|x l].
      * destruct len as [n|]; [|split; [done|by intros ? ?]]. unfold finish. cbn [fst snd]. destruct (isize_max <? n); [split; [done|by intros ? ?]|]. destruct (n =? 0) eqn:En.
        { apply N.eqb_eq in En. subst n. split; [|by intros ? ?]. assert ((N.of_nat (length inp) <? 0) = false) as -> by lia. done. }
        split; [done|]. intros p' [= <-]. cbn. lia.
      * split; [|intros p' E; apply (inj inl) in E; subst p'; cbn; apply not_elem_of_nil]. unfold cont. cbn [app]. f_equal. apply headers_fuel; [rewrite app_length; cbn; lia|lia].
    + split; [|intros p' E; apply (inj inl) in E; subst p'; cbn; rewrite elem_of_app, elem_of_list_singleton; intros [?| ?]; [done|lia]]. unfold cont. by rewrite <-app_assoc.
  - unfold step_byte. destruct (N.of_nat (S (length got)) =? n) eqn:En.
    + split; [|by intros ? ?]. unfold cont. assert ((N.of_nat (length (got ++ c :: inp)) <? n) = false) as -> by (rewrite app_length; cbn; lia).
      assert (N.to_nat n = length (got ++ [c])) as -> by (rewrite app_length; cbn; lia). assert (got ++ c :: inp = (got ++ [c]) ++ inp) as -> by (by rewrite <-app_assoc). by rewrite take_app, drop_app.
    + split; [|intros p' E; apply (inj inl) in E; subst p'; cbn; rewrite app_length; cbn; lia]. unfold cont. by rewrite <-app_assoc.
Qed.
Lemma eat_cont p inp tail : wf p → match eat p inp with (inl p', rest) => rest = [] ∧ wf p' ∧ cont p (inp ++ tail) = cont p' tail | (inr r, rest) => cont p (inp ++ tail) = (r, open_on (rest ++ tail)) end.
Proof.
  revert p. induction inp as [|c inp IH]; intros p Hw; [done|]. cbn [eat app]. destruct (cont_step p c (inp ++ tail) Hw) as [E Hs]. rewrite E. destruct (step_byte p c) as [p'|r]; [|done]. apply IH. by apply Hs.
Qed.
(** The invariant of a history without giving up, from a state without a call in progress. *)
Lemma patient_run os : patient os → ∀ s, (∀ p, d_cur s = Some p → wf p) → ∀ rs s', d_run s os = (rs, s') → (∀ p, d_cur s' = Some p → wf p) ∧
  ∀ X tail, receive (open_on X) = cont (default (PHead None []) (d_cur s)) (d_in s ++ arrivals os ++ tail) → (d_cur s = None → X = d_in s ++ arrivals os ++ tail) →
  ∃ Y, srun (open_on X) (replicate (length rs) Receive) = (Got <$> rs, open_on Y) ∧ receive (open_on Y) = cont (default (PHead None []) (d_cur s')) (d_in s' ++ tail) ∧ (d_cur s' = None → Y = d_in s' ++ tail).
Proof.
  unfold patient. induction os as [|o os IH]; intros Hp s Hw rs s' Hr.
  - cbn [d_run] in Hr. apply pair_equal_spec in Hr as [<- <-]. split; [done|]. intros X tail HX HX'. exists X. done.
  - apply not_elem_of_cons in Hp as [Ho Hp]. specialize (IH Hp). destruct o as [bs| |]; [| |done].
    + cbn [d_run d_step] in Hr. destruct (d_run _ os) as [rs1 s1] eqn:E. cbn [option_list option_rect app] in Hr. apply pair_equal_spec in Hr as [<- <-]. destruct (IH (MkDio (d_in s ++ bs) (d_cur s)) Hw _ _ E) as [H1 H2]. split; [done|].
      intros X tail HX HX'. apply H2; cbn [d_cur d_in]; [|intros Hc; rewrite (HX' Hc)]; [rewrite HX|]; change (arrivals (DArrive bs :: os)) with (bs ++ arrivals os); by rewrite <-!app_assoc.
    + cbn [d_run d_step] in Hr. assert (wf (default (PHead None []) (d_cur s))) as Hwd by (destruct (d_cur s) as [p|]; [by apply Hw|apply not_elem_of_nil]).
      assert (∀ tail, match eat (default (PHead None []) (d_cur s)) (d_in s) with (inl p', rest) => rest = [] ∧ wf p' ∧ cont (default (PHead None []) (d_cur s)) (d_in s ++ tail) = cont p' tail | (inr r, rest) => cont (default (PHead None []) (d_cur s)) (d_in s ++ tail) = (r, open_on (rest ++ tail)) end) as Ee by (intros; by apply eat_cont).
      destruct (eat _ (d_in s)) as [[p'|r] rest].
      * destruct (d_run _ os) as [rs1 s1] eqn:E. cbn [option_list option_rect app] in Hr. apply pair_equal_spec in Hr as [<- <-]. destruct (Ee []) as (-> & Hw' & _). assert (∀ p, d_cur (MkDio [] (Some p')) = Some p → wf p) as Hw1 by (by intros p [= <-]).
        destruct (IH _ Hw1 _ _ E) as [H1 H2]. split; [done|]. intros X tail HX HX'. change (arrivals (DPoll :: os)) with (arrivals os) in *. apply H2; cbn [d_cur d_in default]; [|done]. rewrite HX. destruct (Ee (arrivals os ++ tail)) as (_ & _ & ->). done.
      * destruct (d_run _ os) as [rs1 s1] eqn:E. cbn [option_list option_rect app] in Hr. apply pair_equal_spec in Hr as [<- <-]. destruct (IH (MkDio rest None) ltac:(by intros p [=]) _ _ E) as [H1 H2]. split; [done|].
        intros X tail HX HX'. change (arrivals (DPoll :: os)) with (arrivals os) in *. rewrite (Ee (arrivals os ++ tail)) in HX. destruct (H2 (rest ++ arrivals os ++ tail) tail) as (Y & Y1 & Y2 & Y3); [cbn [d_cur d_in default]; by rewrite receive_cont|done|].
        exists Y. split; [|done]. cbn [length replicate srun sstep]. rewrite HX. rewrite Y1. by rewrite fmap_cons.
Qed.
(** The same from the beginning, or after giving up. *)
Lemma patient_from os a rs s' tail : patient os → d_run (MkDio a None) os = (rs, s') → ∃ Y, srun (open_on (a ++ arrivals os ++ tail)) (replicate (length rs) Receive) = (Got <$> rs, open_on Y) ∧
  receive (open_on Y) = cont (default (PHead None []) (d_cur s')) (d_in s' ++ tail) ∧ (d_cur s' = None → Y = d_in s' ++ tail).
Proof. intros Hp Hr. destruct (patient_run os Hp (MkDio a None) ltac:(by intros p [=]) rs s' Hr) as [_ H]. apply H; [cbn [d_cur d_in default]; by rewrite receive_cont|done]. Qed.

(** *** Frames *)
Lemma read_line_whole l : 10 ∉ l → read_line l = (l, []).
Proof. induction l as [|c l IH]; intros H; [done|]. apply not_elem_of_cons in H as [Hc H]. cbn [read_line]. destruct (c =? 10) eqn:E; [lia|]. by rewrite (IH H). Qed.
(** A call that waits takes the next byte. *)
Lemma pending p : wf p → sd_in (cont p [120]).2 = [].
Proof.
  intros Hw. destruct p as [len line|n got]; unfold cont.
  - cbn [wf] in Hw. cbn [read_headers]. assert (10 ∉ line ++ [120]) as Hn by (rewrite elem_of_app, elem_of_list_singleton; intros [?| ?]; [done|lia]).
    destruct (line ++ [120]) as [|x l] eqn:E; [by destruct line|]. rewrite <-E in *. rewrite read_line_whole by done. destruct (utf8_decode (line ++ [120])) as [t|]; [|done].
    destruct (trim t); [destruct len as [n|]; [|done]|rewrite E; done]. unfold finish. cbn [fst snd]. destruct (isize_max <? n); [done|]. destruct (_ <? n); [done|]. cbn. by rewrite drop_nil.
  - cbn [wf] in Hw. destruct (_ <? n) eqn:E; [done|]. cbn. apply drop_ge. rewrite app_length in *. cbn in *. lia.
Qed.
Lemma wf_new : wf (PHead None []).
Proof. apply not_elem_of_nil. Qed.
Lemma eat_frame p r : fits p → eat (PHead None []) (frame p ++ r) = (inr (reading p), r).
Proof.
  intros Hf. assert (∀ tail, cont (PHead None []) ((frame p ++ r) ++ tail) = (reading p, open_on (r ++ tail))) as Hc by (intros; rewrite <-receive_cont, <-app_assoc; by apply receive_frame).
  assert (∀ tail, _) as He by (intros tail; exact (eat_cont _ (frame p ++ r) tail wf_new)). destruct (eat _ _) as [[p'|x] rest].
  - destruct (He [120]) as (_ & Hw & E). rewrite Hc in E. apply (f_equal (λ x, sd_in x.2)) in E. rewrite pending in E by done. cbn in E. by destruct r.
  - specialize (He []). rewrite Hc in He. apply pair_equal_spec in He as [-> E]. apply (f_equal sd_in) in E. cbn in E. by rewrite !app_nil_r in E; subst.
Qed.
Lemma eat_app p a b : eat p (a ++ b) = match eat p a with (inl p', _) => eat p' b | (inr r, rest) => (inr r, rest ++ b) end.
Proof. revert p. induction a as [|c a IH]; intros p; [done|]. cbn [eat app]. destruct (step_byte p c); [apply IH|done]. Qed.
Lemma eat_all p a p' rest : eat p a = (inl p', rest) → rest = [].
Proof. revert p. induction a as [|c a IH]; intros p; cbn [eat]; [by intros [= _ <-]|]. destruct (step_byte p c); [apply IH|done]. Qed.
(** The bytes that the call in progress has taken. *)
Definition has_taken (s : dio) (taken : list N) : Prop := match d_cur s with None => taken = [] | Some p => eat (PHead None []) taken = (inl p, []) end.
Lemma taken_eat s taken inp : has_taken s taken → eat (default (PHead None []) (d_cur s)) inp = eat (PHead None []) (taken ++ inp).
Proof. unfold has_taken. destruct (d_cur s) as [p|]; [|by intros ->]. intros H. by rewrite eat_app, H. Qed.
Lemma frames_cut ps qs a b : Forall fits ps → Forall fits qs → length ps = length qs → concat (frame <$> ps) ++ a = concat (frame <$> qs) ++ b → a = b.
Proof.
  revert qs. induction ps as [|p ps IH]; intros [|q qs] Hp Hq Hl E; [done|done|done|]. inversion Hp; inversion Hq; subst. rewrite !fmap_cons in E. cbn [concat] in E. rewrite <-!app_assoc in E. apply (f_equal (eat (PHead None []))) in E. rewrite !eat_frame in E by done.
  apply pair_equal_spec in E as [_ E]. apply (IH qs); [done|done|by injection Hl|done].
Qed.
Lemma d_run_app s os1 os2 : d_run s (os1 ++ os2) = let '(r1, s1) := d_run s os1 in let '(r2, s2) := d_run s1 os2 in (r1 ++ r2, s2).
Proof. revert s. induction os1 as [|o os1 IH]; intros s; cbn [d_run app]; [by destruct (d_run s os2)|]. destruct (d_step s o) as [r s1]. rewrite IH. destruct (d_run s1 os1) as [r1 s2]. destruct (d_run s2 os2). by rewrite app_assoc. Qed.
Lemma arrivals_app os1 os2 : arrivals (os1 ++ os2) = arrivals os1 ++ arrivals os2.
Proof. unfold arrivals. rewrite omap_app. apply concat_app. Qed.
Lemma frames_run os : calm os → ∀ tail ps, Forall fits ps → arrivals os ++ tail = concat (frame <$> ps) →
  ∃ ps1 ps2 taken, ps = ps1 ++ ps2 ∧ returns os = reading <$> ps1 ∧ has_taken (d_run d_new os).2 taken ∧ taken ++ d_in (d_run d_new os).2 ++ tail = concat (frame <$> ps2).
Proof.
  induction os as [|o os IH] using rev_ind; intros Hcalm tail ps Hf E.
  { exists [], ps, []. done. }
  assert (calm os) as Hc by (intros o1 o2 ->; apply (Hcalm o1 (o2 ++ [o])); by rewrite <-app_assoc). specialize (IH Hc).
  rewrite arrivals_app, <-app_assoc in E. unfold returns in *. rewrite d_run_app. destruct (IH _ _ Hf E) as (ps1 & ps2 & taken & -> & E1 & E2 & E3). destruct (d_run d_new os) as [rs s] eqn:Er. cbn [fst snd] in *. cbn [d_run].
  destruct o as [bs| |]; cbn [d_step].
  - exists ps1, ps2, taken. cbn [fst snd option_list option_rect app d_in]. rewrite app_nil_r. split_and!; [done|done|done|]. change (arrivals [DArrive bs]) with (bs ++ []) in E3. rewrite app_nil_r in E3. by rewrite <-app_assoc.
  - change (arrivals [DPoll]) with (@nil N) in E3. cbn [app] in E3. rewrite (taken_eat s taken) by done. destruct (eat _ (taken ++ d_in s)) as [[p'|r] rest] eqn:Ee.
    + exists ps1, ps2, (taken ++ d_in s). cbn [fst snd option_list option_rect app d_in]. rewrite app_nil_r. pose proof (eat_all _ _ _ _ Ee) as ->. split_and!; [done|done|done|]. by rewrite <-app_assoc.
    + destruct ps2 as [|p ps2].
      { rewrite app_assoc in E3. apply app_eq_nil in E3 as [E3 _]. rewrite E3 in Ee. done. }
      rewrite app_assoc, fmap_cons in E3. cbn [concat] in E3. apply (f_equal (eat (PHead None []))) in E3. rewrite eat_app, Ee in E3. apply Forall_app in Hf as [_ Hf]. inversion Hf; subst. rewrite eat_frame in E3 by done. apply pair_equal_spec in E3 as [E3 E4]. apply (inj inr) in E3. subst r.
      exists (ps1 ++ [p]), ps2, []. cbn [fst snd option_list option_rect app d_in]. split_and!; [by rewrite <-app_assoc|by rewrite fmap_app|done|done].
  - change (arrivals [DDrop]) with (@nil N) in E3, E. cbn [app] in E3, E. destruct (Hcalm os [] eq_refl) as (qs & Hq & Eq & Hl). unfold returns in Hl. rewrite Er in Hl. cbn [fst] in Hl.
    destruct (IH [] qs Hq ltac:(by rewrite app_nil_r)) as (qs1 & qs2 & taken' & -> & F1 & F2 & F3). cbn [fst snd] in *. rewrite F1, fmap_length, app_length in Hl. assert (qs2 = []) as -> by (destruct qs2; [done|cbn in Hl; lia]). cbn [fmap list_fmap concat] in F3. apply app_eq_nil in F3 as [_ F3]. apply app_eq_nil in F3 as [F3 _].
    assert (length qs1 = length ps1) as Hl1 by (rewrite F1 in E1; apply (f_equal length) in E1; by rewrite !fmap_length in E1). rewrite app_nil_r in *. apply Forall_app in Hf as [Hf1 Hf2].
    assert (tail = concat (frame <$> ps2)) as Ht. { apply (frames_cut qs1 ps1); [done|done|done|]. by rewrite <-Eq, E, fmap_app, concat_app. }
    exists ps1, ps2, []. cbn [fst snd option_list option_rect app d_in]. rewrite F3. done.
Qed.

(** *** C241: chunks do not matter *)
Theorem C241_patient os tail : patient os → (srun (open_on (arrivals os ++ tail)) (replicate (length (returns os)) Receive)).1 = Got <$> returns os.
Proof. intros Hp. unfold returns, d_new. destruct (d_run _ os) as [rs s'] eqn:E. destruct (patient_from os [] rs s' tail Hp E) as (Y & H & _). cbn [fst app] in *. by rewrite H. Qed.
Print Assumptions C241_patient.

(** *** C241: giving up between messages *)
Theorem C241_between_partial os ps : calm os → Forall fits ps → arrivals os = concat (frame <$> ps) → (∃ ps1 ps2, ps = ps1 ++ ps2 ∧ returns os = reading <$> ps1) ∧ (waits os → returns os = reading <$> ps).
Proof.
  intros Hc Hf E. destruct (frames_run os Hc [] ps Hf ltac:(by rewrite app_nil_r)) as (ps1 & ps2 & taken & -> & E1 & E2 & E3). split; [by exists ps1, ps2|]. intros Hw. rewrite app_nil_r in E3. unfold waits in Hw. cbn [d_step] in Hw. rewrite (taken_eat _ taken), E3 in Hw by done.
  destruct ps2 as [|p ps2]; [by rewrite app_nil_r|]. apply Forall_app in Hf as [_ Hf]. inversion Hf; subst. rewrite fmap_cons in Hw. cbn [concat] in Hw. rewrite eat_frame in Hw by done. discriminate Hw.
Qed.
Print Assumptions C241_between_partial.

(** *** C241: giving up within a message *)
Lemma decoded_brace l t : Forall (λ b, b < 256) l → 125 ∈ l → utf8_decode l = Some t → 125 ∈ t.
Proof.
  intros Hb Hin E. apply utf8_decode_iff in E as [Hs ->]; [|done]. clear Hb. induction Hs as [|c t Hc Hs IH]; [by apply elem_of_nil in Hin|]. unfold utf8 in Hin. rewrite fmap_cons in Hin. cbn [concat] in Hin. apply elem_of_app in Hin as [H|H]; [|right; by apply IH].
  destruct (N.ltb c 128) eqn:E; [rewrite utf8_char_ascii in H by lia; apply elem_of_list_singleton in H; subst; left|]. apply utf8_char_bytes in H; [|unfold scalar in Hc; lia]. lia.
Qed.
Lemma trim_brace t : 125 ∈ t → 125 ∈ trim t.
Proof.
  intros H. destruct (trim_cut t) as (a & b & E & Ha & Hb). rewrite E, !elem_of_app in H. destruct H as [H|[H|H]]; [|done|]; [apply Ha, white_spec in H|apply Hb, white_spec in H]; discriminate H.
Qed.
Lemma digits_brace max acc l : 125 ∈ l → parse_digits max acc l = None.
Proof.
  revert acc. induction l as [|d l IH]; intros acc H; [by apply elem_of_nil in H|]. cbn [parse_digits]. apply elem_of_cons in H as [<-|H]; [done|]. destruct (_ && _); [|done]. cbv zeta. destruct (_ <=? max); [by apply IH|done].
Qed.
Lemma unsigned_brace max l : 125 ∈ l → parse_unsigned max l = None.
Proof.
  intros H. destruct l as [|c l]; [done|]. destruct (decide (c = 43)) as [->|Hc].
  - apply elem_of_cons in H as [H|H]; [lia|]. destruct l; [done|]. by apply digits_brace.
  - assert (parse_unsigned max (c :: l) = parse_digits max 0 (c :: l)) as ->; [|by apply digits_brace]. unfold parse_unsigned. destruct c as [|c]; [done|]. do 6 (try (destruct c as [c|c|]; try done)).
Qed.
Lemma strip_inv x l r : strip x l = Some r → l = x ++ r.
Proof. revert l. induction x as [|c x IH]; intros l; cbn [strip]; [by intros [= <-]|]. destruct l as [|d l]; [done|]. destruct (c =? d) eqn:E; [|done]. apply N.eqb_eq in E. subst d. intros H. by rewrite (IH _ H). Qed.
Lemma length_brace l : 125 ∈ l → parse_content_length l = None.
Proof.
  intros H. unfold parse_content_length. destruct (strip header_name l) as [r|] eqn:E; [|done]. apply strip_inv in E. subst l. apply elem_of_app in H as [H|H].
  - exfalso. revert H. by apply (bool_decide_unpack _); vm_compute.
  - by apply unsigned_brace, trim_brace.
Qed.
(** What is left of a stream of frames when the first ones were lost. *)
Inductive lost : stdio → Prop :=
| LostClosed s : sd_closed s = true → lost s
| LostNothing : lost (open_on [])
| LostMid b qs : objectlike b → Forall objectlike qs → lost (open_on (b ++ concat (frame <$> qs)))
| LostLine q qs : objectlike q → Forall objectlike qs → lost (open_on (13 :: 10 :: q ++ concat (frame <$> qs))).
Lemma lost_step s : lost s → (receive s).1 ∈ [RInvalid; RIo; RClosed] ∧ lost (receive s).2.
Proof.
  intros H. destruct H as [s H| |b qs Hb Hq|q qs Hb Hq].
  - unfold receive. rewrite H. split; [by do 2 right; left|by constructor].
  - split; [by do 2 right; left|by constructor].
  - rewrite receive_cont. unfold cont. cbn [app]. destruct Hb as (Hb1 & Hb2 & Hb3). destruct qs as [|q qs].
    + cbn [fmap list_fmap concat]. rewrite app_nil_r. cbn [read_headers]. destruct b as [|x l] eqn:E; [by apply elem_of_nil in Hb3|]. rewrite <-E in *. rewrite read_line_whole by done. destruct (utf8_decode b) as [t|] eqn:Et; [|split; [by right; left|apply LostNothing]].
      apply decoded_brace in Et; [|done|done]. apply trim_brace in Et. destruct (trim t) as [|y l'] eqn:El; [by apply elem_of_nil in Et|]. rewrite E. cbn [length read_headers]. split; [by do 2 right; left|by constructor].
    + inversion Hq as [|? ? Hq1 Hq2]; subst. rewrite fmap_cons. cbn [concat]. rewrite frame_split. set (h := header_name ++ show_N (N.of_nat (length q)) ++ [13]). assert (10 ∉ b ++ h) as Hn by (rewrite elem_of_app; intros [?|?]; [done|by apply (no_lf (N.of_nat (length q)))]).
      rewrite app_assoc. assert (∃ k, length ((b ++ h) ++ 10 :: [13] ++ 10 :: q ++ concat (frame <$> qs)) = S k) as [k Hk] by (rewrite app_length; cbn; eexists; rewrite Nat.add_succ_r; reflexivity). rewrite Hk. cbn [read_headers]. destruct ((b ++ h) ++ _) eqn:E; [by destruct (b ++ h)|]. rewrite <-E. clear E Hk. rewrite read_line_app by done.
      destruct (utf8_decode ((b ++ h) ++ [10])) as [t|] eqn:Et; [|split; [by right; left|by apply LostLine]].
      apply decoded_brace in Et; [|apply Forall_app; split; [apply Forall_app; split; [done|]|by repeat constructor]|rewrite !elem_of_app; by left; left].
      * apply trim_brace in Et. destruct (trim t) as [|y l'] eqn:El; [by apply elem_of_nil in Et|]. rewrite length_brace by done. change ([13] ++ 10 :: q ++ concat (frame <$> qs)) with ([13] ++ 10 :: (q ++ concat (frame <$> qs))). rewrite (read_line_app [13]) by (by apply (bool_decide_unpack _); vm_compute). cbn [app]. change (utf8_decode [13; 10]) with (Some [13; 10]). change (trim [13; 10]) with (@nil N). split; [left|by apply LostMid].
      * subst h. pose proof (header_plain (N.of_nat (length q))) as Hp. unfold plain in Hp. rewrite Forall_app in Hp. destruct Hp as [Hp1 Hp2]. repeat (apply Forall_app; split); [| |by repeat constructor]; eapply Forall_impl; try done; cbn; lia.
  - split; [left|by apply LostMid].
Qed.
Lemma lost_run n s : lost s → Forall (λ r, ∃ x, r = Got x ∧ x ∈ [RInvalid; RIo; RClosed]) (srun s (replicate n Receive)).1.
Proof.
  revert s. induction n as [|n IH]; intros s H; [constructor|]. cbn [replicate srun sstep]. destruct (lost_step s H) as [H1 H2]. destruct (receive s) as [r s1]. specialize (IH s1 H2). destruct (srun s1 _). cbn [fst snd] in *. constructor; [by exists r|done].
Qed.
Lemma never_closed s os : RClosed ∉ (d_run s os).1.
Proof.
  assert (∀ p inp, (eat p inp).1 ≠ inr RClosed) as He.
  { intros p inp. revert p. induction inp as [|c inp IH]; intros p; [done|]. cbn [eat]. destruct (step_byte p c) as [p'|r] eqn:E; [apply IH|]. cbn [fst]. intros E2. apply (inj inr) in E2. subst r. revert E. unfold step_byte, result_of.
    destruct p as [len line|n got]; [destruct (c =? 10); [|done]; destruct (utf8_decode _) as [t|]; [|done]; destruct (trim t); [|done]; destruct len as [n|]; [|done]; destruct (isize_max <? n); [done|]; destruct (n =? 0); [|done]; by destruct (parse_message []) |].
    destruct (_ =? n); [|done]. by destruct (parse_message _). }
  revert s. induction os as [|o os IH]; intros s; [apply not_elem_of_nil|]. cbn [d_run]. destruct (d_step s o) as [r s1] eqn:E. specialize (IH s1). destruct (d_run s1 os) as [rs s2]. cbn [fst] in *. rewrite elem_of_app. intros [H|H]; [|done]. destruct r as [r|]; [|by apply elem_of_nil in H]. apply elem_of_list_singleton in H. subst r.
  destruct o; cbn [d_step] in E; [done| |done]. specialize (He (default (PHead None []) (d_cur s)) (d_in s)). destruct (eat _ _) as [[p|r] rest]; [done|]. apply pair_equal_spec in E as [E _]. apply (inj Some) in E. by subst r.
Qed.
(** Once a call was given up after it had taken part [a] of a message [a ++ b], no later call returns a message, although the
    rest of the message and any number of whole messages arrive, in whatever pieces. *)
Theorem C241_desync_refuted os1 os2 ps a b qs : arrivals os1 = concat (frame <$> ps) ++ head_of (a ++ b) ++ a → waits os1 → objectlike b → Forall objectlike qs →
  patient os2 → arrivals os2 = b ++ concat (frame <$> qs) →
  ∃ rs, returns (os1 ++ DPoll :: DDrop :: os2) = returns os1 ++ rs ∧ Forall (λ r, r = RInvalid ∨ r = RIo) rs.
Proof.
  intros _ Hw Hb Hq Hp E. unfold returns, waits in *. rewrite d_run_app. destruct (d_run d_new os1) as [r1 s1]. cbn [fst snd] in *. cbn [d_run d_step] in *. destruct (eat _ _) as [[p|r] rest] eqn:Ee; [|discriminate Hw]. apply eat_all in Ee. subst rest. cbn [d_in]. destruct (d_run (MkDio [] None) os2) as [rs s2] eqn:Er.
  exists rs. split; [done|]. destruct (patient_from os2 [] rs s2 [] Hp Er) as (Y & HY & _). cbn [app] in HY. rewrite app_nil_r, E in HY. pose proof (lost_run (length rs) _ (LostMid b qs Hb Hq)) as HL. rewrite HY in HL. cbn [fst] in HL. pose proof (never_closed (MkDio [] None) os2) as Hn. rewrite Er in Hn. cbn [fst] in Hn.
  apply Forall_forall. intros r Hr. rewrite Forall_forall in HL. destruct (HL (Got r)) as (x & Hx & Hin); [by apply elem_of_list_fmap_1|]. injection Hx as <-. rewrite !elem_of_cons, elem_of_nil in Hin. destruct Hin as [->|[->|[->|[]]]]; [by left|by right|done].
Qed.
Print Assumptions C241_desync_refuted.

(** *** C241: the same in terms of messages *)
Lemma message_object m : ∃ l, message_json m = JObj l.
Proof. destruct m as [id r|r|n]; unfold message_json, request_json, response_json, notification_json; eexists; reflexivity. Qed.
Lemma utf8_bytes t : Forall scalar t → Forall (λ b, b < 256) (utf8 t).
Proof.
  induction 1 as [|c t Hc Hs IH]; [constructor|]. unfold utf8. rewrite fmap_cons. cbn [concat]. apply Forall_app. split; [|exact IH]. apply Forall_forall. intros b Hb. apply utf8_char_bytes in Hb; [lia|unfold scalar in Hc; lia].
Qed.
Lemma message_cut m a b : sendable m → serialize_message m = a ++ b → b ≠ [] → objectlike b.
Proof.
  intros (_ & _ & (Hw & _ & Hsc & _) & _) E Hb. unfold serialize_message, to_bytes in E. pose proof (HttpClientProofs.show_printed _ Hw) as Hp. pose proof (show_scalar _ Hsc) as Hs. destruct (message_object m) as [l El]. rewrite El in *. clear El Hw Hsc.
  split_and!.
  - apply (Forall_app _ a b). rewrite <-E. by apply utf8_bytes.
  - intros Hin. apply (utf8_lf (show (JObj l)) Hs); [|rewrite E; apply elem_of_app; by right]. intros H10. rewrite Forall_forall in Hp. by destruct (Hp 10 H10).
  - assert (∃ t, show (JObj l) = t ++ [125]) as [t Et] by (by eexists (123 :: _)). rewrite Et, utf8_app in E. change (utf8 [125]) with [125] in E. apply (f_equal last) in E. rewrite last_snoc, last_app in E. destruct (last b) as [x|] eqn:Ex; [|by apply last_None in Ex]. injection E as ->. apply last_Some in Ex as [b' ->]. apply elem_of_app. right. left.
Qed.
(** Calls that are given up between messages lose nothing. *)
Theorem C241_received_partial os ms : calm os → Forall sendable ms → arrivals os = concat ((λ m, frame (serialize_message m)) <$> ms) → waits os → returns os = (λ m, RMsg (msg_seen_as m)) <$> ms.
Proof.
  intros Hc Hs E Hw. assert (Forall fits (serialize_message <$> ms)) as Hf by (apply Forall_fmap; eapply Forall_impl; [exact Hs|]; by intros m (_ & _ & _ & ?)).
  destruct (C241_between_partial os (serialize_message <$> ms) Hc Hf) as [_ H]; [by rewrite <-list_fmap_compose|]. rewrite (H Hw), <-list_fmap_compose. clear -Hs. induction Hs as [|m ms (Hg & Hn & Hst & _) _ IH]; [done|]. rewrite !fmap_cons, IH. f_equal. unfold compose, reading. by rewrite message_bytes.
Qed.
Print Assumptions C241_received_partial.
(** A call that is given up when part of the message [m] was taken: neither [m] nor any later message is received. *)
Theorem C241_lost_refuted os1 os2 ps m a b ms : sendable m → serialize_message m = a ++ b → b ≠ [] → Forall sendable ms →
  arrivals os1 = concat (frame <$> ps) ++ head_of (serialize_message m) ++ a → waits os1 → patient os2 → arrivals os2 = b ++ concat ((λ m, frame (serialize_message m)) <$> ms) →
  ∃ rs, returns (os1 ++ DPoll :: DDrop :: os2) = returns os1 ++ rs ∧ Forall (λ r, r = RInvalid ∨ r = RIo) rs.
Proof.
  intros Hm E Hb Hms E1 Hw Hp E2. apply (C241_desync_refuted os1 os2 ps a b (serialize_message <$> ms)); [by rewrite E1, E|done|by apply (message_cut m a)| |done|by rewrite E2, <-list_fmap_compose].
  apply Forall_fmap. eapply Forall_impl; [exact Hms|]. intros x Hx. cbn. apply (message_cut x []); [done|done|]. destruct Hx as (Hg & Hn & Hst & _). intros E0. pose proof (message_bytes x Hg Hn Hst) as Hb0. rewrite E0 in Hb0. discriminate Hb0.
Qed.
Print Assumptions C241_lost_refuted.
Lemma calm_once os1 os2 ps : patient os1 → patient os2 → Forall fits ps → arrivals os1 = concat (frame <$> ps) → length (returns os1) = length ps → calm (os1 ++ DDrop :: os2).
Proof.
  intros H1 H2 Hf Ha Hl o1 o2 E. exists ps. assert (o1 = os1) as ->; [|done]. clear -E H1 H2. unfold patient in *. revert o1 E. induction os1 as [|x os1 IH]; intros [|y o1] E; cbn [app] in E; [done| | |].
  - injection E as _ E. destruct H2. rewrite E. apply elem_of_app. right. left.
  - injection E as -> _. destruct H1. left.
  - injection E as <- E. apply not_elem_of_cons in H1 as [_ H1]. by rewrite (IH H1 _ E).
Qed.
(** A ping reply arrives in two pieces while a call is polled, a call is given up when nothing is under way, and the next reply
    arrives; then the same reply is cut after ten bytes by a call that is given up, and two more whole replies are lost. *)
Example C241_example :
  let m := MsgResponse (success (IdNum 2) (JObj [])) in
  let w := frame (serialize_message m) in
  let os := [DArrive (take 30 w); DPoll; DArrive (drop 30 w); DPoll; DPoll; DDrop; DArrive w; DPoll; DPoll] in
  let cut := length (head_of (serialize_message m) ++ take 10 (serialize_message m)) in
  let os1 := [DArrive (w ++ take cut w); DPoll] in
  let os2 := [DPoll; DArrive (drop cut w ++ w); DPoll; DPoll; DArrive w; DPoll; DPoll] in
  sendable m ∧ calm os ∧ arrivals os = w ++ w ∧ waits os ∧ returns os = [RMsg m; RMsg m] ∧
  waits os1 ∧ patient os2 ∧ arrivals os1 = w ++ head_of (serialize_message m) ++ take 10 (serialize_message m) ∧ arrivals os2 = drop 10 (serialize_message m) ++ w ++ w ∧
  returns (os1 ++ DPoll :: DDrop :: os2) = [RMsg m; RInvalid; RInvalid].
Proof.
  cbv zeta. split_and!.
  - split; [cbn; unfold good_response; cbn; unfold i64_min, i64_max; lia|]. split; [done|]. split; [|by vm_compute]. apply HttpClientProofs.storable_check; [by vm_compute|vm_compute; lia].
  - set (m := MsgResponse _). apply (calm_once [DArrive (take 30 (frame (serialize_message m))); DPoll; DArrive (drop 30 (frame (serialize_message m))); DPoll; DPoll] [DArrive (frame (serialize_message m)); DPoll; DPoll] [serialize_message m]).
    + unfold patient. rewrite !not_elem_of_cons. split_and!; [done|done|done|done|done|apply not_elem_of_nil].
    + unfold patient. rewrite !not_elem_of_cons. split_and!; [done|done|done|apply not_elem_of_nil].
    + constructor; [by vm_compute|constructor].
    + by vm_compute.
    + by vm_compute.
  - by vm_compute.
  - by vm_compute.
  - by vm_compute.
  - by vm_compute.
  - unfold patient. rewrite !not_elem_of_cons. split_and!; [done|done|done|done|done|done|done|apply not_elem_of_nil].
  - by vm_compute.
  - by vm_compute.
  - by vm_compute.
Qed.
