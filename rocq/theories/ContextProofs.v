From stdpp Require Import list strings gmap.
From Coq Require Import ZifyBool.
From Verif Require Import ListLib TextLib JsonLib RpcModel ContextModel ContextSpec.
Local Open Scope N_scope.

(** *** Baggage *)
Lemma strip_prefix_Some p s k : strip_prefix p s = Some k ↔ s = p ++ k.
Proof.
  unfold strip_prefix. split.
  - destruct (starts_with p s) eqn:E; [|done]. intros [= <-]. apply starts_with_spec in E as [r ->]. by rewrite drop_app.
  - intros ->. assert (starts_with p (p ++ k) = true) as -> by (apply starts_with_spec; eauto). by rewrite drop_app.
Qed.
Lemma baggage_lookup h k : baggage_of h !! k = h !! (BAGGAGE ++ k).
Proof.
  unfold baggage_of. set (l := omap _ _). assert (Hl : ∀ k v, (k, v) ∈ l ↔ h !! (BAGGAGE ++ k) = Some v).
  { intros k' v. unfold l. rewrite elem_of_list_omap. split.
    - intros ([x y] & Hin & E). apply elem_of_map_to_list in Hin. cbn [fst snd] in E. destruct (strip_prefix BAGGAGE x) as [k0|] eqn:Es; [|done]. cbn in E. simplify_eq. by apply strip_prefix_Some in Es as ->.
    - intros H. exists (BAGGAGE ++ k', v). split; [by apply elem_of_map_to_list|]. cbn [fst snd]. rewrite (proj2 (strip_prefix_Some _ _ _) eq_refl). done. }
  assert (Hn : NoDup l.*1).
  { unfold l. clear Hl. pose proof (NoDup_fst_map_to_list h) as Hnd. induction (map_to_list h) as [|[x y] m IH]; [constructor|]. rewrite fmap_cons in Hnd. apply NoDup_cons in Hnd as [Hx Hnd]. cbn [omap list_omap fst snd]. destruct (strip_prefix BAGGAGE x) as [k0|] eqn:Es; cbn [fmap option_fmap option_map]; [|by apply IH].
    rewrite fmap_cons. apply NoDup_cons. split; [|by apply IH]. cbn [fst]. intros ((k1 & v1) & -> & Hin)%elem_of_list_fmap. cbn [fst] in *. apply elem_of_list_omap in Hin as ([x' y'] & Hin & E). cbn [fst snd] in E. destruct (strip_prefix BAGGAGE x') as [k2|] eqn:Es'; [|done]. cbn in E. simplify_eq.
    apply strip_prefix_Some in Es as ->. apply strip_prefix_Some in Es' as ->. apply Hx. cbn [fst]. apply elem_of_list_fmap. by exists (BAGGAGE ++ k1, v1). }
  destruct (h !! (BAGGAGE ++ k)) as [v|] eqn:E.
  - apply elem_of_list_to_map_1; [done|]. by apply Hl.
  - destruct ((list_to_map l : gmap _ _) !! k) as [v|] eqn:E2; [|done]. apply elem_of_list_to_map_2 in E2. apply Hl in E2. congruence.
Qed.

(** *** What is in the headers *)
Lemma set_opt_lookup k v h k' : set_opt k v h !! k' = if decide (k = k') then match v with Some v => Some v | None => h !! k' end else h !! k'.
Proof. destruct v as [v|]; cbn [set_opt]; [|by destruct (decide _)]. destruct (decide (k = k')) as [->|]; [by rewrite lookup_insert|by rewrite lookup_insert_ne]. Qed.
Lemma other_lookup (b h : gmap (list N) (list N)) k : starts_with BAGGAGE k = false → (kmap (app BAGGAGE) b ∪ h : gmap _ _) !! k = h !! k.
Proof.
  intros Hk. rewrite lookup_union_r; [done|]. destruct ((kmap (app BAGGAGE) b : gmap (list N) (list N)) !! k) as [v|] eqn:E; [|done]. apply lookup_kmap_Some in E as (k' & -> & _); [|apply _]. rewrite (proj2 (starts_with_spec _ _)) in Hk; [done|eauto].
Qed.
Lemma bag_lookup (b h : gmap (list N) (list N)) k : h !! (BAGGAGE ++ k) = None → (kmap (app BAGGAGE) b ∪ h : gmap _ _) !! (BAGGAGE ++ k) = b !! k.
Proof. intros Hk. rewrite lookup_union_l by done. apply (lookup_kmap (M1 := gmap (list N)) (M2 := gmap (list N)) (app BAGGAGE)). Qed.
Lemma headers_inv c h : to_headers c = Some h → ∃ span, slice (undashed (span_id c)) 0 16 = Some span ∧
  h !! lit "traceparent" = Some (lit "00-" ++ undashed (trace_id c) ++ [DASH] ++ span ++ lit "-01") ∧ h !! lit "x-request-id" = Some (show_rid (request_id c)) ∧
  h !! lit "x-user-id" = user_id c ∧ h !! lit "x-session-id" = session_id c ∧ baggage_of h = baggage c.
Proof.
  unfold to_headers. destruct (slice _ 0 16) as [span|]; [|done]. intros [= <-]. exists span.  split; [done|].
  split; [|split; [|split; [|split]]].
  - rewrite other_lookup by by vm_compute. rewrite !set_opt_lookup. rewrite !decide_False by (by apply (bool_decide_unpack _); vm_compute). rewrite lookup_insert_ne by (by apply (bool_decide_unpack _); vm_compute). by rewrite lookup_insert.
  - rewrite other_lookup by by vm_compute. rewrite !set_opt_lookup. rewrite !decide_False by (by apply (bool_decide_unpack _); vm_compute). by rewrite lookup_insert.
  - rewrite other_lookup by by vm_compute. rewrite (set_opt_lookup (lit "x-session-id")). rewrite decide_False by (by apply (bool_decide_unpack _); vm_compute). rewrite (set_opt_lookup (lit "x-user-id")). rewrite decide_True by reflexivity. destruct (user_id c); [done|]. rewrite !lookup_insert_ne by (by apply (bool_decide_unpack _); vm_compute). done.
  - rewrite other_lookup by by vm_compute. rewrite (set_opt_lookup (lit "x-session-id")). rewrite decide_True by reflexivity. destruct (session_id c); [done|]. rewrite (set_opt_lookup (lit "x-user-id")). rewrite decide_False by (by apply (bool_decide_unpack _); vm_compute). rewrite !lookup_insert_ne by (by apply (bool_decide_unpack _); vm_compute). done.
  - apply map_eq. intros k. rewrite baggage_lookup. apply bag_lookup. assert (∀ x, head x ≠ Some 98 → x ≠ BAGGAGE ++ k) as Hx by (intros x Hx ->; apply Hx; done).
    rewrite !set_opt_lookup, !decide_False by (apply Hx; by vm_compute). rewrite !lookup_insert_ne by (apply Hx; by vm_compute). done.
Qed.

(** *** UUIDs *)
Lemma hex_no_dash g n : hex_group n g → DASH ∉ g.
Proof. intros [_ H] Hin. rewrite Forall_forall in H. apply H in Hin. unfold hex_digit, DASH in Hin. lia. Qed.
Lemma undashed_no s : DASH ∉ undashed s.
Proof. unfold undashed. intros [H _]%elem_of_list_filter. done. Qed.
Lemma undashed_id s : DASH ∉ s → undashed s = s.
Proof. unfold undashed. induction s as [|c s IH]; [done|]. intros H. apply not_elem_of_cons in H as [H1 H2]. rewrite filter_cons_True by done. by rewrite IH. Qed.
Lemma undashed_app a b : undashed (a ++ b) = undashed a ++ undashed b.
Proof. apply filter_app. Qed.
Lemma uuid_undashed t a b c d e : uuid_of t a b c d e → undashed t = a ++ b ++ c ++ d ++ e.
Proof.
  intros (-> & Ha & Hb & Hc & Hd & He). rewrite !undashed_app. change (undashed [45]) with (@nil N). rewrite !undashed_id by (by eapply hex_no_dash). done.
Qed.
Definition ascii (s : list N) : Prop := Forall (λ b, b < 128) s.
Lemma ascii_boundary s i : ascii s → (i <= length s)%nat → boundary s i = true.
Proof.
  intros Hs Hi. unfold boundary. destruct (i =? length s)%nat eqn:E; [done|]. apply Nat.eqb_neq in E. destruct (lookup_lt_is_Some_2 s i) as [b Hb]; [lia|]. rewrite Hb. apply elem_of_list_lookup_2 in Hb. unfold ascii in Hs. rewrite Forall_forall in Hs. apply Hs in Hb. cbn. lia.
Qed.
Lemma ascii_slice s a b : ascii s → (a <= b)%nat → (b <= length s)%nat → slice s a b = Some (take (b - a) (drop a s)).
Proof. intros Hs Ha Hb. unfold slice. rewrite !ascii_boundary by (done || lia). rewrite (proj2 (Nat.leb_le _ _) Ha), (proj2 (Nat.leb_le _ _) Hb). done. Qed.
Lemma hex_ascii n g : hex_group n g → ascii g.
Proof. intros [_ H]. eapply Forall_impl; [exact H|]. unfold hex_digit. cbn. lia. Qed.
Lemma slice_inv s a b r : slice s a b = Some r → r = take (b - a) (drop a s) ∧ (a <= b)%nat ∧ (b <= length s)%nat.
Proof. unfold slice. destruct (_ && _) eqn:E; [|done]. intros [= <-]. split; [done|]. lia. Qed.
Lemma restore_uuid t a b c d e : uuid_of t a b c d e → restore_trace (a ++ b ++ c ++ d ++ e) = Some t.
Proof.
  intros (-> & Ha & Hb & Hc & Hd & He). unfold restore_trace. pose proof (hex_ascii _ _ Ha) as Aa. pose proof (hex_ascii _ _ Hb) as Ab. pose proof (hex_ascii _ _ Hc) as Ac. pose proof (hex_ascii _ _ Hd) as Ad. pose proof (hex_ascii _ _ He) as Ae.
  destruct Ha as [La _], Hb as [Lb _], Hc as [Lc _], Hd as [Ld _], He as [Le _].
  assert (ascii (a ++ b ++ c ++ d ++ e)) as As by (unfold ascii; rewrite !Forall_app; done). assert (length (a ++ b ++ c ++ d ++ e) = 32)%nat as L by (rewrite !app_length; lia). rewrite L. cbn [Nat.eqb].
  rewrite !ascii_slice by (done || lia).
  assert (∀ n (x y : list N), length x = n → drop n (x ++ y) = y) as Hdrop by (intros n x y <-; apply drop_app). assert (∀ n (x y : list N), length x = n → take n (x ++ y) = x) as Htake by (intros n x y <-; apply take_app).
  change (8 - 0)%nat with 8%nat. change (12 - 8)%nat with 4%nat. change (16 - 12)%nat with 4%nat. change (20 - 16)%nat with 4%nat. change (32 - 20)%nat with 12%nat.
  rewrite drop_0, (Htake 8%nat a) by done. rewrite (Hdrop 8%nat a) by done. rewrite (Htake 4%nat b) by done.
  rewrite (app_assoc a b). rewrite (Hdrop 12%nat (a ++ b)) by (rewrite app_length; lia). rewrite (Htake 4%nat c) by done.
  rewrite (app_assoc (a ++ b) c). rewrite (Hdrop 16%nat ((a ++ b) ++ c)) by (rewrite !app_length; lia). rewrite (Htake 4%nat d) by done.
  rewrite (app_assoc ((a ++ b) ++ c) d). rewrite (Hdrop 20%nat (((a ++ b) ++ c) ++ d)) by (rewrite !app_length; lia). rewrite firstn_all2 by lia. done.
Qed.
Lemma restore_span_uuid a b c : hex_group 8 a → hex_group 4 b → hex_group 4 c → restore_span (a ++ b ++ c) = Some (a ++ [45] ++ b ++ [45] ++ c ++ [45] ++ lit "0000" ++ [45] ++ lit "000000000000").
Proof.
  intros Ha Hb Hc. unfold restore_span. pose proof (hex_ascii _ _ Ha) as Aa. pose proof (hex_ascii _ _ Hb) as Ab. pose proof (hex_ascii _ _ Hc) as Ac. destruct Ha as [La _], Hb as [Lb _], Hc as [Lc _].
  assert (ascii (a ++ b ++ c)) as As by (unfold ascii; rewrite !Forall_app; done). assert (length (a ++ b ++ c) = 16)%nat as L by (rewrite !app_length; lia). rewrite L. cbn [Nat.eqb]. rewrite !ascii_slice by (done || lia).
  assert (∀ n (x y : list N), length x = n → drop n (x ++ y) = y) as Hdrop by (intros n x y <-; apply drop_app). assert (∀ n (x y : list N), length x = n → take n (x ++ y) = x) as Htake by (intros n x y <-; apply take_app).
  change (8 - 0)%nat with 8%nat. change (12 - 8)%nat with 4%nat. change (16 - 12)%nat with 4%nat.
  rewrite drop_0, (Htake 8%nat a) by done. rewrite (Hdrop 8%nat a) by done. rewrite (Htake 4%nat b) by done. rewrite (app_assoc a b). rewrite (Hdrop 12%nat (a ++ b)) by (rewrite app_length; lia). rewrite firstn_all2 by lia. done.
Qed.
Lemma span_slice t a b c d e : uuid_of t a b c d e → slice (undashed t) 0 16 = Some (a ++ b ++ c).
Proof.
  intros H. rewrite (uuid_undashed _ _ _ _ _ _ H). destruct H as (_ & Ha & Hb & Hc & Hd & He). pose proof (hex_ascii _ _ Ha) as Aa. pose proof (hex_ascii _ _ Hb) as Ab. pose proof (hex_ascii _ _ Hc) as Ac. pose proof (hex_ascii _ _ Hd) as Ad. pose proof (hex_ascii _ _ He) as Ae.
  destruct Ha as [La _], Hb as [Lb _], Hc as [Lc _], Hd as [Ld _], He as [Le _]. rewrite ascii_slice; [|unfold ascii; rewrite !Forall_app; done|lia|rewrite !app_length; lia].
  f_equal. rewrite drop_0. change (16 - 0)%nat with 16%nat. rewrite (app_assoc b c), (app_assoc a (b ++ c)). assert (length (a ++ b ++ c) = 16)%nat as <- by (rewrite !app_length; lia). apply take_app.
Qed.

(** *** Numbers *)
Lemma parse_i64_show z : (i64_min <= z <= i64_max)%Z → parse_i64 (show_Z z) = Some z.
Proof.
  intros H. unfold i64_min, i64_max in H. assert (∀ n, n <= 9223372036854775807 → parse_i64 (show_N n) = Some (Z.of_N n)) as Hpos.
  { intros n Hn. pose proof (parse_show_N 9223372036854775807 n Hn) as Hp. unfold parse_i64. destruct (show_N n) as [|d r] eqn:E; [by rewrite Hp|]. assert (48 <= d <= 57) as Hd by (apply (show_N_digits n); rewrite E; apply elem_of_list_here). rewrite Hp. destruct (decide (d = 45)) as [->|Hne]; [lia|].
    cbn [fmap option_fmap option_map]. destruct d as [|p]; [done|]. repeat (destruct p as [p|p|]; try done). }
  destruct z as [|p|p]; cbn [show_Z].
  - change (Z.to_N 0) with 0. rewrite Hpos; [done|lia].
  - rewrite Hpos; [by rewrite Z2N.id|]. lia.
  - unfold parse_i64. pose proof (parse_show_N 9223372036854775808 (Npos p) ltac:(lia)) as Hp. destruct (show_N (N.pos p)) as [|d r] eqn:E; [done|]. unfold parse_unsigned in Hp.
    assert (48 <= d <= 57) as Hd by (apply (show_N_digits (N.pos p)); rewrite E; apply elem_of_list_here).
    assert (parse_digits 9223372036854775808 0 (d :: r) = Some (N.pos p)) as ->; [|done]. destruct d as [|q]; [lia|]. do 7 (try (destruct q as [q|q|]; try exact Hp)); exfalso; lia.
Qed.

(** *** The way through the headers *)
Lemma parts_of trace span : DASH ∉ trace → DASH ∉ span → split_on DASH (lit "00-" ++ trace ++ [DASH] ++ span ++ lit "-01") = [lit "00"; trace; span; lit "01"].
Proof.
  intros Ht Hs. change (lit "00-" ++ trace ++ [DASH] ++ span ++ lit "-01") with (lit "00" ++ DASH :: trace ++ DASH :: span ++ DASH :: lit "01").
  rewrite split_on_app by (by apply (bool_decide_unpack _); vm_compute). rewrite split_on_app by done. rewrite split_on_app by done. done.
Qed.
Lemma slice_no_dash s a b r : slice s a b = Some r → DASH ∉ s → DASH ∉ r.
Proof. intros (-> & _)%slice_inv H Hin. apply H. rewrite <- (take_drop a s). apply elem_of_app. right. rewrite <- (take_drop (b - a) (drop a s)). apply elem_of_app. by left. Qed.
Definition rid_after (fresh : Z) (i : rid) : rid := IdNum (default fresh (parse_i64 (show_rid i))).
Lemma from_to fresh span c h : to_headers c = Some h → ∃ s16, slice (undashed (span_id c)) 0 16 = Some s16 ∧
  from_headers fresh span h = match restore_trace (undashed (trace_id c)), restore_span s16 with
    | Some trace, Some parent => Some (Some (Ctx (rid_after fresh (request_id c)) trace (Some parent) span (user_id c) (session_id c) None ∅ (baggage c)))
    | _, _ => None end.
Proof.
  intros H. apply headers_inv in H as (s16 & Hs & Htp & Hid & Hu & Hse & Hb). exists s16. split; [done|]. unfold from_headers. rewrite Htp. rewrite parts_of by (apply undashed_no || by eapply slice_no_dash, undashed_no).
  rewrite Hid, Hu, Hse, Hb. done.
Qed.
