(** Theorems about HTTP clients that go away. *)
From stdpp Require Import gmap strings list.
From Verif Require Import ListLib TextLib JsonLib SerdeLib TypesModel RpcModel ServerModel HttpModel HttpSpec HttpProofs HttpProps HttpDropModel HttpDropSpec.

Section proofs.
Context (cf : hconfig) (answer : list logged → rid → request → rpc_response).
(** The state with other waiting requests *)
Definition set_pending (l : list pending) (s : hserver) : hserver := MkHttp (sx_sessions s) (sx_streams s) (sx_opened s) (sx_store s) l (sx_log s).
Lemma del_l {A} i (l k : list A) : i < length l → delete i (l ++ k) = delete i l ++ k.
Proof. revert i. induction l as [|x l IH]; intros [|i] H; cbn in *; try lia; [done|]. f_equal. apply IH. lia. Qed.
Lemma del_r {A} i (l k : list A) : delete (length l + i) (l ++ k) = l ++ delete i k.
Proof. induction l as [|x l IH]; [done|]. cbn. by f_equal. Qed.
(** What the parts of the handlers do does not depend on who waits *)
Lemma post_start_set h b f s l : sx_pending s = l →
  ∃ q, sx_pending (post_start cf h b f s).1 = l ++ q ∧ ∀ l', post_start cf h b f (set_pending l' s) = (set_pending (l' ++ q) (post_start cf h b f s).1, (post_start cf h b f s).2).
Proof.
  intros Hl. unfold post_start, process_init_session, validate_non_init_session, validate_protocol_version. destruct s as [se st op so pe lo]. cbn in Hl. subst pe.
  destruct (validate_headers h Post); [exists []; cbn; rewrite app_nil_r; split; [done|intros l'; by rewrite app_nil_r]|]. destruct b as [m|]; [|exists []; cbn; rewrite app_nil_r; split; [done|intros l'; by rewrite app_nil_r]].
  cbn [sx_sessions set_pending].
  repeat (match goal with |- context [match ?x with _ => _ end] => lazymatch x with context [match _ with _ => _ end] => fail | (_, _) => fail | _ => destruct x eqn:? end end; cbn [set_pending note set_session sx_sessions sx_streams sx_opened sx_store sx_pending sx_log fst snd wait] in *);
  first [by (eexists [_]; split; [reflexivity|])|by (exists []; split; [by rewrite app_nil_r|]; intros l'; by rewrite app_nil_r)|idtac].
Qed.
Lemma get_start_set h f s l : sx_pending s = l →
  ∃ q, sx_pending (get_start cf h f s).1 = l ++ q ∧ ∀ l', get_start cf h f (set_pending l' s) = (set_pending (l' ++ q) (get_start cf h f s).1, (get_start cf h f s).2).
Proof.
  intros Hl. unfold get_start. destruct s as [se st op so pe lo]. cbn in Hl. subst pe. destruct (validate_headers h Get); [exists []; cbn; rewrite app_nil_r; split; [done|intros l'; by rewrite app_nil_r]|]. cbn [sx_sessions sx_streams set_pending].
  repeat (match goal with |- context [match ?x with _ => _ end] => lazymatch x with context [match _ with _ => _ end] => fail | (_, _) => fail | _ => destruct x eqn:? end end; cbn [set_pending note set_session at_stream keep sx_sessions sx_streams sx_opened sx_store sx_pending sx_log fst snd wait] in *);
  first [by (eexists [_]; split; [reflexivity|])|by (exists []; split; [by rewrite app_nil_r|]; intros l'; by rewrite app_nil_r)|idtac].
Qed.
Lemma post_run_set hdr rsid id r e1 e2 s l : post_run cf answer hdr rsid id r e1 e2 (set_pending l s) = (set_pending l (post_run cf answer hdr rsid id r e1 e2 s).1, (post_run cf answer hdr rsid id r e1 e2 s).2) ∧ sx_pending (post_run cf answer hdr rsid id r e1 e2 s).1 = sx_pending s.
Proof.
  unfold post_run, update_session, build_response. destruct s as [se st op so pe lo]. cbv zeta. cbn [sx_sessions sx_streams sx_log set_pending note].
  repeat (match goal with |- context [match ?x with _ => _ end] => lazymatch x with context [match _ with _ => _ end] => fail | (_, _) => fail | _ => destruct x eqn:? end end; cbn [set_pending note set_session at_stream keep sx_sessions sx_streams sx_opened sx_store sx_pending sx_log fst snd wait] in *); done.
Qed.
Lemma get_run_set sid la s l : get_run cf sid la (set_pending l s) = (set_pending l (get_run cf sid la s).1, (get_run cf sid la s).2) ∧ sx_pending (get_run cf sid la s).1 = sx_pending s.
Proof. done. Qed.
Lemma delete_set h s l : delete_session cf h (set_pending l s) = (set_pending l (delete_session cf h s).1, (delete_session cf h s).2) ∧ sx_pending (delete_session cf h s).1 = sx_pending s.
Proof. unfold delete_session. destruct (h_session h); [|done]. destruct s. cbn. by destruct (_ && _). Qed.
Lemma emit_set n e s l : emit cf n e (set_pending l s) = set_pending l (emit cf n e s) ∧ sx_pending (emit cf n e s) = sx_pending s.
Proof. unfold emit. destruct s. cbn. destruct (_ !! n) as [[? [] ? []]|]; try done. by destruct (hc_store cf). Qed.
(** One more request waits, behind those of [l1] *)
Lemma step_beside s o p l1 l2 : sx_pending s = l1 ++ l2 → ∃ l1' l2', sx_pending (g_step cf answer s o).1 = l1' ++ l2' ∧ moved (length l1) o = length l1' ∧
  g_step cf answer (set_pending (l1 ++ p :: l2) s) (beside (length l1) o) = (set_pending (l1' ++ p :: l2') (g_step cf answer s o).1, (g_step cf answer s o).2).
Proof.
  intros Hp. assert (∀ i, (l1 ++ p :: l2) !! (if decide (i < length l1) then i else S i) = (l1 ++ l2) !! i) as Hlook.
  { intros i. case_decide; [by rewrite !lookup_app_l|]. rewrite !lookup_app_r by lia. by replace (S i - length l1) with (S (i - length l1)) by lia. }
  assert (∀ i, ∃ l1' l2', delete i (l1 ++ l2) = l1' ++ l2' ∧ (if decide (i < length l1) then pred (length l1) else length l1) = length l1' ∧ delete (if decide (i < length l1) then i else S i) (l1 ++ p :: l2) = l1' ++ p :: l2') as Hdel.
  { intros i. case_decide as Hi.
    - exists (delete i l1), l2. rewrite !del_l by done. split; [done|]. split; [|done]. destruct (lookup_lt_is_Some_2 l1 i Hi) as [x Hx]. rewrite length_delete by (by exists x). lia.
    - exists l1, (delete (i - length l1) l2). split; [rewrite <-del_r; f_equal; lia|]. split; [done|]. replace (S i) with (length l1 + S (i - length l1)) by lia. by rewrite del_r. }
  destruct o as [[h b f|h f|i a b|h|n e|n]|i]; cbn [g_step h_step beside moved].
  - destruct (post_start_set h b f s _ Hp) as (q & H1 & H2). exists l1, (l2 ++ q). rewrite H1, H2. split; [by rewrite app_assoc|]. split; [done|]. by rewrite <-app_assoc.
  - destruct (get_start_set h f s _ Hp) as (q & H1 & H2). exists l1, (l2 ++ q). rewrite H1, H2. split; [by rewrite app_assoc|]. split; [done|]. by rewrite <-app_assoc.
  - cbn [set_pending sx_pending]. rewrite Hlook, Hp. destruct (Hdel i) as (k1 & k2 & D1 & D2 & D3). destruct ((l1 ++ l2) !! i) as [[hdr rsid id r|sid la]|] eqn:E.
    + assert (drop_pending (if decide (i < length l1) then i else S i) (set_pending (l1 ++ p :: l2) s) = set_pending (k1 ++ p :: k2) (drop_pending i s)) as -> by (unfold drop_pending, set_pending; cbn; by rewrite D3).
      destruct (post_run_set hdr rsid id r a b (drop_pending i s) (k1 ++ p :: k2)) as [H1 H2]. rewrite H1. exists k1, k2. destruct (post_run cf answer hdr rsid id r a b (drop_pending i s)) as [s' x]. cbn [fst snd] in *. split; [by rewrite H2; cbn; rewrite Hp, D1|]. by split.
    + assert (drop_pending (if decide (i < length l1) then i else S i) (set_pending (l1 ++ p :: l2) s) = set_pending (k1 ++ p :: k2) (drop_pending i s)) as -> by (unfold drop_pending, set_pending; cbn; by rewrite D3).
      destruct (get_run_set sid la (drop_pending i s) (k1 ++ p :: k2)) as [H1 H2]. rewrite H1. exists k1, k2. destruct (get_run cf sid la (drop_pending i s)) as [s' x]. cbn [fst snd] in *. split; [by rewrite H2; cbn; rewrite Hp, D1|]. by split.
    + exists l1, l2. split; [done|]. split; [|done]. case_decide as Hi; [|done]. apply lookup_ge_None in E. rewrite app_length in E. lia.
  - destruct (delete_set h s (l1 ++ p :: l2)) as [H1 H2]. rewrite H1. exists l1, l2. destruct (delete_session cf h s). cbn [fst snd] in *. by rewrite H2.
  - destruct (emit_set n e s (l1 ++ p :: l2)) as [H1 H2]. rewrite H1. exists l1, l2. cbn [fst snd]. by rewrite H2.
  - by exists l1, l2.
  - destruct (Hdel i) as (k1 & k2 & D1 & D2 & D3). exists k1, k2. cbn [fst snd]. split; [cbn; by rewrite Hp, D1|]. split; [done|]. unfold drop_pending, set_pending. cbn. by rewrite D3.
Qed.
Lemma run_beside os : ∀ s p l1 l2, sx_pending s = l1 ++ l2 → g_run cf answer (set_pending (l1 ++ p :: l2) s) (then_gone (length l1) os) = g_run cf answer s os.
Proof.
  induction os as [|o os IH]; intros s p l1 l2 Hp; cbn [then_gone g_run].
  - cbn [g_step]. unfold drop_pending, set_pending. cbn [sx_pending sx_sessions sx_streams sx_opened sx_store sx_log]. rewrite delete_middle. rewrite <-Hp. by destruct s.
  - destruct (step_beside s o p l1 l2 Hp) as (k1 & k2 & H1 & H2 & H3). rewrite H3, H2. destruct (g_step cf answer s o) as [s' x]. cbn [fst snd] in *. by rewrite (IH s' p k1 k2 H1).
Qed.
End proofs.

(** *** C246: a client that goes away before its request is served *)
(** If a request of a client is let in, and opens no session, and the client goes away before the server turns to it, then
    whatever happens in between, everybody else gets the responses they would have got, and the server is in the state it would be
    in, if it had not been sent. *)
Theorem C246_unsent_partial : ∀ cf answer s h m f s' os, ¬ initializes m ∨ hc_stateful cf = false ∨ h_session h ≠ None → g_step cf answer s (GOp (HPost h (Some m) f)) = (s', None) →
  g_run cf answer s (GOp (HPost h (Some m) f) :: then_gone (length (sx_pending s)) os) = g_run cf answer s os.
Proof.
  intros cf answer s h m f s' os Hm Hs. cbn [g_run]. rewrite Hs. cbn [g_step h_step] in Hs. assert (∃ p, s' = wait p s) as [p ->].
  { unfold post_start in Hs. destruct (validate_headers h Post); [done|]. destruct (is_init m) eqn:Hi.
    - assert (hc_stateful cf = false ∨ h_session h ≠ None) as H by (destruct Hm as [Hm|H]; [apply is_init_false in Hm; by rewrite Hm in Hi|done]). unfold process_init_session in Hs. destruct (hc_stateful cf).
      + destruct H as [H|H]; [done|]. destruct (h_session h) as [sid|]; [|done]. destruct (sx_sessions s !! sid) as [[[] ?]|]; [done| |]; (destruct m; try done; injection Hs as <-; by eexists).
      + destruct m; try done; injection Hs as <-; by eexists.
    - destruct (validate_non_init_session cf (h_session h) s); [|done]. destruct (validate_protocol_version cf _ _ s); [done|]. destruct m; try done. injection Hs as <-. by eexists. }
  assert (wait p s = set_pending (sx_pending s ++ p :: []) s) as -> by done. rewrite (run_beside cf answer os s p (sx_pending s) []) by (by rewrite app_nil_r). by destruct (g_run cf answer s os).
Qed.
Print Assumptions C246_unsent_partial.
(** The same for a client that asks for the event stream of its session. *)
Theorem C246_listen_partial : ∀ cf answer s h f s' os, h_session h ≠ None → g_step cf answer s (GOp (HGet h f)) = (s', None) →
  g_run cf answer s (GOp (HGet h f) :: then_gone (length (sx_pending s)) os) = g_run cf answer s os.
Proof.
  intros cf answer s h f s' os Hh Hs. cbn [g_run]. rewrite Hs. cbn [g_step h_step] in Hs. assert (∃ p, s' = wait p s) as [p ->].
  { unfold get_start in Hs. destruct (validate_headers h Get); [done|]. destruct (h_session h) as [sid|]; [|done]. destruct (hc_stateful cf); [destruct (sx_sessions s !! sid); [|done]|]; (destruct (sx_streams s !! sid); [done|]; injection Hs as <-; by eexists). }
  assert (wait p s = set_pending (sx_pending s ++ p :: []) s) as -> by done. rewrite (run_beside cf answer os s p (sx_pending s) []) by (by rewrite app_nil_r). by destruct (g_run cf answer s os).
Qed.
Print Assumptions C246_listen_partial.

(** *** C246: a client that goes away while it initializes *)
Lemma keeps_session cf answer sid o s : hc_stateful cf = true → undeleted sid o → is_Some (sx_sessions s !! sid) → is_Some (sx_sessions (g_step cf answer s o).1 !! sid).
Proof.
  intros Hst Hu Hs. destruct o as [o|i]; [|done]. cbn [g_step]. destruct (step_changed cf answer s o Hst) as [H1 _|x H1 _|x H1 H2|? ? ? H1 _]; [by apply H1|by apply H1; right| |by apply H1].
  apply H1. split; [|done]. destruct (log_grows cf answer s o Hst) as (l & L1 & _ & L2). rewrite H2 in L1. apply app_inv_head in L1. subst l. specialize (L2 (LClosed x)). rewrite elem_of_list_singleton in L2. specialize (L2 eq_refl). cbn in L2. destruct L2 as (h & -> & Hh). intros ->. by apply (Hu h).
Qed.
Lemma keeps_run cf answer sid os : ∀ s, hc_stateful cf = true → Forall (undeleted sid) os → is_Some (sx_sessions s !! sid) → is_Some (sx_sessions (g_run cf answer s os).1 !! sid).
Proof.
  induction os as [|o os IH]; intros s Hst Hu Hs; cbn [g_run]; [done|]. apply Forall_cons in Hu as [Ho Hu]. pose proof (keeps_session cf answer sid o s Hst Ho Hs) as H. destruct (g_step cf answer s o) as [s' x]. cbn [fst] in H. specialize (IH s' Hst Hu H). by destruct (g_run cf answer s' os).
Qed.
(** It leaves a session behind, which the callback was told of and which stays until somebody deletes it - and nobody was told of it. *)
Theorem C246_session_refuted : ∀ cf answer s h id p f os, hc_stateful cf = true → json_post h → h_session h = None → Forall (undeleted f) os →
  let post := GOp (HPost h (Some (MsgRequest id (RClient CInitialize p))) f) in
  g_run cf answer s [post; GGone (length (sx_pending s))] = (note (LOpened f) (set_session f (MkSession false (h_version h)) s), []) ∧
  is_Some (sx_sessions (g_run cf answer s (post :: GGone (length (sx_pending s)) :: os)).1 !! f).
Proof.
  intros cf answer s h id p f os Hst Hh Hs Hu post. assert (g_step cf answer s post = (wait (PPost None (Some f) id (RClient CInitialize p)) (note (LOpened f) (set_session f (MkSession false (h_version h)) s)), None)) as E.
  { unfold post. cbn [g_step h_step]. unfold post_start. apply post_headers in Hh. rewrite Hh. cbn [is_init]. unfold process_init_session. by rewrite Hst, Hs. }
  cbn [g_run]. rewrite E. cbn [g_step]. assert (drop_pending (length (sx_pending s)) (wait (PPost None (Some f) id (RClient CInitialize p)) (note (LOpened f) (set_session f (MkSession false (h_version h)) s))) = note (LOpened f) (set_session f (MkSession false (h_version h)) s)) as ->.
  { unfold drop_pending, wait, note, set_session. cbn [sx_pending sx_sessions sx_streams sx_opened sx_store sx_log]. by rewrite delete_middle, app_nil_r. }
  split; [done|]. pose proof (keeps_run cf answer f os (note (LOpened f) (set_session f (MkSession false (h_version h)) s)) Hst Hu) as H. destruct (g_run cf answer _ os) as [s' xs]. apply H. cbn. rewrite lookup_insert. by eexists.
Qed.
Print Assumptions C246_session_refuted.

(** *** C246: if nobody goes away the server is the one of C44 *)
Theorem C246_same : ∀ cf answer os, g_run cf answer http_new (GOp <$> os) = (h_run cf answer os, omap (λ x, (h_step cf answer x.1 x.2).2) (h_trace cf answer http_new os)).
Proof.
  intros cf answer os. unfold h_run. generalize http_new. induction os as [|o os IH]; intros s; [done|]. cbn [fmap list_fmap g_run g_step h_trace fold_left]. change (list_fmap hop gop GOp os) with (GOp <$> os). specialize (IH (h_step cf answer s o).1). destruct (h_step cf answer s o) as [s' x] eqn:E. cbn [fst] in IH. rewrite IH. cbn [omap list_omap fst snd]. rewrite E. cbn [fst snd]. by destruct x.
Qed.
Print Assumptions C246_same.

(** Two clients: the first initializes and its later request is given up while the second initializes. *)
Example C246_example : let s := h_run stateful pong (post_now (jhdr None None) (hello 1) (lit "s1") (lit "e1") (lit "e2")) in let a := GOp (HPost (jhdr (Some (lit "s1")) None) (Some (ping 2)) (lit "s9")) in
  let os := [GOp (HPost (jhdr None None) (Some (hello 3)) (lit "s2")); GOp (HContinue 0 (lit "e5") (lit "e6"))] in
  (g_step stateful pong s a).2 = None ∧ ¬ initializes (ping 2) ∧ length (sx_pending s) = 0 ∧ then_gone 0 os = [GOp (HPost (jhdr None None) (Some (hello 3)) (lit "s2")); GOp (HContinue 1 (lit "e5") (lit "e6")); GGone 0] ∧
  hr_session <$> (g_run stateful pong s (a :: then_gone 0 os)).2 = [Some (lit "s2")] ∧ json_post (jhdr None None).
Proof. cbv zeta. split; [by vm_compute|]. split; [apply ping_not|]. split; [by vm_compute|]. split; [done|]. split; [by vm_compute|apply jhdr_ok]. Qed.
