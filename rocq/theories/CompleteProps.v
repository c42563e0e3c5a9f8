(** C139–C144: completions and the elicitation builder. *)
From stdpp Require Import gmap sets list strings sorting.
From Verif Require Import ListLib TextLib JsonLib SerdeLib TypesModel RpcProofs HttpClientProofs CompleteModel CompleteSpec CompleteProofs.
Local Open Scope N_scope.

(** ** C139: static completion *)
Theorem C139_static : ∀ items p,
  kept (λ it, begins p (ci_value it) ∨ ∃ l, ci_label it = Some l ∧ begins p l) items (static_complete items p).
Proof. exact static_kept. Qed.
Print Assumptions C139_static.
Theorem C139_strings : ∀ vs p, ∃ r, kept (begins p) vs r ∧ ci_value <$> static_complete (from_strings vs) p = r.
Proof.
  intros vs p. eexists. split; [|reflexivity]. pose proof (static_kept (from_strings vs) p) as H. revert H. unfold from_strings. generalize (static_complete ((λ v, MkItem v None []) <$> vs) p). intros r. revert r.
  induction vs as [|v vs IH]; intros r H; [inversion H; constructor|]. rewrite fmap_cons in H. inversion H as [|x l r' Hx Hk|x l r' Hx Hk]; subst.
  - cbn. constructor; [|by apply IH]. by destruct Hx as [Hx|(? & ? & ?)].
  - constructor; [|by apply IH]. intros Hb. apply Hx. by left.
Qed.
Print Assumptions C139_strings.
Example C139_example :
  static_complete [MkItem (lit "rust") (Some (lit "Rust")) []; MkItem (lit "python") (Some (lit "ruby's friend")) []; MkItem (lit "go") None []] (lit "ru") =
    [MkItem (lit "rust") (Some (lit "Rust")) []; MkItem (lit "python") (Some (lit "ruby's friend")) []] ∧
  static_complete (from_strings [lit "apple"; lit "banana"; lit "apricot"; lit "apple"]) (lit "ap") = from_strings [lit "apple"; lit "apricot"; lit "apple"].
Proof. by vm_compute. Qed.

(** ** C140: file suggestions *)
(** Of "a/b/na" the entries of the directory a/b whose names begin with "na" are suggested, as "a/b/name".
    Missing from the full statement: texts whose last segment is "." or "..", or that have such segments or empty
    ones, and a name alone without a base directory (refuted below). *)
Theorem C140_suggestions_partial : ∀ cf fs absolute segs p,
  fs_sane fs → Forall plain_name segs → plain_start p → fc_base cf ≠ Some [] → absolute = true ∨ segs ≠ [] ∨ fc_base cf ≠ None ∨ p = [] →
  let d := dir_text absolute segs in
  ∃ ws, kept (wanted (fc_exts cf) p) (default [] (fs (meant (fc_base cf) absolute d))) ws ∧
    file_complete cf fs (d ++ p) ≡ₚ (λ e, MkFItem (d ++ e.1) e.1 e.2) <$> ws.
Proof. exact file_plain. Qed.
Print Assumptions C140_suggestions_partial.
(** Always in the order of the values. *)
Theorem C140_sorted : ∀ cf fs t, StronglySorted (λ a b, before_or_same (fi_value a) (fi_value b)) (file_complete cf fs t).
Proof. intros. apply sort_sorted. Qed.
Print Assumptions C140_sorted.
(** Without a base directory nothing is suggested for a name alone: the directory "" cannot be read. *)
Theorem C140_bare_name_refuted : ∀ exts fs p, plain_start p → p ≠ [] → fs [] = None → file_complete (MkFConf None exts) fs p = [].
Proof. exact bare_name. Qed.
Print Assumptions C140_bare_name_refuted.
(** "a/b/." (hidden files of a/b) gives the suggestions for "a/b". *)
Theorem C140_hidden_refuted : ∀ cf fs absolute segs s, Forall plain_name segs → plain_name s →
  file_complete cf fs (dir_text absolute segs ++ s ++ [47; 46]) = file_complete cf fs (dir_text absolute segs ++ s).
Proof. exact dot_parent. Qed.
Print Assumptions C140_hidden_refuted.
(** ".." gives the suggestions for an empty text. *)
Theorem C140_dots_refuted : ∀ cf fs, fs_sane fs → fc_base cf ≠ None → fc_base cf ≠ Some [] → file_complete cf fs [46; 46] = file_complete cf fs [].
Proof. exact dots_typed. Qed.
Print Assumptions C140_dots_refuted.
(** The directories /srv/docs with three entries, and /srv. *)
Definition example_fs (d : list N) : option (list (list N * bool)) :=
  let es := [(lit "notes.txt", false); (lit "nested", true); (lit "news.md", false)] in
  let up := [(lit "docs", true)] in
  if bool_decide (d ∈ [lit "/srv/docs"; lit "/srv/docs/"; lit "/srv/docs/."]) then Some es
  else if bool_decide (d ∈ [lit "/srv/docs/../"; lit "/srv/"; lit "/srv"]) then Some up else None.
Example C140_example :
  dir_text true [lit "srv"; lit "docs"] ++ lit "ne" = lit "/srv/docs/ne" ∧
  file_complete (MkFConf None (Some [lit "txt"])) example_fs (lit "/srv/docs/ne") = [MkFItem (lit "/srv/docs/nested") (lit "nested") true] ∧
  file_complete (MkFConf (Some (lit "/srv")) None) example_fs (lit "docs/ne") =
    [MkFItem (lit "docs/nested") (lit "nested") true; MkFItem (lit "docs/news.md") (lit "news.md") false] ∧
  file_complete (MkFConf (Some (lit "/srv/docs")) None) example_fs (lit "no") = [MkFItem (lit "notes.txt") (lit "notes.txt") false] ∧
  file_complete (MkFConf (Some (lit "/srv/docs")) None) example_fs (lit "..") =
    [MkFItem (lit "nested") (lit "nested") true; MkFItem (lit "news.md") (lit "news.md") false; MkFItem (lit "notes.txt") (lit "notes.txt") false].
Proof. by vm_compute. Qed.
(** A file system meeting the hypotheses. *)
Example C140_fs_example : ∃ fs, fs_sane fs ∧ fs (lit "/srv/docs/") = Some [(lit "notes.txt", false); (lit "nested", true)] ∧
  Forall plain_name [lit "srv"; lit "docs"] ∧ plain_start (lit "ne").
Proof.
  exists (λ _, Some [(lit "notes.txt", false); (lit "nested", true)]). split; [|split; [done|split]].
  - split; [done|]. split; [done|]. intros x es e [= <-] He. apply elem_of_cons in He as [->|He]; [|apply elem_of_list_singleton in He as ->]; (split; [done|]; split; [by apply (bool_decide_unpack _); vm_compute|done]).
  - repeat (apply Forall_cons; split); [..|by apply Forall_nil_2]; (split; [done|]; split; [by apply (bool_decide_unpack _); vm_compute|done]).
  - split; [by apply (bool_decide_unpack _); vm_compute|done].
Qed.

(** ** C141: suggestions stay in the base directory *)
(** Missing: texts beginning with "/" or with a segment "..", refuted below. *)
Theorem C141_inside_partial : ∀ b exts fs t, b ≠ [] → ¬ begins [47] t → [46; 46] ∉ split_on 47 t →
  ∃ dir, inside b dir ∧ ∀ it, it ∈ file_complete (MkFConf (Some b) exts) fs t → ∃ es, fs dir = Some es ∧ (fi_label it, fi_dir it) ∈ es.
Proof.
  intros b exts fs t Hb Hr Hd. exists (search_dir (MkFConf (Some b) exts) t). split.
  - apply search_inside; [done| |done]. destruct (has_root t) eqn:E; [|done]. apply starts_with_spec in E. by destruct Hr.
  - intros it Hit. apply file_general in Hit as (es & H1 & H2 & _). by exists es.
Qed.
Print Assumptions C141_inside_partial.
(** Whatever the base, the entries of any directory given by an absolute path are suggested. *)
Theorem C141_absolute_refuted : ∀ b exts fs segs es name, fs_sane fs → b ≠ [] → Forall plain_name segs →
  fs (dir_text true segs) = Some es → (name, true) ∈ es →
  MkFItem (dir_text true segs ++ name) name true ∈ file_complete (MkFConf (Some b) exts) fs (dir_text true segs).
Proof.
  intros b exts fs segs es name Hfs Hb Hs He Hn. destruct (file_plain (MkFConf (Some b) exts) fs true segs []) as (ws & Hk & Hp); [done|done|by split; [set_solver|]|cbn; congruence|by left|]. rewrite app_nil_r in Hp. rewrite Hp.
  apply elem_of_list_fmap. exists (name, true). split; [done|]. eapply kept_elem; [exact Hk| |].
  - cbn [meant]. by rewrite He.
  - split; [by exists name|by left].
Qed.
Print Assumptions C141_absolute_refuted.
(** "../" lists the directory above the base. *)
Theorem C141_parent_refuted : ∀ b exts fs es name, b ≠ [] → last b ≠ Some 47 → plain_name name →
  fs (b ++ lit "/../") = Some es → (name, true) ∈ es →
  MkFItem (lit "../" ++ name) name true ∈ file_complete (MkFConf (Some b) exts) fs (lit "../").
Proof.
  intros b exts fs es name Hb Hl Hp He Hn. unfold file_complete. rewrite sort_perm.
  assert (search_dir (MkFConf (Some b) exts) (lit "../") = b ++ lit "/../") as ->. { unfold search_dir. change (split_partial (lit "../")).1 with (lit "../"). change (has_root (lit "../")) with false. cbn [fc_base]. rewrite join_base by done. unfold meant. by rewrite bool_decide_false. }
  rewrite He. unfold file_items. change (split_partial (lit "../")) with (lit "../", @nil N). cbv iota beta. apply elem_of_list_fmap. exists (name, true). split.
  - f_equal. rewrite bool_decide_false by done. cbn [fst]. rewrite join_slash; [done|done|]. destruct name as [|c name]; [by destruct Hp|]. unfold has_root. cbn. rewrite andb_true_r. apply bool_decide_eq_false. intros <-. destruct Hp as (_ & H & _). apply H. left.
  - apply elem_of_list_filter. split; [|done]. apply andb_true_iff. split; [by apply starts_with_spec; exists name|done].
Qed.
Print Assumptions C141_parent_refuted.
Example C141_example :
  file_complete (MkFConf (Some (lit "/srv/docs")) None) example_fs (lit "/srv/") = [MkFItem (lit "/srv/docs") (lit "docs") true] ∧
  file_complete (MkFConf (Some (lit "/srv/docs")) None) example_fs (lit "../") = [MkFItem (lit "../docs") (lit "docs") true] ∧
  file_complete (MkFConf (Some (lit "/srv/docs")) None) example_fs (lit "./nes") = [MkFItem (lit "./nested") (lit "nested") true] ∧
  search_dir (MkFConf (Some (lit "/srv")) None) (lit "./docs//a") = lit "/srv/./docs".
Proof. by vm_compute. Qed.

(** ** C142: extensions *)
Theorem C142_extension_partial : ∀ cf fs t it xs, it ∈ file_complete cf fs t → fc_exts cf = Some xs → fi_dir it = false →
  ∃ e, e ∈ xs ∧ extension_of (fi_label it) e.
Proof. intros cf fs t it xs Hit Hx Hd. apply file_general in Hit as (es & _ & _ & H). rewrite Hx in H. destruct H as [H|H]; [congruence|done]. Qed.
Print Assumptions C142_extension_partial.
(** Extensions written with their dot, as in the documentation of CompletableArgument, match no file. *)
Theorem C142_dotted_refuted : ∀ cf fs t it xs, fc_exts cf = Some xs → (∀ e, e ∈ xs → begins [46] e) → it ∈ file_complete cf fs t → fi_dir it = true.
Proof.
  intros cf fs t it xs Hx Hd Hit. destruct (fi_dir it) eqn:E; [done|]. destruct (C142_extension_partial cf fs t it xs Hit Hx E) as (e & He & b & _ & _ & Hn). apply Hd in He as [r ->]. exfalso. apply Hn. left.
Qed.
Print Assumptions C142_dotted_refuted.
Example C142_example :
  file_complete (MkFConf (Some (lit "/srv/docs")) (Some [lit "md"])) example_fs [] = [MkFItem (lit "nested") (lit "nested") true; MkFItem (lit "news.md") (lit "news.md") false] ∧
  file_complete (MkFConf (Some (lit "/srv/docs")) (Some [lit ".txt"; lit ".md"; lit ".json"])) example_fs [] = [MkFItem (lit "nested") (lit "nested") true].
Proof. by vm_compute. Qed.

(** ** C143: the elicitation builder *)
Theorem C143_builder : ∀ id ty prompt os,
  let b := eb_build id ty prompt os in
  eb_id b = default id (latest sets_id os) ∧ eb_type b = ty ∧ eb_prompt b = prompt ∧ eb_desc b = latest sets_desc os ∧ eb_default b = latest sets_default os ∧
  (∀ k, eb_meta b !! k = latest (sets_meta k) os) ∧
  match eb_val b with
  | None => ∀ o, o ∈ os → about_validation o = false
  | Some v => (∃ o, o ∈ os ∧ about_validation o = true) ∧ (v_required v = true ↔ ERequired ∈ os) ∧ v_min v = latest sets_min os ∧ v_max v = latest sets_max os ∧
      v_pattern v = latest sets_pattern os ∧ v_options v = latest sets_options os
  end.
Proof. exact built. Qed.
Print Assumptions C143_builder.
Definition example_calls : list eop := [EMin (JInt 1); EMeta (lit "form") (JStr (lit "a")); EDesc (lit "x"); ERequired; EMin (JInt 2); EDefault (JInt 5); EMeta (lit "form") (JStr (lit "b"))].
Example C143_example :
  let b := eb_build (lit "id") (lit "number") (lit "How many?") example_calls in
  eb_val b = Some (MkVal true (Some (JInt 2)) None None None) ∧ eb_meta b !! lit "form" = Some (JStr (lit "b")) ∧ eb_default b = Some (JInt 5).
Proof. by vm_compute. Qed.

(** ** C144: built requests on the wire *)
(** The client reads what was built.  Missing: metadata named like a field and a null default, refuted below. *)
Theorem C144_wire_partial : ∀ id ty prompt os meta,
  is_of t_input_type (JStr ty) → Forall well_typed os → Forall unambiguous os → meta ≡ₚ map_to_list (eb_meta (eb_build id ty prompt os)) →
  storable (elicit_json (eb_build id ty prompt os) meta) →
  of_bytes (to_bytes (elicit_json (eb_build id ty prompt os) meta)) ≫= decode t_elicit_request = Some (elicit_json (eb_build id ty prompt os) meta).
Proof.
  intros id ty prompt os meta H1 H2 H3 H4 H5. apply types_roundtrip; [|by apply elicit_is_of|done]. unfold protocol_types. rewrite !elem_of_cons. tauto.
Qed.
Print Assumptions C144_wire_partial.
(** Metadata called "prompt" replaces the prompt. *)
Theorem C144_metadata_refuted : ∀ id ty prompt other, is_of t_input_type (JStr ty) →
  decode t_elicit_request (norm (elicit_json (eb_build id ty prompt [EMeta (lit "prompt") (JStr other)]) [(lit "prompt", JStr other)])) = Some (elicit_json (eb_build id ty other []) []).
Proof.
  intros id ty prompt other Hty. assert (norm (elicit_json (eb_build id ty prompt [EMeta (lit "prompt") (JStr other)]) [(lit "prompt", JStr other)]) = elicit_json (eb_build id ty other []) []) as -> by reflexivity.
  apply decode_is_of; [apply (proj1 (Forall_forall _ _) protocol_types_ok); unfold protocol_types; rewrite !elem_of_cons; tauto|]. by apply elicit_is_of.
Qed.
Print Assumptions C144_metadata_refuted.
(** A null default is no default. *)
Theorem C144_null_default_refuted : ∀ id ty prompt, is_of t_input_type (JStr ty) →
  decode t_elicit_request (norm (elicit_json (eb_build id ty prompt [EDefault JNull]) [])) = Some (elicit_json (eb_build id ty prompt []) []).
Proof.
  intros id ty prompt Hty. assert (decode t_elicit_request (elicit_json (eb_build id ty prompt []) []) = Some (elicit_json (eb_build id ty prompt []) [])) as H.
  { apply decode_is_of; [apply (proj1 (Forall_forall _ _) protocol_types_ok); unfold protocol_types; rewrite !elem_of_cons; tauto|]. by apply elicit_is_of. }
  rewrite <- H. reflexivity.
Qed.
Print Assumptions C144_null_default_refuted.
Example C144_example :
  is_of t_input_type (JStr (lit "number")) ∧ Forall well_typed example_calls ∧ Forall unambiguous example_calls ∧
  storable (elicit_json (eb_build (lit "id") (lit "number") (lit "How many?") example_calls) [(lit "form", JStr (lit "b"))]).
Proof.
  split; [left; eexists; split; [reflexivity|]; by apply (bool_decide_unpack _); vm_compute|]. split.
  { unfold example_calls. repeat (apply Forall_cons; split); try done; try (left; by eexists). }
  split. { unfold example_calls. repeat (apply Forall_cons; split); try done; by apply (bool_decide_unpack _); vm_compute. }
  apply storable_check; [by vm_compute|]. vm_compute. lia.
Qed.
