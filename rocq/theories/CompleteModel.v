(** Completions and the builder of elicitation requests: src/types/completable.rs,
    src/types/elicitation.rs.  Definitions only.  Paths are those of Unix, as text; Path and PathBuf
    (std, not in /repo) are written down here. *)
From stdpp Require Import gmap sets list strings.
From Verif Require Import ListLib TextLib JsonLib SerdeLib.
Local Open Scope N_scope.

(** *** StaticCompletionProvider, completable.rs:213-268.  An item: value, label and everything else *)
Record citem := MkItem { ci_value : list N; ci_label : option (list N); ci_rest : list (list N * json) }.
Definition from_strings (vs : list (list N)) : list citem := (λ v, MkItem v None []) <$> vs.
Definition static_complete (items : list citem) (partial : list N) : list citem :=
  filter (λ it, starts_with partial (ci_value it) || match ci_label it with Some l => starts_with partial l | None => false end = true) items.

(** *** Paths (std::path::Path on Unix, as used in src/types/completable.rs 310-356) *)
Definition SLASH : N := 47.
Definition DOTS : list N := [46; 46].
(** Path::components ignores empty segments and ".", except a "." at the very beginning (std, used by parent and file_name at completable.rs 315-317) *)
Definition junk (s : list N) : bool := bool_decide (s = []) || bool_decide (s = [46]).
Definition has_root (t : list N) : bool := starts_with [SLASH] t.
Definition leads_dot (t : list N) : bool := bool_decide (t = [46]) || starts_with [46; SLASH] t.
Definition path_start (t : list N) : list N := if has_root t then [SLASH] else if leads_dot t then [46] else [].
Definition path_body (t : list N) : list N := drop (length (path_start t)) t.
Definition trim_segs (l : list (list N)) : list (list N) := reverse (drop_while junk (reverse l)).
(** The segments, without ignored ones at the end (std, used at completable.rs 315-317) *)
Definition path_segs (t : list N) : list (list N) := trim_segs (split_on SLASH (path_body t)).
(** Path::parent and Path::file_name (std, used at completable.rs 315-326, 356) *)
Definition path_parent (t : list N) : option (list N) :=
  match path_segs t with
  | [] => if has_root t then None else if leads_dot t then Some [] else None
  | segs => Some (path_start t ++ join_with [SLASH] (trim_segs (take (length segs - 1) segs)))
  end.
Definition path_file_name (t : list N) : option (list N) :=
  match last (path_segs t) with Some s => if bool_decide (s = DOTS) then None else Some s | None => None end.
Definition path_join (a b : list N) : list N :=
  if has_root b then b else match last a with None => b | Some c => if c =? SLASH then a ++ b else a ++ [SLASH] ++ b end.
(** Path::extension of a name without separators (std, used at completable.rs 342-343) *)
Definition path_extension (name : list N) : option (list N) :=
  match split_once 46 (reverse name) with Some (ext, before) => if bool_decide (before = []) then None else Some (reverse ext) | None => None end.

(** *** FileCompletionProvider, completable.rs:270-385.  [fs d]: the entries of the directory [d] with
    names that are Unicode, and whether each is a directory; None if it cannot be read. *)
Record fconf := MkFConf { fc_base : option (list N); fc_exts : option (list (list N)) }.
(** A suggestion: value, label, and whether it is described as a directory (completable.rs 353-378) *)
Record fitem := MkFItem { fi_value : list N; fi_label : list N; fi_dir : bool }.
(** 307-318 *)
Definition split_partial (partial : list N) : list N * list N :=
  if bool_decide (last partial = Some SLASH) then (partial, [])
  else (default [46] (path_parent partial), default [] (path_file_name partial)).
(** 320-326 *)
Definition search_dir (cf : fconf) (partial : list N) : list N :=
  let dir := (split_partial partial).1 in
  if has_root dir then dir else match fc_base cf with Some b => path_join b dir | None => dir end.
(** 338-350 *)
Definition ext_ok (cf : fconf) (name : list N) (is_dir : bool) : bool :=
  is_dir || match fc_exts cf with
            | None => true
            | Some exts => match path_extension name with Some e => bool_decide (e ∈ exts) | None => false end
            end.
(** String::cmp (std, used at completable.rs 380) *)
Fixpoint text_le (a b : list N) : bool :=
  match a, b with
  | [], _ => true
  | _, [] => false
  | x :: a, y :: b => (x <? y) || ((x =? y) && text_le a b)
  end.
(** sort_by, a stable sort, 379 *)
Fixpoint insert_item (i : fitem) (l : list fitem) : list fitem :=
  match l with [] => [i] | j :: l' => if text_le (fi_value i) (fi_value j) then i :: l else j :: insert_item i l' end.
Definition sort_items (l : list fitem) : list fitem := foldr insert_item [] l.
(** 331-377 *)
Definition file_items (cf : fconf) (partial : list N) (entries : list (list N * bool)) : list fitem :=
  let (dir, prefix) := split_partial partial in
  (λ e, MkFItem (if bool_decide (partial = []) then e.1 else path_join dir e.1) e.1 e.2) <$>
    filter (λ e, starts_with prefix e.1 && ext_ok cf e.1 e.2 = true) entries.
Definition file_complete (cf : fconf) (fs : list N → option (list (list N * bool))) (partial : list N) : list fitem :=
  sort_items (file_items cf partial (default [] (fs (search_dir cf partial)))).

(** *** ElicitInputBuilder, elicitation.rs:224-374.  f64 values and options as the JSON they are written as *)
Record validation := MkVal { v_required : bool; v_min : option json; v_max : option json; v_pattern : option (list N); v_options : option (list json) }.
Record ebuilder := MkEB { eb_id : list N; eb_type : list N; eb_prompt : list N; eb_desc : option (list N); eb_default : option json;
  eb_val : option validation; eb_meta : gmap (list N) json }.
(** 237-247; [id] is the generated UUID *)
Definition eb_new (id ty prompt : list N) : ebuilder := MkEB id ty prompt None None None ∅.
Inductive eop := EId (t : list N) | EDesc (t : list N) | EDefault (v : json) | ERequired | EMin (v : json) | EMax (v : json) | EPattern (t : list N)
| EOptions (l : list json) | EMeta (k : list N) (v : json).
Definition upd_val (b : ebuilder) (v : validation) : ebuilder := MkEB (eb_id b) (eb_type b) (eb_prompt b) (eb_desc b) (eb_default b) (Some v) (eb_meta b).
Definition eb_step (b : ebuilder) (o : eop) : ebuilder :=
  match o with
  | EId t => MkEB t (eb_type b) (eb_prompt b) (eb_desc b) (eb_default b) (eb_val b) (eb_meta b)                 (* 250-253 *)
  | EDesc t => MkEB (eb_id b) (eb_type b) (eb_prompt b) (Some t) (eb_default b) (eb_val b) (eb_meta b)          (* 256-259 *)
  | EDefault v => MkEB (eb_id b) (eb_type b) (eb_prompt b) (eb_desc b) (Some v) (eb_val b) (eb_meta b)          (* 262-265 *)
  | ERequired => match eb_val b with                                                                            (* 268-282 *)
                 | None => upd_val b (MkVal true None None None None)
                 | Some v => upd_val b (MkVal true (v_min v) (v_max v) (v_pattern v) (v_options v)) end
  | EMin x => match eb_val b with                                                                               (* 285-299 *)
              | None => upd_val b (MkVal false (Some x) None None None)
              | Some v => upd_val b (MkVal (v_required v) (Some x) (v_max v) (v_pattern v) (v_options v)) end
  | EMax x => match eb_val b with                                                                               (* 302-316 *)
              | None => upd_val b (MkVal false None (Some x) None None)
              | Some v => upd_val b (MkVal (v_required v) (v_min v) (Some x) (v_pattern v) (v_options v)) end
  | EPattern x => match eb_val b with                                                                           (* 319-333 *)
                  | None => upd_val b (MkVal false None None (Some x) None)
                  | Some v => upd_val b (MkVal (v_required v) (v_min v) (v_max v) (Some x) (v_options v)) end
  | EOptions x => match eb_val b with                                                                           (* 336-350 *)
                  | None => upd_val b (MkVal false None None None (Some x))
                  | Some v => upd_val b (MkVal (v_required v) (v_min v) (v_max v) (v_pattern v) (Some x)) end
  | EMeta k v => MkEB (eb_id b) (eb_type b) (eb_prompt b) (eb_desc b) (eb_default b) (eb_val b) (<[k := v]> (eb_meta b))   (* 353-356 *)
  end.
Definition eb_build (id ty prompt : list N) (os : list eop) : ebuilder := fold_left eb_step os (eb_new id ty prompt).
(** The built request, 359-369, as serde writes it: the fields, then the metadata in the order [meta] of the
    hash map.  The field message of the validation is never set by the builder. *)
Definition val_json (v : validation) : json :=
  JObj ((lit "required", JBool (v_required v)) :: put (lit "min") (v_min v) (put (lit "max") (v_max v)
    (put (lit "pattern") (JStr <$> v_pattern v) (put (lit "options") (JArr <$> v_options v) [])))).
Definition elicit_json (b : ebuilder) (meta : list (list N * json)) : json :=
  JObj ((lit "elicitationId", JStr (eb_id b)) :: (lit "inputType", JStr (eb_type b)) :: (lit "prompt", JStr (eb_prompt b)) ::
    put (lit "description") (JStr <$> eb_desc b) (put (lit "default") (eb_default b) (put (lit "validation") (val_json <$> eb_val b) meta))).
