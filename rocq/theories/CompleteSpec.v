(** What completions and the elicitation builder are to do. *)
From stdpp Require Import gmap sets list strings.
From Verif Require Import ListLib TextLib JsonLib SerdeLib TypesModel CompleteModel.
Local Open Scope N_scope.

(** [r] is [l] without the elements that do not satisfy [P]. *)
Inductive kept {A} (P : A → Prop) : list A → list A → Prop :=
| kept_nil : kept P [] []
| kept_yes x l r : P x → kept P l r → kept P (x :: l) (x :: r)
| kept_no x l r : ¬ P x → kept P l r → kept P (x :: l) r.
Definition begins (p t : list N) : Prop := ∃ r, t = p ++ r.
(** The order of texts: the first difference decides, a beginning comes first. *)
Definition before_or_same (a b : list N) : Prop :=
  begins a b ∨ ∃ p x y ra rb, a = p ++ x :: ra ∧ b = p ++ y :: rb ∧ x < y.
(** The name of an entry below which further names can be: no separator, neither "." nor "..". *)
Definition plain_name (s : list N) : Prop := s ≠ [] ∧ 47 ∉ s ∧ s ≠ [46] ∧ s ≠ [46; 46].
(** A typed path: a directory "a/b/" (or "/a/b/", or nothing), and the beginning of a name in it. *)
Definition dir_text (absolute : bool) (segs : list (list N)) : list N := (if absolute then [47] else []) ++ concat ((λ s, s ++ [47]) <$> segs).
Definition plain_start (p : list N) : Prop := 47 ∉ p ∧ p ≠ [46] ∧ p ≠ [46; 46].
(** A file system: "x/" and "x/." are the directory "x", and entries have names. *)
Definition fs_sane (fs : list N → option (list (list N * bool))) : Prop :=
  (∀ x, x ≠ [] → fs (x ++ [47]) = fs x) ∧ (∀ x, fs (x ++ [47; 46]) = fs (x ++ [47])) ∧ ∀ x es e, fs x = Some es → e ∈ es → plain_name e.1.
(** The directory meant: relative ones are below the base directory. *)
Definition meant (base : option (list N)) (absolute : bool) (d : list N) : list N :=
  if absolute then d
  else match base with Some b => if bool_decide (last b = Some 47) then b ++ d else b ++ [47] ++ d | None => match d with [] => [46] | _ => d end end.
(** What follows the last dot of a name, if there is a dot that is not the first character. *)
Definition extension_of (name e : list N) : Prop := ∃ b, b ≠ [] ∧ name = b ++ [46] ++ e ∧ 46 ∉ e.
Definition wanted (exts : option (list (list N))) (p : list N) (entry : list N * bool) : Prop :=
  begins p entry.1 ∧ (entry.2 = true ∨ match exts with None => True | Some es => ∃ e, e ∈ es ∧ extension_of entry.1 e end).

(** The value most recently chosen by one of the calls. *)
Definition latest {A B} (choose : A → option B) (os : list A) : option B := last (omap choose os).
Definition sets_id (o : eop) := match o with EId t => Some t | _ => None end.
Definition sets_desc (o : eop) := match o with EDesc t => Some t | _ => None end.
Definition sets_default (o : eop) := match o with EDefault v => Some v | _ => None end.
Definition sets_min (o : eop) := match o with EMin v => Some v | _ => None end.
Definition sets_max (o : eop) := match o with EMax v => Some v | _ => None end.
Definition sets_pattern (o : eop) := match o with EPattern v => Some v | _ => None end.
Definition sets_options (o : eop) := match o with EOptions v => Some v | _ => None end.
Definition sets_meta (k : list N) (o : eop) := match o with EMeta k' v => if decide (k = k') then Some v else None | _ => None end.
Definition about_validation (o : eop) : bool := match o with ERequired | EMin _ | EMax _ | EPattern _ | EOptions _ => true | _ => false end.
(** Arguments of the types of the builder's methods: numbers and options are written as such, and metadata and
    default values are neither taken for a field nor for an absent value. *)
Definition number (v : json) : Prop := (∃ z, v = JInt z) ∨ ∃ s, v = JFloat s.
Definition request_fields : list (list N) := [lit "elicitationId"; lit "inputType"; lit "prompt"; lit "description"; lit "default"; lit "validation"].
Definition well_typed (o : eop) : Prop :=
  match o with EMin v | EMax v => number v | EOptions l => Forall (is_of t_select_option) l | _ => True end.
Definition unambiguous (o : eop) : Prop := match o with EDefault v => v ≠ JNull | EMeta k _ => k ∉ request_fields | _ => True end.
(** Directories that are the base or below it: nothing in them leads upwards again. *)
Definition inside (b x : list N) : Prop := ∃ r, x = b ++ r ∧ (r = [] ∨ head r = Some 47 ∨ last b = Some 47) ∧ [46; 46] ∉ split_on 47 r.
