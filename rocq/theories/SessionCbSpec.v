(** What the callbacks of the session manager are to report. *)
From stdpp Require Import gmap strings list.
From Verif Require Import ListLib TextLib SessionModel SessionCbModel.

(** How often a session's beginning and its end were reported. *)
Definition begins_with (c : scall) : option string := match c with OnCreate s => Some (s_id s) | _ => None end.
Definition ends_with (c : scall) : option string := match c with OnDestroy s | OnExpire s => Some (s_id s) | _ => None end.
Definition begun (id : string) (l : list scall) : nat := length (filter (λ c, begins_with c = Some id) l).
Definition ended (id : string) (l : list scall) : nat := length (filter (λ c, ends_with c = Some id) l).
Definition live (id : string) (m : smgr) : nat := match sessions m !! id with Some _ => 1 | None => 0 end.
(** How often a lookup wrote back a session that had been removed since it was read (see C12). *)
Fixpoint restored (max_sessions : nat) (timeout : Z) (id : string) (m : smgr) (h : list sstep_op) : nat :=
  match h with
  | [] => 0
  | o :: h => (if match o with GetWrite t => match calls m !! t with Some (PGet _ id' _) => bool_decide (id' = id ∧ sessions m !! id = None) | _ => false end | _ => false end then 1 else 0)
              + restored max_sessions timeout id (sexec max_sessions timeout m o).1 h
  end.
(** Uuid::new_v4 gives an id that is not in use. *)
Definition new_ids (max_sessions : nat) (timeout : Z) (h : list sstep_op) : Prop :=
  ∀ h1 t id now h2, h = h1 ++ CreateInsert t id now :: h2 → sessions (sruns max_sessions timeout mgr0 h1) !! id = None.
