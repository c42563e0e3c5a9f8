(** Specification vocabulary for the session manager. *)
From stdpp Require Import gmap strings list.
From Verif Require Import ListLib TextLib WhiteSpec SessionModel.

(** No get_session/validate_session call for [id] is between its read and its write-back. *)
Definition no_reader (id : string) (m : smgr) : Prop := ∀ t v s, calls m !! t ≠ Some (PGet v id s).

(** Updates that leave the session's identity and lifetime alone. *)
Definition keeps_expiry (o : sstep_op) : Prop :=
  match o with
  | Update id f _ => ∀ s, s_id (f s) = s_id s ∧ s_created (f s) = s_created s ∧ s_expires (f s) = s_expires s
  | _ => True
  end.
(** The session a step is about. *)
Definition target (m : smgr) (o : sstep_op) : option string :=
  match o with
  | CreateInsert _ id _ | Update id _ _ | Destroy id => Some id
  | GetWrite t | ValidateEnd t _ | CleanRemove t =>
      match calls m !! t with
      | Some (PGet _ id _) | Some (PCheck id _) | Some (PClean (id :: _)) => Some id
      | _ => None
      end
  | _ => None
  end.

(** A piece of a cookie header: name "=" value with white space around, or something without "=". *)
Inductive cookie := Named (a name value b : text) | Bare (t : text).
Definition render_cookie (c : cookie) : text :=
  match c with Named a n v b => a ++ n ++ [61%N] ++ v ++ b | Bare t => t end.
Definition cookie_ok (c : cookie) : Prop :=
  match c with
  | Named a n v b =>
    blank a ∧ blank b ∧ 61%N ∉ n ∧ 59%N ∉ n ∧ 59%N ∉ v ∧
    (∀ x, head n = Some x → x ∉ white_space) ∧ (∀ x, last v = Some x → x ∉ white_space)
  | Bare t => 61%N ∉ t ∧ 59%N ∉ t
  end.

(** The value of the first cookie called [name]. *)
Fixpoint first_value (name : text) (cs : list cookie) : option text :=
  match cs with
  | [] => None
  | Named _ n v _ :: cs => if decide (n = name) then Some v else first_value name cs
  | Bare _ :: cs => first_value name cs
  end.
