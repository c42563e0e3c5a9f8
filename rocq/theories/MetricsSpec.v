(** What a shared BatchProcessor is to count: the calls that ended after the last reset. *)
From stdpp Require Import list.
From Verif Require Import BatchModel MetricsModel.

Definition begins (i : nat) (o : pop) : Prop := match o with PBegin j _ => i = j | _ => False end.
Definition ends (i : nat) (o : pop) : Prop := match o with PEnd j _ _ | PGone j => i = j | _ => False end.
(** Histories in which each call begins once and ends, or is given up, at most once and after it began. *)
Definition proper (os : list pop) : Prop := ∀ l1 o l2 i, os = l1 ++ o :: l2 →
  (begins i o → ∀ o', o' ∈ l1 → ¬ begins i o' ∧ ¬ ends i o') ∧
  (ends i o → (∃ o', o' ∈ l1 ∧ begins i o') ∧ ∀ o', o' ∈ l1 → ¬ ends i o').
(** When call [i] began. *)
Fixpoint began (os : list pop) (i : nat) : N :=
  match os with
  | [] => 0%N
  | PBegin j t :: os => if decide (i = j) then t else began os i
  | _ :: os => began os i
  end.
(** The batches that ended in [l], with the time each took, [os] being the whole history. *)
Definition ended (os l : list pop) : list (N * list bresponse) :=
  omap (λ o, match o with PEnd i now rs => Some ((now - began os i)%N, rs) | _ => None end) l.
(** [l] is what has happened since the last reset, or ever. *)
Definition since_reset (os l : list pop) : Prop := PReset ∉ l ∧ (os = l ∨ ∃ h, os = h ++ PReset :: l).
