(** Specification vocabulary for batches with a shared state: running sections one after the other. *)
From stdpp Require Import gmap strings list.
From Verif Require Import ListLib ProtocolModel BatchModel SharedModel.

Section spec.
  Context {S : Type} (h : shandler S) (reqs : list brequest).
  (** The [k]-th section of the handler of request [i]. *)
  Definition section (p : nat * nat) (x : S) : S :=
    match reqs !! p.1 with Some q => match secs h q !! p.2 with Some f => f x | None => x end | None => x end.
  (** The state after some sections, run one at a time. *)
  Definition one_by_one (x : S) (ran : list (nat * nat)) : S := fold_left (λ x p, section p x) ran x.
  (** The states that the sections of request [i] found, when the sections are run one at a time. *)
  Fixpoint found (i : nat) (x : S) (ran : list (nat * nat)) : list S :=
    match ran with
    | [] => []
    | p :: ran => (if decide (p.1 = i) then [x] else []) ++ found i (section p x) ran
    end.
  (** All sections of all requests. *)
  Definition all_sections : list (nat * nat) :=
    concat (imap (λ i q, pair i <$> seq 0 (length (secs h q))) reqs).
End spec.
