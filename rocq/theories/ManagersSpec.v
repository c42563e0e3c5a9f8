(** Specification vocabulary for cancellation, subscriptions, roots and elicitation: what a history of
    calls amounts to. *)
From stdpp Require Import gmap strings list.
From Verif Require Import ManagersModel.

(** The token registered for a request after a history; tokens are numbered in order of creation. *)
Definition reg_step (id : string) (p : nat * option nat) (o : kstep) : nat * option nat :=
  let '(n, r) := p in
  match o with
  | KCreate id' => (S n, if decide (id' = id) then Some n else r)
  | KTake id' _ | KRemove id' => (n, if decide (id' = id) then None else r)
  | KClear => (n, None)
  | _ => (n, r)
  end.
Definition registered (id : string) (h : list kstep) : option nat := (fold_left (reg_step id) h (0, None)).2.
(** The calls of cancel_request that found a token: the token, the request and the reason announced. *)
Fixpoint cancellations (past h : list kstep) : list (nat * (string * string)) :=
  match h with
  | [] => []
  | o :: h =>
    match o with
    | KTake id r => match registered id past with Some t => [(t, (id, default "Cancelled by server" r))] | None => [] end
    | _ => []
    end ++ cancellations (past ++ [o]) h
  end.

(** The subscription relation after a history. *)
Definition pairs_step (p : gset (string * string)) (o : sop) : gset (string * string) :=
  match o with
  | SSub u c => {[(u, c)]} ∪ p
  | SUnsub u c => p ∖ {[(u, c)]}
  | SGone c => filter (λ x, x.2 ≠ c) p
  end.
Definition pairs (h : list sop) : gset (string * string) := fold_left pairs_step h ∅.

(** Registrations still standing: accepted ones, numbered, whose own unregister function was not run. *)
Definition acceptable (uri : string) : Prop := ∃ rest, uri = String.append "file://" rest.
Definition standing_step (p : nat * list (nat * root)) (o : rop) : nat * list (nat * root) :=
  let '(n, l) := p in
  match o with
  | RRegister uri name => if String.prefix "file://" uri then (S n, l ++ [(n, MkRoot uri name)]) else (n, l)
  | RUnregister i => (n, filter (λ x, x.1 ≠ i) l)
  end.
Definition standing (h : list rop) : list (nat * root) := (fold_left standing_step h (0, [])).2.
(** How often the list of standing registrations changed. *)
Fixpoint changes (past h : list rop) : nat :=
  match h with
  | [] => 0
  | o :: h => (if decide ((standing (past ++ [o])).*1 = (standing past).*1) then 0 else 1) + changes (past ++ [o]) h
  end.

(** Elicitation: the identifiers of the calls, and of the responses, in order. *)
Definition asked (h : list estep) : list string := omap (λ o, match o with EStart id => Some id | _ => None end) h.
Definition answers (h : list estep) : list string := omap (λ o, match o with ERespond id => Some id | _ => None end) h.
(** No call reuses the identifier of one that has not ended. *)
Definition exclusive (h : list estep) : Prop :=
  ∀ h1 id h2 w c, h = h1 ++ EStart id :: h2 → e_callers (e_run h1) !! w = Some c → c_id c = id → ∃ o, c_place c = Ended o.
(** At no time do two standing registrations have the same URI. *)
Definition distinct_roots (h : list rop) : Prop := ∀ h1 h2, h = h1 ++ h2 → NoDup (root_uri <$> (standing h1).*2).
