(** Specification vocabulary for the resource watcher. *)
From stdpp Require Import gmap strings list.
From Verif Require Import TextLib SerdeLib WatchModel.
Local Open Scope Z_scope.

(** At [now] the file has been quiet for the debounce time since [ts]. *)
Definition ripe (debounce now ts : Z) : Prop := debounce <= 0 ∨ ts + debounce <= now.
(** The last event of [p] in the history was at [ts], and no tick has found it ripe since. *)
Definition unannounced (debounce : Z) (p : text) (ts : Z) (h : list wop) : Prop :=
  ∃ l1 l2, h = l1 ++ WEvent p ts :: l2 ∧ (∀ ts', WEvent p ts' ∉ l2) ∧ (∀ now, WTick now ∈ l2 → ¬ ripe debounce now ts).
Definition tracked (w : watcher) (u : text) : Prop := is_Some (w_tracked w !! u).
(** How often [u] was announced. *)
Definition announced (u : text) (w : watcher) : nat := length (filter (λ v, v = u) (w_sent w)).
