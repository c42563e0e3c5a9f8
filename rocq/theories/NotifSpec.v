(** Specification vocabulary for notification debouncing and batching. *)
From stdpp Require Import gmap strings list.
From Verif Require Import TextLib SerdeLib NotifModel.
Local Open Scope Z_scope.

(** About the same thing: the same operation, the same resource, the same list; log messages and roots together. *)
Definition same_subject (a b : notice) : Prop :=
  match a, b with
  | NfProgress t _, NfProgress t' _ => t = t'
  | NfUpdated u, NfUpdated u' => u = u'
  | NfResources, NfResources | NfTools, NfTools | NfPrompts, NfPrompts => True
  | (NfRoots | NfLog _), (NfRoots | NfLog _) => True
  | _, _ => False
  end.

Section spec.
  Context (dbg : token → text).
  Definition of_kind (k : text) (l : list notice) : list notice := filter (λ n, notification_key dbg n = k) l.
  (** What was submitted, in order. *)
  Definition submitted (os : list nop) : list notice := omap (λ o, match o with NSubmit n _ => Some n | _ => None end) os.
  (** What waits under a key. *)
  Definition waiting (k : text) (s : ndeb) : list notice := match nd_pending s !! k with Some w => wn_main w :: wn_merged w | None => [] end.
  Definition no_flush (os : list nop) : Prop := NFlush ∉ os.
  (** The times of the history do not decrease. *)
  Definition op_time (o : nop) : option Z := match o with NSubmit _ t | NTick t => Some t | NFlush => None end.
  Definition in_time (os : list nop) : Prop := ∀ i j o o' t t', os !! i = Some o → os !! j = Some o' → op_time o = Some t → op_time o' = Some t' → (i < j)%nat → t <= t'.
  (** Nothing is submitted while [max + 1] notifications of its kind wait. *)
  Definition has_room (cf : nconfig) (os : list nop) : Prop :=
    ∀ l1 n t l2, os = l1 ++ NSubmit n t :: l2 → (length (waiting (notification_key dbg n) (n_run dbg cf l1)) <= n_max cf)%nat.
  Definition added (os : list bop) : list notice := omap (λ o, match o with BAdd n => Some n | _ => None end) os.
End spec.
