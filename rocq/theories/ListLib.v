(** Text functions on lists, used by several models: the counterparts of Rust's
    [str::split(char)], [split_once]/[splitn(2, c)], [trim], [join] and [contains]. *)
From stdpp Require Import sets list strings.

Section generic.
Context {A : Type} `{EqDecision A}.

(** [s.split(c)]: always at least one piece. *)
Fixpoint split_on (c : A) (l : list A) : list (list A) :=
  match l with
  | [] => [[]]
  | x :: l' =>
      if decide (x = c) then [] :: split_on c l'
      else match split_on c l' with
           | p :: ps => (x :: p) :: ps
           | [] => [[x]]
           end
  end.

(** [s.split_once(c)] (equivalently [splitn(2, c)] with two parts). *)
Fixpoint split_once (c : A) (l : list A) : option (list A * list A) :=
  match l with
  | [] => None
  | x :: l' =>
      if decide (x = c) then Some ([], l')
      else match split_once c l' with
           | Some (a, b) => Some (x :: a, b)
           | None => None
           end
  end.

(** [pieces.join(sep)]. *)
Fixpoint join_with (sep : list A) (ls : list (list A)) : list A :=
  match ls with
  | [] => []
  | [p] => p
  | p :: ps => p ++ sep ++ join_with sep ps
  end.

(** [s.trim_start_matches(p)], [s.trim()]. *)
Fixpoint drop_while (p : A → bool) (l : list A) : list A :=
  match l with
  | [] => []
  | x :: l' => if p x then drop_while p l' else l
  end.
Definition trim_by (p : A → bool) (l : list A) : list A :=
  reverse (drop_while p (reverse (drop_while p l))).

(** [s.starts_with(p)]. *)
Fixpoint starts_with (p l : list A) : bool :=
  match p, l with
  | [], _ => true
  | x :: p', y :: l' => bool_decide (x = y) && starts_with p' l'
  | _ :: _, [] => false
  end.

(** [s.contains(p)]. *)
Fixpoint contains (p l : list A) : bool :=
  starts_with p l || match l with [] => false | _ :: l' => contains p l' end.

Lemma split_on_no_sep c l : c ∉ l → split_on c l = [l].
Proof.
  induction l as [|x l IH]; simpl; intros H; [done|].
  rewrite decide_False by set_solver. rewrite IH by set_solver. done.
Qed.

Lemma split_on_app c l r : c ∉ l → split_on c (l ++ c :: r) = l :: split_on c r.
Proof.
  induction l as [|x l IH]; simpl; intros H; [by rewrite decide_True|].
  rewrite decide_False by set_solver. rewrite IH by set_solver. done.
Qed.

Lemma split_on_join c ls : ls ≠ [] → Forall (λ l, c ∉ l) ls → split_on c (join_with [c] ls) = ls.
Proof.
  induction ls as [|l ls IH]; [done|]. intros _ H. inversion H; subst.
  destruct ls as [|l' ls]; [by apply split_on_no_sep|].
  change (join_with [c] (l :: l' :: ls)) with (l ++ c :: join_with [c] (l' :: ls)).
  rewrite split_on_app by done. rewrite IH; done.
Qed.

Lemma split_on_nonempty c l : split_on c l ≠ [].
Proof. destruct l; simpl; [done|]. destruct (decide _); [done|]. by destruct (split_on c l). Qed.

Lemma join_split_on c l : join_with [c] (split_on c l) = l.
Proof.
  induction l as [|x l IH]; simpl; [done|]. pose proof (split_on_nonempty c l).
  destruct (decide (x = c)) as [->|Hne].
  - destruct (split_on c l) as [|p ps]; [done|]. simpl in *. by f_equal.
  - destruct (split_on c l) as [|p ps]; [done|]. simpl in *. destruct ps; simpl in *; by f_equal.
Qed.

Lemma split_on_pieces c l p : p ∈ split_on c l → c ∉ p.
Proof.
  revert p. induction l as [|x l IH]; simpl; intros p Hp.
  - apply elem_of_list_singleton in Hp as ->. set_solver.
  - destruct (decide (x = c)) as [->|Hne].
    + apply elem_of_cons in Hp as [->|Hp]; [set_solver|auto].
    + destruct (split_on c l) as [|q qs].
      * apply elem_of_list_singleton in Hp as ->. set_solver.
      * apply elem_of_cons in Hp as [->|Hp].
        -- specialize (IH q ltac:(set_solver)). set_solver.
        -- apply IH. set_solver.
Qed.

Lemma split_once_app c l r : c ∉ l → split_once c (l ++ c :: r) = Some (l, r).
Proof.
  induction l as [|x l IH]; simpl; intros H; [by rewrite decide_True|].
  rewrite decide_False by set_solver. rewrite IH by set_solver. done.
Qed.

Lemma split_once_None c l : split_once c l = None ↔ c ∉ l.
Proof.
  induction l as [|x l IH]; simpl; [set_solver|].
  destruct (decide (x = c)) as [->|Hne].
  - split; [done|set_solver].
  - destruct (split_once c l) as [[a b]|]; split; try done.
    + intros H. assert (c ∉ l) by set_solver. destruct IH as [_ IH]. by specialize (IH H0).
    + intros _. destruct IH as [IH _]. specialize (IH eq_refl). set_solver.
Qed.

Lemma split_once_Some c l a b : split_once c l = Some (a, b) ↔ l = a ++ c :: b ∧ c ∉ a.
Proof.
  split.
  - revert a. induction l as [|x l IH]; simpl; intros a H; [done|].
    destruct (decide (x = c)) as [->|Hne].
    + injection H as [= <- <-]. split; [done|set_solver].
    + destruct (split_once c l) as [[a' b']|]; [|done]. injection H as [= <- <-].
      destruct (IH a' eq_refl) as [-> ?]. split; [done|set_solver].
  - intros [-> H]. by apply split_once_app.
Qed.

Lemma drop_while_id p l : (∀ x, head l = Some x → p x = false) → drop_while p l = l.
Proof. destruct l as [|x l]; simpl; intros H; [done|]. by rewrite (H x eq_refl). Qed.

Lemma drop_while_app_all p l r : (∀ x, x ∈ l → p x = true) → drop_while p (l ++ r) = drop_while p r.
Proof.
  induction l as [|x l IH]; simpl; intros H; [done|]. rewrite (H x) by set_solver. apply IH. set_solver.
Qed.

Lemma drop_while_suffix p l : ∃ k, drop_while p l = drop k l ∧ Forall (λ x, p x = true) (take k l).
Proof.
  induction l as [|x l (k & IH & Hf)]; simpl; [exists 0; simpl; auto|].
  destruct (p x) eqn:E; [exists (S k); simpl; auto|exists 0; simpl; auto].
Qed.

(** Padding with [p]-characters around a text with none at its ends disappears. *)
Lemma trim_by_pad p a l b : (∀ x, x ∈ a → p x = true) → (∀ x, x ∈ b → p x = true) →
  (∀ x, head l = Some x → p x = false) → (∀ x, last l = Some x → p x = false) →
  l ≠ [] →
  trim_by p (a ++ l ++ b) = l.
Proof.
  intros Ha Hb Hh Hl Hne. unfold trim_by. rewrite drop_while_app_all by done.
  rewrite (drop_while_id p (l ++ b)).
  - rewrite reverse_app, drop_while_app_all.
    + rewrite drop_while_id; [rewrite reverse_involutive; reflexivity|].
      intros x Hx. apply Hl. rewrite <- Hx. rewrite head_reverse. reflexivity.
    + intros x Hx. apply Hb. rewrite elem_of_reverse in Hx. exact Hx.
  - destruct l; [done|]. simpl. intros x [= <-]. by apply Hh.
Qed.

Lemma starts_with_spec p l : starts_with p l = true ↔ ∃ r, l = p ++ r.
Proof.
  revert l. induction p as [|x p IH]; intros l; simpl.
  - split; [by exists l|done].
  - destruct l as [|y l]; [split; [done|by intros [? ?]]|].
    rewrite andb_true_iff, bool_decide_eq_true, IH. split.
    + intros [-> [r ->]]. by exists r.
    + intros [r [= -> ->]]. split; [done|by exists r].
Qed.

Lemma contains_spec p l : contains p l = true ↔ ∃ a b, l = a ++ p ++ b.
Proof.
  induction l as [|x l IH].
  - change (contains p []) with (starts_with p [] || false). rewrite orb_false_r, starts_with_spec. split.
    + intros [r Hr]. exists [], r. done.
    + intros (a & b & H). destruct a; [|done]. by exists b.
  - change (contains p (x :: l)) with (starts_with p (x :: l) || contains p l).
    rewrite orb_true_iff, starts_with_spec, IH. split.
    + intros [[r ->]|(a & b & ->)]; [by exists [], r|by exists (x :: a), b].
    + intros (a & b & H). destruct a as [|y a]; simpl in *.
      * left. by exists b.
      * injection H as [= -> ->]. right. by exists a, b.
Qed.
End generic.

(** ASCII text as a list of characters. *)
Notation chars := String.list_ascii_of_string.
