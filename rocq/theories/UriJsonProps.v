(** C236: URI templates survive JSON. *)
From stdpp Require Import list strings.
From Verif Require Import TextLib Utf8Lib JsonLib UriModel UriJsonModel.

(** A template that was written is read as itself: it expands and matches as before. *)
Theorem C236_roundtrip : ∀ t x, template_new t = Some x → Forall scalar t →
  template_of_bytes (template_bytes x) = Some x ∧
  ∀ y, template_of_bytes (template_bytes x) = Some y → (∀ vars, template_expand y vars = template_expand x vars) ∧ ∀ uri, template_match y uri = template_match x uri.
Proof.
  intros t x Hx Ht. assert (tp_text x = t) as E by (unfold template_new in Hx; destruct (parse_template t); [by simplify_eq/=|done]).
  assert (template_of_bytes (template_bytes x) = Some x) as R.
  { unfold template_of_bytes, template_bytes. rewrite of_to_bytes; cbn; [by rewrite E|]. unfold template_json. rewrite E. repeat split; try done; cbn; lia. }
  split; [done|]. intros y Hy. rewrite R in Hy. injection Hy as <-. done.
Qed.
Print Assumptions C236_roundtrip.
(** Read is what new makes of a string, and nothing else: what new refuses is refused, and so is every other value. *)
Theorem C236_reads : ∀ v x, template_of_json v = Some x ↔ ∃ t, v = JStr t ∧ template_new t = Some x.
Proof. intros v x. split; [destruct v; cbn; try done; by eexists|]. by intros (t & -> & Ht). Qed.
Print Assumptions C236_reads.
(** Different templates are written differently. *)
Theorem C236_injective : ∀ t u x y, template_new t = Some x → template_new u = Some y → Forall scalar t → Forall scalar u →
  template_bytes x = template_bytes y → t = u ∧ x = y.
Proof.
  intros t u x y Hx Hy Ht Hu E. destruct (C236_roundtrip t x Hx Ht) as [Rx _]. destruct (C236_roundtrip u y Hy Hu) as [Ry _]. rewrite E, Ry in Rx. injection Rx as <-. split; [|done].
  unfold template_new in *. destruct (parse_template t), (parse_template u); by simplify_eq/=.
Qed.
Print Assumptions C236_injective.
Example C236_example : ∃ x, template_new (lit "/users/{id}{?q,r*}") = Some x ∧ length (tp_exprs x) = 3 ∧
  template_bytes x = utf8 (34%N :: lit "/users/{id}{?q,r*}" ++ [34%N]) ∧ template_of_bytes (template_bytes x) = Some x ∧
  template_of_json (JStr (lit "/users/{1id}")) = None ∧ template_of_json JNull = None.
Proof. eexists. split; [by vm_compute|]. repeat split; by vm_compute. Qed.
