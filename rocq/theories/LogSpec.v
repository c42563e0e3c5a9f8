(** What users expect of contexts, log entries and the channel, without reference to the code's definitions. *)
From stdpp Require Import gmap list strings.
From Verif Require Import ListLib TextLib Utf8Lib JsonLib RpcModel ContextModel LogModel.
Local Open Scope N_scope.

(** In the stretch [h] of a history, every scope task [t] enters it also leaves, and it leaves no other. *)
Inductive closed (t : nat) : list event → Prop :=
  | closed_nil : closed t []
  | closed_other e h : (∀ c, e ≠ EEnter t c) → e ≠ ELeave t → closed t h → closed t (e :: h)
  | closed_scope c h1 h2 : closed t h1 → closed t h2 → closed t (EEnter t c :: h1 ++ ELeave t :: h2).
(** [c] is the innermost scope task [t] is in after [h]. *)
Definition within (h : list event) (t : nat) (c : context) : Prop := ∃ h1 h2, h = h1 ++ EEnter t c :: h2 ∧ closed t h2.
(** Task [t] is in no scope after [h]. *)
Definition outside (h : list event) (t : nat) : Prop := closed t h.
(** Scopes nest: a task never leaves a scope it is not in. *)
Definition nested (h : list event) : Prop := ∀ h1 h2 t, h = h1 ++ ELeave t :: h2 → ∃ c, within h1 t c.
(** The entry names the request [c] stands for. *)
Definition names (e : entry) (c : context) : Prop :=
  le_request e = Some (request_id c) ∧ le_trace e = Some (trace_id c) ∧ le_span e = Some (span_id c) ∧ le_user e = user_id c ∧ le_session e = session_id c.
Definition names_none (e : entry) : Prop := le_request e = None ∧ le_trace e = None ∧ le_span e = None ∧ le_user e = None ∧ le_session e = None.

(** The texts of the entry are Unicode, its id fits i64, its fields can be written in JSON. *)
Definition writable (e : entry) : Prop :=
  Forall scalar (le_level e) ∧ Forall scalar (le_msg e) ∧
  (∀ i, le_request e = Some i → match i with IdStr s => Forall scalar s | IdNum z => (-9223372036854775808 <= z <= 9223372036854775807)%Z end) ∧
  (∀ s, le_trace e = Some s ∨ le_span e = Some s ∨ le_user e = Some s ∨ le_session e = Some s → Forall scalar s) ∧
  (∀ k v, le_fields e !! k = Some v → Forall scalar k ∧ wf v ∧ keys_ok v ∧ scalars v ∧ (depth v < 126)%nat).
(** A reader of the line finds [v] under the name. *)
Definition finds (line : list N) (name : string) (v : json) : Prop := ∃ l, of_bytes line = Some (JObj l) ∧ (lit name, v) ∈ l ∧ NoDup l.*1.
Definition text_or_null (o : option (list N)) : json := match o with Some s => JStr s | None => JNull end.

(** A word written in capitals and small letters *)
Definition same_letter (a b : N) : Prop := a = b ∨ (65 ≤ a ≤ 90 ∧ b = a + 32).
Definition spelled (t : list N) (word : string) : Prop := Forall2 same_letter t (lit word).

(** What was sent and received, in order *)
Section channel.
  Context {A : Type}.
  Definition given (h : list (cop A * cres A)) : list A := omap (λ x, match x.1 with CSend v => Some v | _ => None end) h.
  Definition taken (h : list (cop A * cres A)) : list A := omap (λ x, match x.2 with CGot v => Some v | _ => None end) h.
End channel.
