(** More specification vocabulary for SSE: lines of a text, texts on which the parser is well
    behaved line by line, and what arrives of an event's data. *)
From stdpp Require Import sets list strings.
From Verif Require Import ListLib TextLib SseModel SseSpec.

(** [line] is a complete line of [t], followed by [rest]. *)
Definition line_of (t line rest : list N) : Prop :=
  ∃ pre, t = pre ++ line ++ LF :: rest ∧ (pre = [] ∨ last pre = Some LF) ∧ LF ∉ line.

Definition ascii (l : list N) : Prop := ∀ c, c ∈ l → (c < 128)%N.

(** The text starting with a line has a carriage return as many characters after its start as the
    line has bytes, less one. *)
Definition struck (line rest : list N) : Prop :=
  (line ++ LF :: rest) !! N.to_nat (utf8_size line - 1) = Some CR.

(** Text in which every line is ASCII, or has no carriage return at its end and none at the place
    counted with its bytes. *)
Definition tame (t : list N) : Prop :=
  ∀ line rest, line_of t line rest → ascii line ∨ (last line ≠ Some CR ∧ ¬ struck line rest).

(** Events whose other fields can be written and whose data has no carriage return. *)
Definition headed (e : sse_event) : Prop :=
  (∀ v, e_id e = Some v → no_break v ∧ 0%N ∉ v) ∧
  (∀ v, e_event e = Some v → no_break v) ∧
  (∀ r, e_retry e = Some r → (r <= u64_max)%N) ∧
  CR ∉ e_data e.

(** Data without its leading line feeds and without one trailing line feed. *)
Fixpoint skip_lf (d : list N) : list N :=
  match d with
  | c :: d' => if decide (c = LF) then skip_lf d' else d
  | [] => []
  end.
Definition cut_lf (d : list N) : list N :=
  match last d with
  | Some c => if decide (c = LF) then take (length d - 1) d else d
  | None => d
  end.
Definition kept (d : list N) : list N := skip_lf (cut_lf d).

(** What a receiver sees of events with any data: the kept data, and nothing of an event that keeps
    none, except that its id is remembered. *)
Fixpoint seen (lastid : option (list N)) (es : list sse_event) : list sse_event :=
  match es with
  | [] => []
  | e :: es =>
      match kept (e_data e) with
      | [] => []
      | d => [MkSse (next_id lastid e) (e_event e) d (e_retry e)]
      end ++ seen (next_id lastid e) es
  end.
