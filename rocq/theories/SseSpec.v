(** Specification vocabulary for SSE. *)
From stdpp Require Import sets list strings.
From Verif Require Import ListLib TextLib SseModel.

(** Text on which the parser is well behaved: pure ASCII, or without carriage returns. *)
Definition plain (t : list N) : Prop := (∀ c, c ∈ t → (c < 128)%N) ∨ CR ∉ t.

(** Events that can be written faithfully: no line breaks and no NUL in [id], no line breaks in
    [event], [data] non-empty, without carriage returns, neither starting nor ending with a line
    feed, [retry] a u64. *)
Definition no_break (v : list N) : Prop := LF ∉ v ∧ CR ∉ v.
Definition writable (e : sse_event) : Prop :=
  (∀ v, e_id e = Some v → no_break v ∧ 0%N ∉ v) ∧
  (∀ v, e_event e = Some v → no_break v) ∧
  (∀ r, e_retry e = Some r → (r <= u64_max)%N) ∧
  CR ∉ e_data e ∧ e_data e ≠ [] ∧ head (e_data e) ≠ Some LF ∧ last (e_data e) ≠ Some LF.

(** What a receiver should see: an event without id carries the last id sent. *)
Definition with_default_id (lastid : option (list N)) (e : sse_event) : sse_event :=
  MkSse (match e_id e with Some i => Some i | None => lastid end) (e_event e) (e_data e) (e_retry e).
Definition next_id (lastid : option (list N)) (e : sse_event) : option (list N) :=
  match e_id e with Some i => Some i | None => lastid end.
Fixpoint received (lastid : option (list N)) (es : list sse_event) : list sse_event :=
  match es with
  | [] => []
  | e :: es => with_default_id lastid e :: received (next_id lastid e) es
  end.

(** The effect of a field on the event being built and on the last event id, from the SSE
    standard. *)
Definition field_effect (name value : list N) (cur : builder) (lastid : option (list N))
  : builder * option (list N) :=
  if decide (name = lit "event") then (MkB (b_id cur) (Some value) (b_data cur) (b_retry cur), lastid)
  else if decide (name = lit "data") then
    (MkB (b_id cur) (b_event cur)
         (if decide (b_data cur = []) then value else b_data cur ++ [LF] ++ value) (b_retry cur), lastid)
  else if decide (name = lit "id") then
    (if decide (0%N ∈ value) then (cur, lastid)
     else (MkB (Some value) (b_event cur) (b_data cur) (b_retry cur), Some value))
  else if decide (name = lit "retry") then
    (match parse_unsigned u64_max value with
     | Some r => (MkB (b_id cur) (b_event cur) (b_data cur) (Some r), lastid)
     | None => (cur, lastid) end)
  else (cur, lastid).
