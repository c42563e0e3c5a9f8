(** Specification vocabulary for the stdio properties. *)
From stdpp Require Import sets list strings.
From Verif Require Import ListLib TextLib Utf8Lib JsonLib WhiteSpec RpcModel RpcSpec StdioModel.
Local Open Scope N_scope.

(** The messages a history of calls sent successfully: paired with what the calls returned. *)
Fixpoint sent_ok (os : list sop) (rs : list sres) : list message :=
  match os, rs with
  | Send m :: os, Sent :: rs => m :: sent_ok os rs
  | _ :: os, _ :: rs => sent_ok os rs
  | _, _ => []
  end.
(** A message whose bytes can travel: it is well typed, is not an elicitation request (C78) and its
    document can be written and read back. *)
Definition sendable (m : message) : Prop :=
  good_message m ∧ not_elicitation m ∧ storable (message_json m) ∧ N.of_nat (length (serialize_message m)) <= isize_max.
Definition refuses (r : sres) : Prop := match r with SendClosed | Got RClosed | ClosedOk => True | _ => False end.
(** What a reader makes of a frame with this payload. *)
Definition reading (payload : list N) : received := match parse_message payload with Some m => RMsg m | None => RInvalid end.

(** *** Header blocks *)
(** A line of a header block as bytes. *)
Definition on_line (t : list N) : list N := utf8 t ++ [10].
(** A text that one line can hold, with something on it. *)
Definition one_line (t : list N) : Prop := Forall scalar t ∧ 10 ∉ t.
Definition header_line (t : list N) : Prop := one_line t ∧ ¬ blank t.
(** The line states this content length, with any white space around the name and the number … *)
Definition states (n : N) (t : list N) : Prop :=
  ∃ a b c, t = a ++ lit "Content-Length: " ++ b ++ show_N n ++ c ∧ blank a ∧ blank b ∧ blank c.
(** … or is not a content length line at all. *)
Definition other_header (t : list N) : Prop := ¬ ∃ a r, t = a ++ lit "Content-Length: " ++ r ∧ blank a.
