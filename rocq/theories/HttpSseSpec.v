(** Specification vocabulary for the HTTP transport with an event stream. *)
From stdpp Require Import list strings.
From Verif Require Import ListLib TextLib Utf8Lib JsonLib RpcModel SseModel HttpSseModel.

(** Histories: each operation with the state before it and its result *)
Fixpoint ht_trace (cf : hconf) (s : htransport) (os : list htop) : list (htransport * htop * htres) :=
  match os with [] => [] | o :: os => (s, o, (ht_step cf s o).2) :: ht_trace cf (ht_step cf s o).1 os end.
(** The chunks the task of stream [k] took from its body *)
Definition chunks_of (k : nat) (tr : list (htransport * htop * htres)) : list (list N) :=
  omap (λ x, match x with (_, HFrame j (BfData bs), HOk) => if (j =? k)%nat then Some bs else None | _ => None end) tr.
(** What receive returned of what came from a stream, or (None) of the answers to requests *)
Definition same (a b : option nat) : bool := bool_decide (a = b).
Definition got_of (k : option nat) (tr : list (htransport * htop * htres)) : list message :=
  omap (λ x, match x with (s, HReceive, HGot m) => match ht_queue s with (j, _) :: _ => if same j k then Some m else None | [] => None end | _ => None end) tr.
Definition queued_of (k : option nat) (q : list (option nat * message)) : list message := omap (λ x, if same x.1 k then Some x.2 else None) q.
(** The answers of the requests that send made and returned successfully from *)
Definition answers (tr : list (htransport * htop * htres)) : list message :=
  omap (λ x, match x with
             | (_, HSend _ (Some (_, Some b)), HOk) => parse_message b
             | (s, HRetry, HOk) => ht_call s
             | _ => None end) tr.
(** The messages send was called with (while no other call was waiting) *)
Definition posted (tr : list (htransport * htop * htres)) : list message :=
  omap (λ x, match x with (_, HSend _ _, HBusy) => None | (_, HSend m _, _) => Some m | _ => None end) tr.
Definition posts (qs : list hreq) : list hreq := filter (λ q, hq_post q = true) qs.
(** The messages in the events of a stream, given what its chunks decode to *)
Definition messages_in (texts : list (list N)) : option (list message) :=
  match feed_all parser0 texts with Some (_, es) => Some (omap (λ e, parse_message (utf8 (e_data e))) es) | None => None end.
(** *** What bytes that need not be UTF-8 are read as *)
Definition starts_character (bs : list N) : Prop := ∃ c r, scalar c ∧ bs = utf8_char c ++ r.
(** Some, but not all, bytes of a character *)
Definition unfinished (p : list N) : Prop := ∃ c q, scalar c ∧ p ≠ [] ∧ q ≠ [] ∧ p ++ q = utf8_char c.
(** [p] is the longest beginning of [p ++ r] that is part of a character, or one byte *)
Definition one_piece (p r : list N) : Prop := p ≠ [] ∧ (unfinished p ∨ length p = 1) ∧ ∀ x, x ≠ [] → x `prefix_of` r → ¬ unfinished (p ++ x).
Inductive mended : list N → list N → Prop :=
| mended_nil : mended [] []
| mended_char c r t : scalar c → mended r t → mended (utf8_char c ++ r) (c :: t)
| mended_piece p r t : ¬ starts_character (p ++ r) → one_piece p r → mended r t → mended (p ++ r) (65533%N :: t).
