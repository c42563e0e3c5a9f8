(** Specification vocabulary for giving up on the stdio transport. *)
From stdpp Require Import sets list strings.
From Verif Require Import ListLib TextLib Utf8Lib JsonLib RpcModel StdioModel StdioSpec StdioDropModel.
Local Open Scope N_scope.

(** All that arrives, and whether a call is given up. *)
Definition arrivals (os : list dop) : list N := concat (omap (λ o, match o with DArrive bs => Some bs | _ => None end) os).
Definition patient (os : list dop) : Prop := DDrop ∉ os.
(** What the calls return. *)
Definition returns (os : list dop) : list received := (d_run d_new os).1.
(** The next poll does not return. *)
Definition waits (os : list dop) : Prop := (d_step (d_run d_new os).2 DPoll).1 = None.
(** What a message looks like on the wire: bytes on one line that have a closing brace (or the rest of such). *)
Definition objectlike (p : list N) : Prop := Forall (λ b, b < 256) p ∧ 10 ∉ p ∧ 125 ∈ p.
(** The frame up to its payload. *)
Definition head_of (p : list N) : list N := header_name ++ show_N (N.of_nat (length p)) ++ crlf2.
(** Payloads that fit in memory. *)
Definition fits (p : list N) : Prop := N.of_nat (length p) <= isize_max.
(** Calls are only given up when all that has arrived are whole frames, and as many calls have returned. *)
Definition calm (os : list dop) : Prop := ∀ os1 os2, os = os1 ++ DDrop :: os2 → ∃ ps, Forall fits ps ∧ arrivals os1 = concat (frame <$> ps) ∧ length (returns os1) = length ps.
