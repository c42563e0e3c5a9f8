(** Specification vocabulary for SseStream. *)
From stdpp Require Import sets list strings.
From Verif Require Import ListLib TextLib SseModel SseSpec SseSpec2 StreamModel.

(** The events a caller asked for, in order. *)
Definition asked_for (os : list bop) : list sse_event :=
  omap (λ o, match o with
             | BEvent e => Some e
             | BData d => Some {| e_id := None; e_event := None; e_data := d; e_retry := None |}
             | BTyped t d => Some {| e_id := None; e_event := Some t; e_data := d; e_retry := None |}
             | BComment _ => None
             end) os.
(** A comment in an event stream: a line that starts with a colon. *)
Definition comment_line (c : list N) : list N := COLON :: c ++ [LF].
(** The texts fed to a parser, in order. *)
Definition texts (chunks : list (list N)) : list pop := PFeed <$> chunks.
