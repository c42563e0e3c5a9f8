(** SseStream, the builder of event streams of src/shared/sse_parser.rs, and what its parser tells between
    the calls.  Definitions only. *)
From stdpp Require Import sets list strings.
From Verif Require Import ListLib TextLib SseModel.

(** SseEvent::new, sse_parser.rs:35-42, and with_event, 71-74 *)
Definition sse_new (data : list N) : sse_event := MkSse None None data None.
Definition with_event (t : list N) (e : sse_event) : sse_event := MkSse (e_id e) (Some t) (e_data e) (e_retry e).
(** The methods of SseStream, sse_parser.rs:320-340 *)
Inductive bop := BEvent (e : sse_event) | BData (d : list N) | BTyped (t d : list N) | BComment (c : list N).
(** event, 320-323; data, 326-328; typed_event, 331-333; comment, 336-340, which keeps nothing *)
Definition b_step (events : list sse_event) (o : bop) : list sse_event :=
  match o with
  | BEvent e => events ++ [e]
  | BData d => events ++ [sse_new d]
  | BTyped t d => events ++ [with_event t (sse_new d)]
  | BComment _ => events
  end.
(** new, 315-317, some calls, and build, 343-348 *)
Definition stream_of (os : list bop) : list N := concat (display <$> fold_left b_step os []).

(** A parser's history: feed, 169-188, reset, 275-278.  [None]: a call of feed has panicked. *)
Inductive pop := PFeed (data : list N) | PReset.
Definition p_step (s : option (parser * list sse_event)) (o : pop) : option (parser * list sse_event) :=
  match s, o with
  | Some (p, es), PFeed data => match feed p data with Some (p', es') => Some (p', es ++ es') | None => None end
  | Some (p, es), PReset => Some (reset p, es)
  | None, _ => None
  end.
Definition p_run (os : list pop) : option (parser * list sse_event) := fold_left p_step os (Some (parser0, [])).
(** last_event_id, 270-272 *)
Definition last_event_id (p : parser) : option (list N) := p_last p.
