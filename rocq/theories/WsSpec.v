(** Specification vocabulary for the WebSocket transports. *)
From stdpp Require Import list.
From Verif Require Import TextLib JsonLib RpcModel WsModel.

(** *** Frames.  The messages in them, their pings, and what a peer reads from the frames written to it *)
Definition said (fs : list frame) : list message := omap (λ f, match f with FText bs => parse_message bs | _ => None end) fs.
Definition pings (fs : list frame) : list (list N) := omap (λ f, match f with FPing d => Some d | _ => None end) fs.
Definition pongs (fs : list frame) : list (list N) := omap (λ f, match f with FPong d => Some d | _ => None end) fs.
Definition texts (fs : list frame) : list (list N) := omap (λ f, match f with FText bs => Some bs | _ => None end) fs.

(** *** Histories of the server's transport: each operation with the state before it and its result *)
Fixpoint s_trace (s : stransport) (os : list sop) : list (stransport * sop * sres) :=
  match os with [] => [] | o :: os => (s, o, (s_step s o).2) :: s_trace (s_step s o).1 os end.
Definition is_cur (k : nat) (s : stransport) : bool := match st_cur s with Some j => j =? k | None => false end.
(** What receive returned, and what send accepted, while [k] was the connection in use *)
Definition got_from (k : nat) (tr : list (stransport * sop * sres)) : list message :=
  omap (λ x, match x with (s, SReceive, SGot m) => if is_cur k s then Some m else None | _ => None end) tr.
Definition sent_to (k : nat) (tr : list (stransport * sop * sres)) : list message :=
  omap (λ x, match x with (s, SSend m, SOk) => if is_cur k s then Some m else None | _ => None end) tr.
(** The frames the reader of connection [k] took from the peer: one that still waits with an earlier
    message, or has ended, takes none *)
Definition taken_by (k : nat) (tr : list (stransport * sop * sres)) : list frame :=
  omap (λ x, match x with
             | (s, SRead j f, _) => if (j =? k) && match sc_reader <$> st_conns s !! k with Some RIdle => true | _ => false end then Some f else None
             | _ => None end) tr.
Definition s_trace0 (os : list sop) := s_trace st_new os.
(** What the tasks of a connection still have *)
Definition held_msg (c : sconn) : list message := match sc_reader c with RHolds m => [m] | _ => [] end.
Definition held_pong (c : sconn) : list (list N) := match sc_reader c with RHoldsPong d => [d] | _ => [] end.
(** The peer has gone: its close frame, an error or the end of the stream has been read *)
Definition gone (f : frame) : Prop := f = FClose ∨ f = FError ∨ f = FEnd.

(** *** Histories of the client's transport *)
Fixpoint c_trace (s : ctransport) (os : list cop) : list (ctransport * cop * cres) :=
  match os with [] => [] | o :: os => (s, o, (c_step s o).2) :: c_trace (c_step s o).1 os end.
Definition c_got (tr : list (ctransport * cop * cres)) : list message :=
  omap (λ x, match x with (_, CReceive, CGot m) => Some m | _ => None end) tr.
Definition c_taken (k : nat) (tr : list (ctransport * cop * cres)) : list frame :=
  omap (λ x, match x with
             | (s, CRead j f, _) => if (j =? k) && match ct_conns s !! k with Some (CConn None false _) => true | _ => false end then Some f else None
             | _ => None end) tr.
(** What receive returned of connection [k]'s messages *)
Definition c_got_from (k : nat) (tr : list (ctransport * cop * cres)) : list message :=
  omap (λ x, match x with (s, CReceive, CGot m) => match ct_queue s with (j, _) :: _ => if j =? k then Some m else None | [] => None end | _ => None end) tr.
Definition queued_from (k : nat) (q : list (nat * message)) : list message := omap (λ x, if x.1 =? k then Some x.2 else None) q.
Definition c_held (c : cconn) : list message := match cc_holds c with Some m => [m] | None => [] end.

(** *** Connecting.  The wait after the failed attempt number [i] (counted from 0): the initial delay, doubled
    after each attempt and from then on not longer than the cap *)
Definition backoff (d cap : N) (i : nat) : N := match i with O => d | S _ => N.min (d * 2 ^ N.of_nat i) cap end.
