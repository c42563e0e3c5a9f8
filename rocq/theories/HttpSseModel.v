(** The HTTP transport with an event stream: src/shared/http.rs.  Definitions only.  hyper is not in
    /repo: replies and the frames of a body are inputs.  Every step is a call, or one operation of the
    task that reads an event stream, so any interleaving is a sequence of steps. *)
From stdpp Require Import list strings.
From Verif Require Import ListLib TextLib Utf8Lib JsonLib RpcModel SseModel.

(** *** [String::from_utf8_lossy]: U+FFFD for each longest piece that begins like a character and is none *)
(** How many bytes of [bs], which does not begin with a character, are one such piece (std from_utf8_lossy, used at src/shared/http.rs 144) *)
Definition broken_length (bs : list N) : nat :=
  match bs with
  | b0 :: b1 :: r =>
    if (224 <=? b0)%N && (b0 <? 240)%N then
      let second := if (b0 =? 224)%N then (160 <=? b1)%N && (b1 <? 192)%N else if (b0 =? 237)%N then (128 <=? b1)%N && (b1 <? 160)%N else is_cont b1 in
      if second then 2 else 1
    else if (240 <=? b0)%N && (b0 <? 245)%N then
      let second := if (b0 =? 240)%N then (144 <=? b1)%N && (b1 <? 192)%N else if (b0 =? 244)%N then (128 <=? b1)%N && (b1 <? 144)%N else is_cont b1 in
      if second then match r with b2 :: _ => if is_cont b2 then 3 else 2 | [] => 2 end else 1
    else 1
  | _ => 1
  end.
Definition REPLACEMENT : N := 65533.
Fixpoint lossy_fuel (fuel : nat) (bs : list N) : list N :=
  match fuel with
  | O => []
  | S fuel =>
    match bs with
    | [] => []
    | _ => match utf8_next bs with
           | Some (c, r) => c :: lossy_fuel fuel r
           | None => REPLACEMENT :: lossy_fuel fuel (drop (broken_length bs) bs)
           end
    end
  end.
Definition lossy (bs : list N) : list N := lossy_fuel (length bs) bs.

(** HttpConfig, 22-36; of the urls only whether an endpoint for events is set.  The pool's settings are
    hyper's. *)
Record hconf := MkHConf { hf_sse : bool; hf_headers : list (list N * list N) }.
(** The task that reads a stream, 127-168: [SkNew] before it has run, [SkPanicked] when the parser
    panicked.  [sk_held]: the messages of the chunk read last that are not in the channel yet. *)
Inductive skstate := SkNew | SkRuns | SkEnded | SkPanicked.
Global Instance skstate_eq_dec : EqDecision skstate. Proof. solve_decision. Defined.
Record sktask := MkSk { sk_state : skstate; sk_parser : parser; sk_held : list message }.
(** What a request carries: POST or GET, its headers in lower case, the body (src/shared/http.rs 98-130, 182-235) *)
Record hreq := MkHReq { hq_post : bool; hq_headers : list (list N * list N); hq_body : list N }.
(** HttpTransport, 51-57.  In the channel of 100 (77) messages are tagged with the stream they came from,
    None for the answers to requests.  [ht_call]: send, waiting for room in the channel with the answer.
    The transport keeps a sender of the channel for itself, so it is never closed. *)
Record htransport := MkHT { ht_connected : bool; ht_queue : list (option nat * message); ht_tasks : list sktask; ht_call : option message; ht_made : list hreq }.
Definition ht_new : htransport := MkHT false [] [] None [].
Definition room (s : htransport) : bool := (length (ht_queue s) <? 100)%nat.
Definition set_connected (b : bool) (s : htransport) : htransport := MkHT b (ht_queue s) (ht_tasks s) (ht_call s) (ht_made s).
Definition enqueue (k : option nat) (m : message) (s : htransport) : htransport := MkHT (ht_connected s) (ht_queue s ++ [(k, m)]) (ht_tasks s) (ht_call s) (ht_made s).
Definition set_call (c : option message) (s : htransport) : htransport := MkHT (ht_connected s) (ht_queue s) (ht_tasks s) c (ht_made s).
Definition set_task (k : nat) (t : sktask) (s : htransport) : htransport := MkHT (ht_connected s) (ht_queue s) (<[k := t]> (ht_tasks s)) (ht_call s) (ht_made s).
Definition spawn (s : htransport) : htransport := MkHT (ht_connected s) (ht_queue s) (ht_tasks s ++ [MkSk SkNew parser0 []]) (ht_call s) (ht_made s).
Definition make (q : hreq) (s : htransport) : htransport := MkHT (ht_connected s) (ht_queue s) (ht_tasks s) (ht_call s) (ht_made s ++ [q]).
(** 105-111, 187-192: the configured headers are not used *)
Definition get_request : hreq := MkHReq false [(lit "accept", lit "text/event-stream"); (lit "cache-control", lit "no-cache")] [].
Definition post_request (m : message) : hreq := MkHReq true [(lit "content-type", lit "application/json")] (serialize_message m).
(** The next frame of a body, 134-163 *)
Inductive bframe := BfData (bs : list N) | BfOther | BfError | BfEnd.
Inductive htop :=
| HConnect (status : option Z)                        (* connect_sse; None: the request fails *)
| HSend (m : message) (r : option (Z * option (list N)))   (* send; None: it fails or times out; the body None: reading it fails *)
| HRetry                                              (* a waiting send tries the channel again *)
| HDrop                                               (* the caller drops the future of a waiting send *)
| HReceive | HClose
| HStart (k : nat) | HFrame (k : nat) (f : bframe) | HPut (k : nat).   (* rounds of the task of stream k *)
(** [HWaits]: the call does not return now; [HBusy]: send, receive and close need the transport for
    themselves (&mut self), so no call can be made while one is waiting *)
(** src/shared/http.rs 239-260 *)
Inductive htres := HOk | HErr | HGot (m : message) | HWaits | HBusy.
Section httpsse.
  Context (cf : hconf).
  (** src/shared/http.rs 144-165; ht_step drives 98-260 *)
  Definition events_messages (es : list sse_event) : list message := omap (λ e, parse_message (utf8 (e_data e))) es.
  Definition ht_step (s : htransport) (o : htop) : htransport * htres :=
    match o with
    | HConnect r =>                                                                       (* 97-176 *)
      match ht_call s with Some _ => (s, HBusy) | None =>
        if hf_sse cf then
          let s := make get_request s in
          match r with Some z => if (z =? 200)%Z then (spawn s, HOk) else (s, HErr) | None => (s, HErr) end
        else (set_connected true s, HOk)
      end
    | HSend m r =>                                                                        (* 178-235, 240-243 *)
      match ht_call s with Some _ => (s, HBusy) | None =>
        let s := make (post_request m) s in
        match r with
        | Some (z, body) =>
          if (z =? 200)%Z then
            match body ≫= parse_message with
            | Some x => if room s then (enqueue None x s, HOk) else (set_call (Some x) s, HWaits)
            | None => (s, HErr)
            end
          else (s, HErr)
        | None => (s, HErr)
        end
      end
    | HRetry => match ht_call s with
                | Some x => if room s then (enqueue None x (set_call None s), HOk) else (s, HWaits)
                | None => (s, HErr)
                end
    | HDrop => (set_call None s, HOk)
    | HReceive =>                                                                         (* 245-250 *)
      match ht_call s with Some _ => (s, HBusy) | None =>
        match ht_queue s with
        | (_, m) :: q => (MkHT (ht_connected s) q (ht_tasks s) None (ht_made s), HGot m)
        | [] => (s, HWaits)
        end
      end
    | HClose => match ht_call s with Some _ => (s, HBusy) | None => (set_connected false s, HOk) end   (* 252-256 *)
    | HStart k =>                                                                         (* 128-131 *)
      match ht_tasks s !! k with
      | Some (MkSk SkNew p h) => (set_connected true (set_task k (MkSk SkRuns p h) s), HOk)
      | _ => (s, HErr)
      end
    | HFrame k f =>
      match ht_tasks s !! k with
      | Some (MkSk SkRuns p []) =>
        match f with
        | BfData bs => match feed p (lossy bs) with
                       | Some (p', es) => (set_task k (MkSk SkRuns p' (events_messages es)) s, HOk)
                       | None => (set_task k (MkSk SkPanicked p []) s, HOk)
                       end
        | BfOther => (s, HOk)
        | BfError | BfEnd => (set_connected false (set_task k (MkSk SkEnded p []) s), HOk)              (* 166 *)
        end
      | _ => (s, HErr)
      end
    | HPut k =>
      match ht_tasks s !! k with
      | Some (MkSk st p (m :: h)) => if room s then (enqueue (Some k) m (set_task k (MkSk st p h) s), HOk) else (s, HWaits)
      | _ => (s, HErr)
      end
    end.
  Definition ht_run (s : htransport) (os : list htop) : htransport := foldl (λ s o, (ht_step s o).1) s os.
End httpsse.
(** is_connected, 258-260 *)
Definition ht_is_connected (s : htransport) : bool := ht_connected s.
