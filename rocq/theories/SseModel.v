(** Model of /repo/src/shared/sse_parser.rs.  Text is a list of code points; byte offsets and the
    mixture of byte and character offsets in [feed] are modelled exactly.  Definitions only. *)
From stdpp Require Import sets list strings.
From Verif Require Import ListLib TextLib.

(** [SseEvent], sse_parser.rs:10-20. *)
Record sse_event := MkSse {
  e_id : option (list N); e_event : option (list N); e_data : list N; e_retry : option N
}.

(** [str::lines]: pieces between line feeds, without the last one if it is empty, each without a
    trailing carriage return. *)
(** std, used at src/shared/sse_parser.rs 106 *)
Definition strip_cr (l : list N) : list N :=
  match last l with
  | Some c => if decide (c = CR) then take (length l - 1) l else l
  | None => l
  end.
Definition drop_last_empty (ls : list (list N)) : list (list N) :=
  match last ls with
  | Some [] => take (length ls - 1) ls
  | _ => ls
  end.
Definition lines (t : list N) : list (list N) := strip_cr <$> drop_last_empty (split_on LF t).

(** [Display for SseEvent], sse_parser.rs:92-113. *)
Definition field_line (name value : list N) : list N := name ++ lit ": " ++ value ++ [LF].
Definition display (e : sse_event) : list N :=
  match e_id e with Some v => field_line (lit "id") v | None => [] end ++
  match e_event e with Some v => field_line (lit "event") v | None => [] end ++
  match e_retry e with Some v => field_line (lit "retry") (show_N v) | None => [] end ++
  concat (field_line (lit "data") <$> lines (e_data e)) ++ [LF].

(** [EventBuilder] and [SseParser], sse_parser.rs:116-121, 287-304. *)
Record builder := MkB { b_id : option (list N); b_event : option (list N); b_data : list N; b_retry : option N }.
Definition builder0 : builder := MkB None None [] None.
Record parser := MkP { p_buf : list N; p_cur : builder; p_last : option (list N) }.
Definition parser0 : parser := MkP [] builder0 None.

(** [dispatch_event], sse_parser.rs:247-267; [process_line] never touches the buffer. *)
Definition dispatch (cur : builder) (lastid : option (list N)) : builder * option sse_event :=
  match b_data cur with
  | [] => (builder0, None)
  | _ => (builder0, Some (MkSse (match b_id cur with Some i => Some i | None => lastid end)
                                (b_event cur) (b_data cur) (b_retry cur)))
  end.

(** Field and value of a line, sse_parser.rs:203-213. *)
Definition field_value (line : list N) : list N * list N :=
  match split_once COLON line with
  | Some (f, v) => (f, match v with c :: v' => if decide (c = SP) then v' else v | [] => [] end)
  | None => (line, [])
  end.

(** [process_line], sse_parser.rs:191-244. *)
Definition process_line (cur : builder) (lastid : option (list N)) (line : list N)
  : builder * option (list N) * option sse_event :=
  match line with
  | [] => let (cur', e) := dispatch cur lastid in (cur', lastid, e)
  | c :: _ =>
    if decide (c = COLON) then (cur, lastid, None)
    else
      let (f, v) := field_value line in
      if decide (f = lit "event") then (MkB (b_id cur) (Some v) (b_data cur) (b_retry cur), lastid, None)
      else if decide (f = lit "data") then
        (MkB (b_id cur) (b_event cur)
             (match b_data cur with [] => v | d => d ++ LF :: v end) (b_retry cur), lastid, None)
      else if decide (f = lit "id") then
        if decide (0%N ∈ v) then (cur, lastid, None)
        else (MkB (Some v) (b_event cur) (b_data cur) (b_retry cur), Some v, None)
      else if decide (f = lit "retry") then
        match parse_unsigned u64_max v with
        | Some r => (MkB (b_id cur) (b_event cur) (b_data cur) (Some r), lastid, None)
        | None => (cur, lastid, None)
        end
      else (cur, lastid, None)
  end.

(** The line taken by one turn of [feed]'s loop, sse_parser.rs:173-178: [before] is the text before
    the first line feed and [buf] the whole buffer.  [line_end] is a byte offset but is used as a
    character offset in [chars().nth(line_end - 1)]; [self.buffer[..line_end - 1]] panics ([None])
    unless the last character of [before] is one byte wide. *)
Definition take_line (before buf : list N) : option (list N) :=
  let line_end := utf8_size before in
  if decide (0 < line_end)%N then
    if decide (buf !! N.to_nat (line_end - 1) = Some CR) then
      match last before with
      | Some c => if decide (utf8_len c = 1)%N then Some (take (length before - 1) before) else None
      | None => None
      end
    else Some before
  else Some before.

(** [feed], sse_parser.rs:169-188; [None] is a panic.  Each turn consumes a line feed, so the
    length of the buffer bounds the number of turns. *)
Fixpoint feed_loop (fuel : nat) (buf : list N) (cur : builder) (lastid : option (list N))
  : option (parser * list sse_event) :=
  match fuel with
  | O => Some (MkP buf cur lastid, [])
  | S fuel =>
      match split_once LF buf with
      | None => Some (MkP buf cur lastid, [])
      | Some (before, rest) =>
          match take_line before buf with
          | None => None
          | Some line =>
              let '(cur', lastid', e) := process_line cur lastid line in
              match feed_loop fuel rest cur' lastid' with
              | Some (p, es) => Some (p, match e with Some e => e :: es | None => es end)
              | None => None
              end
          end
      end
  end.
Definition feed (p : parser) (data : list N) : option (parser * list sse_event) :=
  let buf := p_buf p ++ data in
  feed_loop (S (length buf)) buf (p_cur p) (p_last p).

(** Successive [feed] calls with the events collected (drives src/shared/sse_parser.rs 169-188) *)
Fixpoint feed_all (p : parser) (chunks : list (list N)) : option (parser * list sse_event) :=
  match chunks with
  | [] => Some (p, [])
  | c :: cs =>
      match feed p c with
      | None => None
      | Some (p1, es1) =>
          match feed_all p1 cs with
          | None => None
          | Some (p2, es2) => Some (p2, es1 ++ es2)
          end
      end
  end.

(** [reset], sse_parser.rs:275-278. *)
Definition reset (p : parser) : parser := MkP [] builder0 (p_last p).
