(** Request contexts and their propagation in headers: src/shared/context.rs.  Definitions only.
    Strings are their UTF-8 bytes, because the code cuts them at byte offsets.  The timestamp is not
    modelled; UUIDs made by the code are parameters. *)
From stdpp Require Import list strings gmap.
From Verif Require Import ListLib TextLib JsonLib RpcModel.
Local Open Scope N_scope.
Notation bytes := (list N) (only parsing).

(** ClientInfo, 115-128 *)
Record client_info := CInfo { ci_id : bytes; ci_version : option bytes; ci_ip : option bytes; ci_agent : option bytes }.
(** RequestContext, 53-83 *)
Record context := Ctx {
  request_id : rid; trace_id : bytes; parent_span_id : option bytes; span_id : bytes;
  user_id : option bytes; session_id : option bytes; client : option client_info;
  metadata : gmap bytes json; baggage : gmap bytes bytes }.
(** RequestContext::new, 132-145 *)
Definition new_context (trace span : bytes) (id : rid) : context := Ctx id trace None span None None None ∅ ∅.
(** child, 148-161 *)
Definition child (span : bytes) (c : context) : context :=
  Ctx (request_id c) (trace_id c) (Some (span_id c)) span (user_id c) (session_id c) (client c) (metadata c) (baggage c).
(** the builders, 164-191 *)
Definition with_metadata (k : bytes) (v : json) (c : context) : context :=
  Ctx (request_id c) (trace_id c) (parent_span_id c) (span_id c) (user_id c) (session_id c) (client c) (<[k := v]> (metadata c)) (baggage c).
Definition with_baggage (k v : bytes) (c : context) : context :=
  Ctx (request_id c) (trace_id c) (parent_span_id c) (span_id c) (user_id c) (session_id c) (client c) (metadata c) (<[k := v]> (baggage c)).
Definition with_user_id (u : bytes) (c : context) : context :=
  Ctx (request_id c) (trace_id c) (parent_span_id c) (span_id c) (Some u) (session_id c) (client c) (metadata c) (baggage c).
Definition with_session_id (s : bytes) (c : context) : context :=
  Ctx (request_id c) (trace_id c) (parent_span_id c) (span_id c) (user_id c) (Some s) (client c) (metadata c) (baggage c).

(** [&s[a..b]]: panics, here [None], out of range or inside a character (std, used at src/shared/context.rs 215, 251-267) *)
Definition boundary (s : bytes) (i : nat) : bool :=
  (i =? length s)%nat || match s !! i with Some b => negb ((128 <=? b) && (b <? 192)) | None => false end.
Definition slice (s : bytes) (a b : nat) : option bytes :=
  if (a <=? b)%nat && (b <=? length s)%nat && boundary s a && boundary s b then Some (take (b - a) (drop a s)) else None.
Definition DASH : N := 45.
(** [replace('-', "")] (context.rs 214-215) *)
Definition undashed (s : bytes) : bytes := filter (λ c, c ≠ DASH) s.
(** RequestId's Display, src/types/jsonrpc.rs:37-44 *)
Definition show_rid (i : rid) : bytes := match i with IdStr s => s | IdNum z => show_Z z end.
Definition set_opt (k : bytes) (v : option bytes) (h : gmap bytes bytes) : gmap bytes bytes := match v with Some v => <[k := v]> h | None => h end.
Definition BAGGAGE : bytes := lit "baggage-".
(** to_headers, 209-238; the keys of the baggage are distinct, so the order of the loop does not matter *)
Definition to_headers (c : context) : option (gmap bytes bytes) :=
  match slice (undashed (span_id c)) 0 16 with
  | None => None
  | Some span =>
    let h := <[lit "traceparent" := lit "00-" ++ undashed (trace_id c) ++ [DASH] ++ span ++ lit "-01"]> ∅ in
    let h := <[lit "x-request-id" := show_rid (request_id c)]> h in
    let h := set_opt (lit "x-user-id") (user_id c) h in
    let h := set_opt (lit "x-session-id") (session_id c) h in
    Some (kmap (app BAGGAGE) (baggage c) ∪ h)
  end.

(** [parse::<i64>()] *)
Definition parse_i64 (s : bytes) : option Z :=
  match s with
  | 45 :: [] => None
  | 45 :: r => (λ n, (- Z.of_N n)%Z) <$> parse_digits 9223372036854775808 0 r
  | s => Z.of_N <$> parse_unsigned 9223372036854775807 s
  end.
(** The UUID texts rebuilt from hexadecimal digits, 249-277 *)
Definition restore_trace (hex : bytes) : option bytes :=
  if (length hex =? 32)%nat then
    match slice hex 0 8, slice hex 8 12, slice hex 12 16, slice hex 16 20, slice hex 20 32 with
    | Some a, Some b, Some c, Some d, Some e => Some (join_with [DASH] [a; b; c; d; e])
    | _, _, _, _, _ => None
    end
  else Some hex.
Definition restore_span (hex : bytes) : option bytes :=
  if (length hex =? 16)%nat then
    match slice hex 0 8, slice hex 8 12, slice hex 12 16 with
    | Some a, Some b, Some c => Some (join_with [DASH] [a; b; c; lit "0000"; lit "000000000000"])
    | _, _, _ => None
    end
  else Some hex.
(** [strip_prefix] (context.rs 300; baggage_of: 297-304) *)
Definition strip_prefix (p s : bytes) : option bytes := if starts_with p s then Some (drop (length p) s) else None.
Definition baggage_of (h : gmap bytes bytes) : gmap bytes bytes :=                                          (* 297-304 *)
  list_to_map (omap (λ kv, (λ k, (k, kv.2)) <$> strip_prefix BAGGAGE kv.1) (map_to_list h)).
(** from_headers, 241-312.  [fresh]: the random number for a request without a numeric id; [span]: the
    new span.  Outer [None]: panic. *)
Definition from_headers (fresh : Z) (span : bytes) (h : gmap bytes bytes) : option (option context) :=
  match h !! lit "traceparent" with
  | None => Some None
  | Some tp =>
    match split_on DASH tp with
    | _ :: trace :: sp :: _ :: _ =>
      match restore_trace trace, restore_span sp with
      | Some trace, Some parent =>
        let id := match h !! lit "x-request-id" with Some s => default fresh (parse_i64 s) | None => fresh end in
        Some (Some (Ctx (IdNum id) trace (Some parent) span (h !! lit "x-user-id") (h !! lit "x-session-id") None ∅ (baggage_of h)))
      | _, _ => None
      end
    | _ => Some None
    end
  end.
(** A context on its way: nested operations, and requests that carry it in headers; each makes a new
    span.  [None]: a panic, or a request that arrives without context. *)
(** No code of its own: drives child (150) and to_headers, from_headers (209-310) *)
Inductive hop := Nested (span : bytes) | Sent (fresh : Z) (span : bytes).
Definition take_hop (o : hop) (c : context) : option context :=
  match o with
  | Nested span => Some (child span c)
  | Sent fresh span => match to_headers c with Some h => mjoin (from_headers fresh span h) | None => None end
  end.
Fixpoint travel (os : list hop) (c : context) : option context :=
  match os with [] => Some c | o :: os => match take_hop o c with Some c' => travel os c' | None => None end end.
