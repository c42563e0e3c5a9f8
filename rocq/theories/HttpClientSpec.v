(** Specification vocabulary for the streamable HTTP client. *)
From stdpp Require Import gmap strings list.
From Verif Require Import ListLib TextLib Utf8Lib JsonLib SerdeLib TypesModel RpcModel RpcSpec SseModel SseSpec HttpModel HttpSpec HttpClientModel.

(** Messages whose document names them unambiguously: requests of the client and those of the server the
    client has no namesake for, responses, and likewise notifications; progress and cancellations, which are
    written without a name, are told apart by their members. *)
Definition carried (m : message) : Prop :=
  match m with
  | MsgRequest i (RClient c p) => rid_ok i ∧ holds (creq_body c) p
  | MsgRequest i (RServer c p) => rid_ok i ∧ holds (sreq_body c) p ∧ c ≠ SCreateMessage
  | MsgResponse r => good_response r
  | MsgNotification (NClient c p) => holds (cnot_body c) p
  | MsgNotification (NServer c p) => holds (snot_body c) p ∧ c ∉ [SProgress; SRootsListChanged]
  | MsgNotification (NProgress p) => is_of t_progress p
  | MsgNotification (NCancelled p) => is_of t_cancelled p
  end.
(** They can be written as JSON: no code point is a surrogate, keys are distinct, nesting below 128 *)
Definition sendable (m : message) : Prop := carried m ∧ storable (message_doc m).
(** An event is the message [m], or of a type of its own. *)
Definition says (m : message) (e : sse_event) : Prop := (e_event e = None ∨ e_event e = Some (lit "message")) ∧ e_data e = show (message_doc m).
Definition other_type (e : sse_event) : Prop := ∃ t, e_event e = Some t ∧ t ≠ lit "message".
Definition reads_as (e : sse_event) (o : option message) : Prop :=
  match o with Some m => says m e ∧ sendable m | None => other_type e end.

(** *** Histories.  The states a history goes through, each with the operation that comes next *)
Fixpoint trace (cf : tconfig) (s : transport) (os : list top) : list (transport * top) :=
  match os with [] => [] | o :: os => (s, o) :: trace cf (tp_step cf s o).1 os end.
(** The exchange a reply belongs to *)
Definition waiting (s : transport) (i : nat) : option exchange := match tp_flight s !! i with Some (Some x) => Some x | _ => None end.
Definition reading (s : transport) (n : nat) : Prop := tp_streams s !! n = Some true.
Definition ok_status (z : Z) : Prop := (200 ≤ z < 300)%Z.
(** What the step sets the session id (version) to: the caller's setting, a reply's header, or nothing
    after the session was deleted. *)
Definition sets_session (x : transport * top) (v : option text) : Prop :=
  match x.2 with
  | TSetSession w => v = w
  | TReply i r _ =>
    match waiting x.1 i, r with
    | Some (XPost _), Some r => is_Some (rp_session r) ∧ v = rp_session r
    | Some (XGet _), Some r => ok_status (rp_status r) ∧ is_Some (rp_session r) ∧ v = rp_session r
    | Some XDelete, _ => v = None
    | _, _ => False
    end
  | _ => False
  end.
Definition sets_version (x : transport * top) (v : option text) : Prop :=
  match x.2 with
  | TSetVersion w => v = w
  | TReply i (Some r) _ =>
    match waiting x.1 i with
    | Some (XPost _) => is_Some (rp_version r) ∧ v = rp_version r
    | Some (XGet _) => ok_status (rp_status r) ∧ is_Some (rp_version r) ∧ v = rp_version r
    | _ => False
    end
  | _ => False
  end.
(** [v] is the latest value set in the history, or the initial one if nothing was set *)
Definition latest {A} (sets : transport * top → A → Prop) (init : A) (tr : list (transport * top)) (v : A) : Prop :=
  (v = init ∧ Forall (λ x, ∀ w, ¬ sets x w) tr) ∨
  (∃ tr1 x tr2, tr = tr1 ++ x :: tr2 ∧ sets x v ∧ Forall (λ y, ∀ w, ¬ sets y w) tr2).
(** No extra header has a name the transport uses itself *)
Definition no_clash (cf : tconfig) : Prop := Forall (λ x : text * text, x.1 ∉ [SESSION; VERSION; ACCEPT; CONTENT_TYPE; LAST_EVENT]) (tc_extra cf).
(** Operations that ask for an event stream *)
Definition asks_stream (o : top) : Prop := match o with TStart _ _ | TSend _ (Some _) _ => True | _ => False end.

(** *** With the library's own server.  What the event stream of a response contains *)
Definition stream_text (x : hresponse) : text := match hr_body x with BEvent eid m => display (event_for eid m) | _ => [] end.
(** The version header, if any, is a supported one and the one of the session, if it has one *)
Definition version_agrees (sv : hserver) (sid : text) (v : option text) : Prop :=
  match v with None => True | Some w => w ∈ supported ∧ ∀ x w', sx_sessions sv !! sid = Some x → ss_version x = Some w' → w' = w end.
(** A request can be made: the token is there if one is needed *)
Definition authorized (cf : tconfig) (tok : option text) : Prop := tc_auth cf = true → is_Some tok.
(** What a server reads of a posted document *)
Definition parsed (b : option json) : option message :=
  match b with Some d => match of_bytes (to_bytes d) with Some v => message_of_doc v | None => None end | None => None end.
(** The client posts [m] and the server at once handles what arrives: the request, the client's and the
    server's states after it, and the response. *)
Definition exchanged (cf : tconfig) (hcf : hconfig) (answer : list logged → rid → RpcModel.request → rpc_response)
  (c : transport) (sv : hserver) (m : message) (tok : option text) (fresh eid1 eid2 : text) (c' : transport) (sv' : hserver) (x : hresponse) : Prop :=
  ∃ q c1 c2 sv1,
    tp_step cf c (TSend m None tok) = (c1, None) ∧ tp_sent c1 = tp_sent c ++ [q] ∧ cr_verb q = Post ∧
    h_step hcf answer sv (HPost (seen_headers (cr_headers q)) (parsed (cr_body q)) fresh) = (sv1, None) ∧
    h_step hcf answer sv1 (HContinue (length (sx_pending sv)) eid1 eid2) = (sv', Some x) ∧
    tp_step cf c1 (TReply (length (tp_flight c)) (Some (reply_of x)) None) = (c2, Some TOk) ∧
    (tp_step cf c2 (TBody (length (tp_streams c)) (stream_text x))).1 = c'.
(** *** The streams being read.  A reply that announces an event stream and no JSON; the calls that open
    the listening stream again or close the client. *)
Definition streamed (r : reply) : Prop := ∃ ct, rp_type r = Some ct ∧ ¬ mentions (lit "application/json") ct ∧ mentions (lit "text/event-stream") ct.
Definition listens (o : top) : Prop := match o with TSend _ (Some _) _ | TStart _ _ | TClose _ => True | _ => False end.
(** The step is a reply to a request for the listening stream *)
Definition listen_reply (x : transport * top) : Prop := match x.2 with TReply i _ _ => ∃ q, waiting x.1 i = Some (XGet q) | _ => False end.
