(** Specification vocabulary for the streamable HTTP server. *)
From stdpp Require Import gmap strings list.
From Verif Require Import ListLib TextLib JsonLib SerdeLib TypesModel RpcModel ServerModel HttpModel.

(** A session is live if it was opened (callback on_session_initialized) and not closed (callback
    on_session_closed) since. *)
Definition live (sid : text) (log : list logged) : Prop := ∃ l1 l2, log = l1 ++ LOpened sid :: l2 ∧ LClosed sid ∉ l2.
(** The request's headers pass, for a POST and a GET. *)
Definition mentions (what value : text) : Prop := ∃ a b, value = a ++ what ++ b.
Definition json_post (h : headers) : Prop :=
  ∃ ct ac, h_content_type h = Some ct ∧ mentions (lit "application/json") ct ∧ h_accept h = Some ac ∧ (mentions (lit "application/json") ac ∨ mentions (lit "text/event-stream") ac).
Definition sse_get (h : headers) : Prop := ∃ ac, h_accept h = Some ac ∧ mentions (lit "text/event-stream") ac.
Definition initializes (m : message) : Prop := ∃ id p, m = MsgRequest id (RClient CInitialize p).
Definition init_request (r : request) : Prop := ∃ p, r = RClient CInitialize p.
(** The session ids the generator hands out in a step. *)
Definition generated (o : hop) : list text := match o with HPost _ _ f | HGet _ f => [f] | _ => [] end.
(** The step neither deletes the session nor hands out its id again. *)
Definition spares (sid : text) (o : hop) : Prop := sid ∉ generated o ∧ ∀ h, o = HDelete h → h_session h ≠ Some sid.

(** The event store, filled by a list of store_event calls (session, event id, message). *)
Definition filled (l : list (text * text * message)) : store := fold_left (λ s x, store_event x.1.1 x.1.2 x.2 s) l store_new.

(** No GET of the history asks for a replay. *)
Definition no_replay (os : list hop) : Prop := Forall (λ o, match o with HGet h _ => h_last h = None | _ => True end) os.
(** [m] is the answer to a request processed for the session. *)
Definition answer_in (answer : list logged → rid → request → rpc_response) (log : list logged) (sid : text) (m : message) : Prop :=
  ∃ l1 id r l2, log = l1 ++ LProcessed (Some sid) id r :: l2 ∧ m = MsgResponse (answer l1 id r).
(** Nobody else gets in between: a request is answered before the next one arrives. *)
Definition post_now (h : headers) (m : message) (fresh eid1 eid2 : text) : list hop := [HPost h (Some m) fresh; HContinue 0 eid1 eid2].
Definition contents (x : stream) : list message := (st_events x).*2 ++ st_queue x.

(** *** What is put on a stream.  The states a history goes through, each with the operation that comes
    next; the answer to a request that goes to stream [n]: that of the session named by its header. *)
Fixpoint h_trace (cf : hconfig) (answer : list logged → rid → request → rpc_response) (s : hserver) (os : list hop) : list (hserver * hop) :=
  match os with [] => [] | o :: os => (s, o) :: h_trace cf answer (h_step cf answer s o).1 os end.
Definition routed (cf : hconfig) (answer : list logged → rid → request → rpc_response) (n : nat) (x : hserver * hop) : option message :=
  match x.2 with
  | HContinue i _ _ =>
    match sx_pending x.1 !! i with
    | Some (PPost (Some sid) _ id r) =>
      if negb (hc_json cf) && bool_decide (sx_streams x.1 !! sid = Some n) then Some (MsgResponse (answer (sx_log x.1) id r)) else None
    | _ => None
    end
  | _ => None
  end.
