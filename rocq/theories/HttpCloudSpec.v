(** Specification vocabulary for several clients of one HTTP server. *)
From stdpp Require Import gmap strings list.
From Verif Require Import ListLib TextLib JsonLib SerdeLib TypesModel ManagersModel SseModel SseSpec HttpModel HttpClientModel HttpClientSpec RpcModel RpcSpec ServerModel ClientModel HttpStackModel HttpStackSpec HttpCloudModel.

(** A call whose message can be posted: as for C209, and the two methods that send a notification and need no
    handshake, cancel_request and send_progress. *)
Definition callable (o : cop) (id : rid) : Prop :=
  match o with
  | OCancel j => sendable (MsgNotification (NCancelled (cancel_params j)))
  | OProgress p => sendable (MsgNotification (NProgress p))
  | _ => postable o id
  end.
Definition signal (o : cop) : Prop := match o with OCancel _ | OProgress _ => True | _ => False end.
(** What happens can be used: calls that can be posted, a token where one is needed, event ids that can stand in an
    event stream. *)
Definition usable_op (tcf : nat → tconfig) (d : dop) : Prop :=
  match d with
  | DCall i o id tok _ => callable o id ∧ authorized (tcf i) tok
  | DAnswer _ _ eid => no_break eid ∧ 0%N ∉ eid
  | DReturn i tok _ => authorized (tcf i) tok
  end.
(** The session ids the HTTP server's generator has handed out or would have. *)
Definition drawn (ds : list dop) : list (list N) := concat ((λ d, match d with DCall _ _ _ _ f | DReturn _ _ f => [f] | DAnswer _ _ _ => [] end) <$> ds).
(** Every answer of the server so far can be written and read back. *)
Definition all_travel (cf : config) (behave : list invocation → hresult) (key : list N → string) (y : cloud) : Prop :=
  ∀ l1 sid id r l2 x, sx_log (cd_http y) = l1 ++ LProcessed sid id r :: l2 → (handle_request cf behave key id r (mcp cf behave key l1)).2 = Some x → sendable (MsgResponse x).
(** The MCP server, after what it has been asked so far. *)
Definition core (cf : config) (behave : list invocation → hresult) (key : list N → string) (y : cloud) : server :=
  mcp cf behave key (sx_log (cd_http y)).
(** The requests among messages, with their ids; those of a client that have been answered (its method may
    not have gone on yet); those the server has handled, and those it has handled for a session. *)
Definition asks (ms : list message) : list (rid * request) := omap (λ m, match m with MsgRequest id r => Some (id, r) | _ => None end) ms.
Definition settled_asks (p : peer) : list (rid * request) :=
  asks (cl_sent (pe_client p)) ++ match pe_job p with JAnswered o id true _ => asks (option_list (first_of (pe_client p) o id)) | _ => [] end.
Definition handled (log : list logged) : list (rid * request) := omap (λ l, match l with LProcessed _ id r => Some (id, r) | _ => None end) log.
Definition handled_for (sid : list N) (log : list logged) : list (rid * request) :=
  omap (λ l, match l with LProcessed (Some s) id r => if decide (s = sid) then Some (id, r) else None | _ => None end) log.
(** The requests of client [i] that got no answer: its calls that have failed with a transport error, and the one that is
    about to. *)
Definition lost_call (o : cop) (id : rid) (r : cresult) : option (rid * request) :=
  match o, r with OCall k p, CErr (ETransport _) => Some (id, RClient k p) | _, _ => None end.
Definition lost_job (p : peer) : list (rid * request) := match pe_job p with JAnswered (OCall k q) id false _ => [(id, RClient k q)] | _ => [] end.
Definition lost_asks (y : cloud) (i : nat) : list (rid * request) :=
  omap (λ '(j, o, id, r), if decide (j = i) then lost_call o id r else None) (cd_returned y) ++ match cd_peers y !! i with Some p => lost_job p | None => [] end.
(** Among handler calls made one after the other (after [before]): those that panicked, or those that came back. *)
Definition panics (h : hresult) : bool := match h with HPanic => true | _ => false end.
Fixpoint ended (behave : list invocation → hresult) (panicked : bool) (before calls : list invocation) : list invocation :=
  match calls with
  | [] => []
  | i :: rest => (if decide (panics (behave (before ++ [i])) = panicked) then [i] else []) ++ ended behave panicked (before ++ [i]) rest
  end.
(** The call was refused by the client itself: it is not initialized, or the server lacks the capability. *)
Definition refusal (r : cresult) : Prop := ∃ t, r = CErr (EInvalidState t) ∨ r = CErr (EUnsupported t).
