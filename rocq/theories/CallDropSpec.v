(** Specification vocabulary for client calls that are given up. *)
From stdpp Require Import list strings.
From Verif Require Import TextLib JsonLib SerdeLib TypesModel RpcModel ServerModel ClientModel CallDropModel.

(** What the calls of a new client return, in order; the requests it sends; the messages that arrive; what it keeps track of. *)
Definition results (os : list uop) : list (rid * (rpc_response + api_error)) := (u_run (u_new client_new) os).1.
Definition after (os : list uop) : caller := (u_run (u_new client_new) os).2.
Definition requests (os : list uop) : list message := cl_sent (u_client (after os)).
Definition tracked (os : list uop) : list rid := cl_active (u_client (after os)).
Definition incoming (os : list uop) : list message := omap (λ o, match o with UArrive m => Some m | _ => None end) os.
(** A call has sent its request and waits; a call is in progress. *)
Definition waiting (os : list uop) : Prop := ∃ id, u_cur (after os) = Some (KWaiting id).
(** No call is given up once its request was sent. *)
Definition gentle (os : list uop) : Prop := ∀ os1 os2, os = os1 ++ UDrop :: os2 → ¬ waiting os1.
(** A peer that answers each request once, in order: what has arrived are the first of the replies. *)
Definition replies (ans : rid → request → rpc_response) (os : list uop) : Prop :=
  incoming os `prefix_of` ((λ m, match m with MsgRequest id r => MsgResponse (ans id r) | _ => m end) <$> requests os).
Definition id_of (m : message) : option rid := match m with MsgRequest id _ => Some id | _ => None end.
