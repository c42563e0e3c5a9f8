(** Specification vocabulary for a server on its standard streams. *)
From stdpp Require Import gmap strings list.
From Verif Require Import TextLib JsonLib SerdeLib TypesModel RpcModel ManagersModel ServerModel StdioModel StdioServerModel.

Section spec.
  Context (cf : config) (behave : list invocation → hresult) (key : list N → string).
  (** The server after it has handled these messages one after the other (Server area) *)
  Definition after_all (ms : list message) : server := v_run cf behave key ((λ m, EMessage m true) <$> ms).
  (** What it wrote and the handlers it called *)
  Definition written (inp : list N) : list N := sd_out (run_stdio cf behave key inp).2.
  Definition called (inp : list N) : list invocation := sv_calls (run_stdio cf behave key inp).1.
End spec.
(** The answers as bytes *)
Definition frames_of (rs : list rpc_response) : list N := concat ((λ r, frame (serialize_message (MsgResponse r))) <$> rs).
(** These are the messages at the beginning of the input, up to the first thing that is none; [t] is what is left. *)
Definition begins_with (inp : list N) (ms : list message) (t : stdio) : Prop :=
  srun (open_on inp) (replicate (length ms) Receive) = ((λ m, Got (RMsg m)) <$> ms, t) ∧ (sd_in t = [] ∨ ∀ m, (receive t).1 ≠ RMsg m).
(** The methods of the protocol *)
Definition known_methods : list (list N) := (creq_tag <$> creqs) ++ (sreq_tag <$> sreqs).
