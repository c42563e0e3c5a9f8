(** Specification vocabulary for a server on a WebSocket connection. *)
From stdpp Require Import gmap strings list.
From Verif Require Import TextLib JsonLib SerdeLib TypesModel RpcModel ManagersModel ServerModel WsModel WsSpec WsServerModel.

Section spec.
  Context (cf : config) (behave : list invocation → hresult) (key : list N → string).
  (** The frames that were read from the peer in a history: a reader that waits or has ended reads none. *)
  Fixpoint frames_read (x : wserver) (os : list wop) : list frame :=
    match os with
    | [] => []
    | o :: os =>
      match o with
      | WRead f => match sc_reader <$> st_conns (wv_tp x) !! 0 with Some RIdle => [f] | _ => [] end
      | _ => []
      end ++ frames_read (w_step cf behave key x o) os
    end.
  (** The server after it has handled these messages one after the other, all its sends having succeeded (Server area) *)
  Definition after_all (ms : list message) : server := v_run cf behave key ((λ m, EMessage m true) <$> ms).
  (** The text frames written to the peer *)
  Definition texts_written (x : wserver) : list (list N) := match st_conns (wv_tp x) !! 0 with Some c => texts (sc_wire c) | None => [] end.
  (** The writer task still runs: the socket has taken everything *)
  Definition writable (x : wserver) : Prop := ∃ c, st_conns (wv_tp x) !! 0 = Some c ∧ sc_writer c = true.
  (** Nothing is left to be done unless the peer sends more *)
  Definition settled (x : wserver) : Prop := ∀ o, (∃ p, o = WWrite p true) ∨ o = WAgain ∨ o = WLoop → w_step cf behave key x o = x.
End spec.
