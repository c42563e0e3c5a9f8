(** Closing the transport of one of several clients of an HTTP server: close of
    src/shared/streamable_http.rs and handle_delete_session of src/server/streamable_http_server.rs put
    together, in the setting of HttpCloudModel.v.  HTTP neither loses nor changes anything. *)
From stdpp Require Import gmap strings list.
From Verif Require Import ListLib TextLib JsonLib SerdeLib TypesModel ManagersModel SseModel HttpModel HttpClientModel HttpClientSpec RpcModel ServerModel ClientModel HttpStackModel HttpCloudModel.

Section close.
  Context (cf : config) (behave : list invocation → hresult) (key : list N → string) (tcf : nat → tconfig) (hcf : hconfig).
  (** Transport::close, streamable_http.rs:451-477, called on a clone of the transport of client [i] (clones share
      everything, 120-140): the request up to the server, streamable_http_server.rs:798-833, and its reply *)
  Definition d_close (i : nat) (tok : option (list N)) (y : cloud) : cloud :=
    match cd_peers y !! i with
    | None => y
    | Some (MkPeer c t j) =>
      match tp_step (tcf i) t (TClose tok) with
      | (t1, Some _) => put i (MkPeer c t1 j) (cd_http y) (cd_waiting y) y
      | (t1, None) =>
        match last (tp_sent t1) with
        | None => put i (MkPeer c t1 j) (cd_http y) (cd_waiting y) y
        | Some q =>
          match h_step hcf (answer cf behave key) (cd_http y) (HDelete (seen_headers (cr_headers q))) with
          | (v, None) => put i (MkPeer c t1 j) v (cd_waiting y) y
          | (v, Some x) => put i (MkPeer c (tp_step (tcf i) t1 (TReply (length (tp_flight t)) (Some (reply_of x)) None)).1 j) v (cd_waiting y) y
          end
        end
      end
    end.
End close.
(** Is it client [i] that does this? (no code of its own) *)
Definition done_by (i : nat) (d : dop) : bool := match d with DCall j _ _ _ _ | DReturn j _ _ => bool_decide (j = i) | DAnswer _ _ _ => false end.
