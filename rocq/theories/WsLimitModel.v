(** The limits of the WebSocket server transport: src/server/transport/websocket.rs 14-36, 60-97, 262-311.  Definitions only.
    What tokio-tungstenite (not in /repo) does with the bytes of a connection is written down here: the frames of a text
    message are put together, and the first frame that breaks a limit is an error, after which nothing is read. *)
From stdpp Require Import list.
From Verif Require Import Utf8Lib TextLib JsonLib RpcModel WsModel.
Local Open Scope N_scope.

(** WebSocketServerConfig, 14-25, without the address, and its default, 27-36 *)
Record wconf := MkWConf { wc_frame : option N; wc_message : option N; wc_unmasked : bool }.
Definition wconf_default : wconf := MkWConf (Some (64 * 1024 * 1024)) (Some (64 * 1024 * 1024)) false.
(** WebSocketServerBuilder, 262-304 *)
Inductive wbop := WFrame (n : N) | WMessage (n : N) | WUnmasked (b : bool).
Definition wb_step (c : wconf) (o : wbop) : wconf :=
  match o with
  | WFrame n => MkWConf (Some n) (wc_message c) (wc_unmasked c)          (* 283-286 *)
  | WMessage n => MkWConf (wc_frame c) (Some n) (wc_unmasked c)          (* 289-292 *)
  | WUnmasked b => MkWConf (wc_frame c) (wc_message c) b                 (* 295-298 *)
  end.
Definition wb_build (os : list wbop) : wconf := fold_left wb_step os wconf_default.
(** accept_async without a configuration, 93: the defaults of tungstenite's WebSocketConfig *)
Definition tungstenite_default : wconf := MkWConf (Some (16 * 1024 * 1024)) (Some (64 * 1024 * 1024)) false.

(** A frame of a text message as the peer writes it (tungstenite; read by the loop of src/server/transport/websocket.rs 154) *)
Record raw := MkRaw { rw_masked : bool; rw_last : bool; rw_bytes : list N }.
Definition over (n : nat) (limit : option N) : bool := match limit with Some l => l <? N.of_nat n | None => false end.
(** What ws_stream.next() gives for such frames, 154; [acc] is the message read so far *)
Fixpoint assemble (c : wconf) (acc : list N) (rs : list raw) : list frame :=
  match rs with
  | [] => []
  | r :: rs =>
    if negb (rw_masked r) && negb (wc_unmasked c) then [FError]
    else if over (length (rw_bytes r)) (wc_frame c) then [FError]
    else if over (length acc + length (rw_bytes r)) (wc_message c) then [FError]
    else if rw_last r then
      match utf8_decode (acc ++ rw_bytes r) with
      | Some _ => FText (acc ++ rw_bytes r) :: assemble c [] rs
      | None => [FError]
      end
    else assemble c (acc ++ rw_bytes r) rs
  end.
(** A transport with the configuration [c] after accept, 79-97, and the reader task's rounds, 153-195: the configuration
    is not passed on. *)
Definition serve_raw (c : wconf) (rs : list raw) : sconn := fold_left (λ k f, read_frame f k) (assemble tungstenite_default [] rs) conn_new.
