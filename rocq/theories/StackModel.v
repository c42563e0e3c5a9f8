(** A client and a server of this library, each on a StdioTransport, connected by two pipes: the
    client of src/client/mod.rs, the message task of src/server/mod.rs:410-486 and src/shared/stdio.rs
    put together.  Each process handles what has arrived before the other goes on; the pipes neither
    lose nor change bytes. *)
From stdpp Require Import gmap strings list.
From Verif Require Import TextLib JsonLib SerdeLib TypesModel RpcModel ManagersModel ServerModel ClientModel StdioModel.

Record stack := MkStack { y_client : client; y_ct : stdio; y_server : server; y_st : stdio }.
(** Client::new on a StdioTransport, client/mod.rs:108-110; Server::run_stdio, server/mod.rs:331-334 *)
Definition stack_new : stack := MkStack client_new (open_on []) server_new (open_on []).
(** the messages one side sends, in turn, e.g. server/mod.rs:485 *)
Definition send_all (ms : list message) (t : stdio) : stdio := fold_left (λ t m, (StdioModel.send m t).2) ms t.
(** a pipe: the bytes [from] has written since [before] are there for [to] to read *)
(** No code of its own: the standard streams of src/shared/stdio.rs 142-215 connected *)
Definition pipe (before from to : stdio) : stdio :=
  {| sd_in := sd_in to ++ drop (length (sd_out before)) (sd_out from); sd_out := sd_out to; sd_closed := sd_closed to |}.

Section stack.
  Context (cf : config) (behave : list invocation → hresult) (key : list N → string).
  (** the message task, server/mod.rs:410-438, 458-486, as long as there is something to read *)
  Fixpoint serve (fuel : nat) (s : server) (t : stdio) : server * stdio :=
    match fuel, sd_in t with
    | O, _ | _, [] => (s, t)
    | S fuel, _ =>
      match StdioModel.receive t with
      | (RMsg m, t) =>
        let s' := v_step cf behave key s (EMessage m true) in
        serve fuel s' (send_all (MsgResponse <$> drop (length (sv_sent s)) (sv_sent s')) t)
      | (_, t) => (v_step cf behave key s EReceiveError, t)
      end
    end.
  (** what the client reads, client/mod.rs:1334-1337: up to the first thing that is not a message *)
  Fixpoint collect (fuel : nat) (t : stdio) : list message * stdio :=
    match fuel, sd_in t with
    | O, _ | _, [] => ([], t)
    | S fuel, _ =>
      match StdioModel.receive t with
      | (RMsg m, t) => let '(ms, t) := collect fuel t in (m :: ms, t)
      | (_, t) => ([], t)
      end
    end.
  (** messages of the client travel to the server and what it answers travels back *)
  (** src/client/mod.rs 1315-1360 and src/server/mod.rs 448-487 on src/shared/stdio.rs 73-90 *)
  Definition carry (ms : list message) (y : stack) : list message * stack :=
    let ct := send_all ms (y_ct y) in
    let st := pipe (y_ct y) ct (y_st y) in
    let '(s, st') := serve (S (length (sd_in st))) (y_server y) st in
    let ct := pipe st st' ct in
    let '(got, ct) := collect (S (length (sd_in ct))) ct in
    (got, MkStack (y_client y) ct s st').
  Definition sent_by (c c' : client) : list message := drop (length (cl_sent c)) (cl_sent c').
  (** A method of the client: what it sends first does not depend on what arrives (src/client/mod.rs 244-1264) *)
  Definition call (y : stack) (o : cop) (id : rid) : stack * cresult :=
    let c := y_client y in
    let first := take 1 (sent_by c (c_step c (MkEvent o id true [] true)).1) in
    let '(got, y) := carry first y in
    let '(c', r) := c_step c (MkEvent o id true got true) in
    let '(got, y) := carry (drop (length first) (sent_by c c')) y in
    (MkStack (deliver got c') (y_ct y) (y_server y) (y_st y), r).
  Fixpoint session (y : stack) (os : list (cop * rid)) : stack * list cresult :=
    match os with
    | [] => (y, [])
    | (o, id) :: os => let '(y, r) := call y o id in let '(y, rs) := session y os in (y, r :: rs)
    end.
End stack.
