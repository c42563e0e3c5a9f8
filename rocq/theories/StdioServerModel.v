(** A server of src/server/mod.rs on its standard streams, whatever program is at the other end.  Definitions only.
    Simplified as in StackModel.v: nothing sends notifications meanwhile, writing does not fail. *)
From stdpp Require Import gmap strings list.
From Verif Require Import TextLib JsonLib SerdeLib TypesModel RpcModel ManagersModel ServerModel StdioModel StackModel.

(** Server::run_stdio, mod.rs:331-334, when these bytes are all the other program has written: the server, and its
    transport with what it has written *)
Definition run_stdio (cf : config) (behave : list invocation → hresult) (key : list N → string) (inp : list N) : server * stdio :=
  serve cf behave key (S (length inp)) server_new (open_on inp).
