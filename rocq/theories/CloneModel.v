(** Clones of a client, and the options a client is built with: src/client/mod.rs 85-98, 194-213, 1390-1455.
    Definitions only. *)
From stdpp Require Import list strings.
From Verif Require Import TextLib JsonLib SerdeLib TypesModel RpcModel ServerModel ClientModel.

(** What a client has for itself; transport, protocol and active_requests are behind an Arc and shared (85-98, 1438-1453).
    Left out: instructions and notification_tx, which no method reads; info, which a clone keeps and OInitialize carries. *)
Record own := MkOwn { o_caps : option json; o_server : option json; o_version : option json; o_initialized : bool }.
Record link := MkLink { k_active : list rid; k_sent : list message; k_in : list message; k_got : list (rid * message) }.
Definition own_of (c : client) : own := MkOwn (cl_caps c) (cl_server c) (cl_version c) (cl_initialized c).
Definition link_of (c : client) : link := MkLink (cl_active c) (cl_sent c) (cl_in c) (cl_got c).
Definition joined (o : own) (k : link) : client :=
  MkClient (o_caps o) (o_server o) (o_version o) (o_initialized o) (k_active k) (k_sent k) (k_in k) (k_got k).
(** The clients made from one by cloning, in the order in which they were made *)
Record clones := MkClones { ns_link : link; ns_own : list own }.
Inductive nop := NCall (i : nat) (e : cevent) | NClone (i : nat).
Definition clones_new : clones := MkClones (link_of client_new) [own_of client_new].
(** Clone::clone, 1438-1453; a method of a clone is that of a client with its own fields and the shared ones.  Simplified:
    methods run one at a time (for overlapping ones see C43). *)
Definition n_step (s : clones) (o : nop) : clones * option cresult :=
  match o with
  | NClone i => match ns_own s !! i with Some w => (MkClones (ns_link s) (ns_own s ++ [w]), None) | None => (s, None) end
  | NCall i e =>
    match ns_own s !! i with
    | Some w => let '(c, r) := c_step (joined w (ns_link s)) e in (MkClones (link_of c) (<[i := own_of c]> (ns_own s)), Some r)
    | None => (s, None)
    end
  end.
Definition n_run (os : list nop) : clones := fold_left (λ s o, (n_step s o).1) os clones_new.

(** ProtocolOptions, src/shared/protocol.rs 15-32, and ClientBuilder, src/client/mod.rs 1404-1436 *)
Record options := MkOptions { op_strict : bool; op_debounced : list (list N) }.
Inductive bcall := BStrict (b : bool) | BDebounced (l : list (list N)).
Definition b_step (o : options) (c : bcall) : options :=
  match c with BStrict b => MkOptions b (op_debounced o) | BDebounced l => MkOptions (op_strict o) l end.
Definition build_options (bs : list bcall) : options := fold_left b_step bs (MkOptions false []).
(** build, 1426-1435, and with_options, 194-213: the options go into the protocol, which does not look at them
    (src/shared/protocol.rs 129-256) *)
Definition build_client (bs : list bcall) : options * client := (build_options bs, client_new).
