(** What the JSON-RPC and typed-message properties talk about, independently of how messages are
    read.  [is_of] (SerdeLib) says which documents are values of a type. *)
From stdpp Require Import sets list strings.
From Verif Require Import ListLib TextLib Utf8Lib JsonLib SerdeLib TypesModel RpcModel.
Local Open Scope N_scope.

(** A RequestId::Number holds an i64. *)
Definition rid_ok (i : rid) : Prop := match i with IdNum z => (i64_min <= z <= i64_max)%Z | IdStr _ => True end.
(** A JSONRPCError's code is an i32. *)
Definition i32_ok (c : Z) : Prop := (-2147483648 <= c <= 2147483647)%Z.

(** The server-error codes that neither JSON-RPC nor this SDK names. *)
Definition unnamed_server_code (c : Z) : Prop :=
  (-32099 <= c <= -32000)%Z ∧ c ∉ [-32001; -32002; -32003; -32004]%Z.

(** Variants carry nothing (written null here) or a value of their type. *)
Definition holds (b : body) (p : json) : Prop := match b with BUnit => p = JNull | BTy t => is_of t p end.
Definition good_request (r : request) : Prop :=
  match r with RClient c p => holds (creq_body c) p | RServer s p => holds (sreq_body s) p end.
Definition good_notification (n : notification) : Prop :=
  match n with
  | NClient c p => holds (cnot_body c) p | NServer s p => holds (snot_body s) p
  | NProgress p => is_of t_progress p | NCancelled p => is_of t_cancelled p end.
Definition good_response (r : rpc_response) : Prop :=
  rid_ok (rs_id r) ∧
  match rs_payload r with PResult _ => True | PError e => i32_ok (er_code e) ∧ er_data e ≠ Some JNull end.
Definition good_message (m : message) : Prop :=
  match m with
  | MsgRequest i r => rid_ok i ∧ good_request r
  | MsgResponse r => good_response r
  | MsgNotification n => good_notification n
  end.

(** The wire method of a typed request as its type declares it. *)
Definition request_name (r : request) : list N := match r with RClient c _ => creq_tag c | RServer s _ => sreq_tag s end.

(** Requests only one of the two enums declares. *)
Definition one_sided (r : request) : Prop :=
  match r with RServer SCreateMessage _ | RServer SElicitInput _ => False | _ => True end.
(** Notifications several variants share are read as one of them. *)
Definition seen_as (n : notification) : notification :=
  match n with
  | NClient CProgress p | NServer SProgress p => NProgress p
  | NClient CCancelled p => NCancelled p
  | NServer SRootsListChanged p => NClient CRootsListChanged p
  | n => n
  end.
Definition msg_seen_as (m : message) : message :=
  match m with
  | MsgRequest i (RServer SCreateMessage p) => MsgRequest i (RClient CCreateMessage p)
  | MsgNotification n => MsgNotification (seen_as n)
  | m => m
  end.
Definition not_elicitation (m : message) : Prop :=
  match m with MsgRequest _ (RServer SElicitInput _) => False | _ => True end.

(** Where a field is looked up; two objects agreeing on a set of names. *)
Definition agree_on (names : list (list N)) (l l' : list (list N * json)) : Prop :=
  ∀ n, n ∈ names → assoc n l = assoc n l'.

(** A type that another one is made of. *)
Inductive inside : ty → ty → Prop :=
| InSelf t : inside t t
| InVec t t' : inside t t' → inside t (TVec t')
| InMap t t' : inside t t' → inside t (TMap t')
| InField t t' m fs n k : (n, (k, t')) ∈ fs → inside t t' → inside t (TStruct m fs)
| InVariant t t' tag vs v fs n k : (v, fs) ∈ vs → (n, (k, t')) ∈ fs → inside t t' → inside t (TTag tag vs)
| InNew t t' us ns n : (n, t') ∈ ns → inside t t' → inside t (TEnum us ns).
