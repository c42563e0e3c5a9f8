(** Specification vocabulary for errors. *)
From stdpp Require Import strings list.
From Verif Require Import TextLib JsonLib SerdeLib RpcModel RpcSpec ErrorsModel.

(** The message, data and code an error of the protocol was made with. *)
Definition made_of (e : api_error) : option (Z * text * option json) :=
  match e with EProtocol c m d => Some (c, m, d) | _ => None end.
(** The errors of JSON-RPC 2.0, section 5.1, and the constructors for them. *)
Definition jsonrpc_errors : list ((text → api_error) * Z) :=
  [(e_parse, -32700); (e_invalid_request, -32600); (e_method_not_found, -32601); (e_invalid_params, -32602); (e_protocol_msg, -32603)]%Z.
(** The other constructors: errors that are not the protocol's. *)
Definition other_errors : list (text → api_error) :=
  [e_validation; e_internal; e_not_found; e_authentication; e_capability; e_resource_not_found; e_cancelled].
