(** The constructors and queries of Error, src/error/mod.rs.  Definitions only. *)
From stdpp Require Import strings list.
From Verif Require Import TextLib JsonLib SerdeLib TypesModel RpcModel.

(** protocol, 334-340; protocol_msg, 343-349; protocol_with_data, 390-400 *)
Definition e_protocol (code : Z) (m : text) : api_error := EProtocol code m None.
Definition e_protocol_msg (m : text) : api_error := EProtocol (-32603) m None.
Definition e_protocol_with_data (code : Z) (m : text) (d : json) : api_error := EProtocol code m (Some d).
(** validation, 433-435; internal, 461-463; not_found, 492-494; authentication, 687-689; capability, 726-728 *)
Definition e_validation (m : text) : api_error := EValidation m.
Definition e_internal (m : text) : api_error := EInternal m.
Definition e_not_found (m : text) : api_error := ENotFound m.
Definition e_authentication (m : text) : api_error := EAuthentication m.
Definition e_capability (m : text) : api_error := EUnsupported m.
(** parse, 520-526; invalid_request, 559-565; method_not_found, 597-603; invalid_params, 647-653 *)
Definition e_parse (m : text) : api_error := EProtocol (-32700) m None.
Definition e_invalid_request (m : text) : api_error := EProtocol (-32600) m None.
Definition e_method_not_found (m : text) : api_error := EProtocol (-32601) (lit "Method not found: " ++ m) None.
Definition e_invalid_params (m : text) : api_error := EProtocol (-32602) m None.
(** resource_not_found, 769-771; cancelled, 808-811 *)
Definition e_resource_not_found (uri : text) : api_error := ENotFound (lit "Resource not found: " ++ uri).
Definition e_cancelled (m : text) : api_error := EValidation (lit "Operation cancelled: " ++ m).
(** is_error_code, 881-883; error_code, 918-923 *)
Definition is_error_code (e : api_error) (c : Z) : bool := match e with EProtocol c' _ _ => (c' =? c)%Z | _ => false end.
Definition error_code (e : api_error) : option Z := match e with EProtocol c _ _ => Some c | _ => None end.
