(** C21, C22, C26, C74–C78: JSON-RPC ids, errors, envelopes and typed messages. *)
From stdpp Require Import sets list strings.
From Verif Require Import ListLib TextLib Utf8Lib JsonLib SerdeLib TypesModel RpcModel RpcSpec RpcProofs.
Local Open Scope N_scope.

(** ** C21: ids *)
(** Distinct strings, distinct i64 and distinct u64 up to i64::MAX give distinct ids, and a number is
    never a string.  Missing from the full statement: u64 above i64::MAX. *)
Theorem C21_distinct_partial :
  (∀ a b, rid_of_str a = rid_of_str b → a = b) ∧
  (∀ a b, rid_of_i64 a = rid_of_i64 b → a = b) ∧
  (∀ a b, (Z.of_N a <= i64_max)%Z → (Z.of_N b <= i64_max)%Z → rid_of_u64 a = rid_of_u64 b → a = b) ∧
  (∀ s z n, rid_of_str s ≠ rid_of_i64 z ∧ rid_of_str s ≠ rid_of_u64 n).
Proof.
  split; [by intros ? ? [= ->]|]. split; [by intros ? ? [= ->]|]. split; [exact rid_u64_inj|done].
Qed.
Print Assumptions C21_distinct_partial.
(** Every id survives being written as JSON and read back. *)
Theorem C21_survives : ∀ i, rid_ok i → storable (rid_json i) →
  of_bytes (to_bytes (rid_json i)) ≫= rid_of_json = Some i.
Proof. intros i H1 H2. rewrite of_to_bytes by done. by apply rid_roundtrip. Qed.
Print Assumptions C21_survives.
(** All u64 from i64::MAX up give the same id. *)
Theorem C21_saturates_refuted : ∀ a b, (i64_max <= Z.of_N a)%Z → (i64_max <= Z.of_N b)%Z → rid_of_u64 a = rid_of_u64 b.
Proof. intros a b Ha Hb. by rewrite !rid_u64_clash. Qed.
Print Assumptions C21_saturates_refuted.
(** Displayed ids (the keys of the cancellation and progress maps) do not tell a number from its digits. *)
Theorem C21_display_refuted : ∀ z, IdNum z ≠ IdStr (show_Z z) ∧ rid_show (IdNum z) = rid_show (IdStr (show_Z z)).
Proof. done. Qed.
Print Assumptions C21_display_refuted.
Example C21_example :
  rid_ok (IdNum (-7)) ∧ storable (rid_json (IdNum (-7))) ∧ to_bytes (rid_json (IdStr (lit "a""b"))) = lit """a\""b"""
  ∧ rid_of_u64 9223372036854775808 = rid_of_u64 18446744073709551615.
Proof. repeat split; (by vm_compute) || (cbn; lia) || constructor. Qed.

(** ** C22: error codes *)
(** A protocol error comes back unchanged exactly if its code is not an unnamed server-error code. *)
Theorem C22_roundtrip_partial : ∀ c m d,
  of_rpc_error (to_rpc_error (EProtocol c m d)) = EProtocol c m d ↔ ¬ unnamed_server_code c.
Proof. exact api_error_roundtrip. Qed.
Print Assumptions C22_roundtrip_partial.
(** Every unnamed server-error code comes back as -32603. *)
Theorem C22_server_codes_refuted : ∀ c m d, unnamed_server_code c →
  of_rpc_error (to_rpc_error (EProtocol c m d)) = EProtocol (-32603) m d ∧ c ≠ (-32603)%Z.
Proof.
  intros c m d [Hr Hn]. rewrite !not_elem_of_cons in Hn. split; [|lia]. cbn. unfold of_rpc_error, code_of_i32, standard_code, mcp_code, server_range. cbn.
  rewrite !bool_decide_eq_false_2 by lia. cbn.
  by assert (((-32099 <=? c) && (c <=? -32000))%Z = true) as -> by lia.
Qed.
Print Assumptions C22_server_codes_refuted.
(** Every other kind of error comes back as an internal protocol error carrying its text. *)
Theorem C22_other_kinds_refuted : ∀ e, (∀ c m d, e ≠ EProtocol c m d) →
  of_rpc_error (to_rpc_error e) = EProtocol (-32603) (error_display e) None ∧ of_rpc_error (to_rpc_error e) ≠ e.
Proof. intros e He. destruct e; try by destruct (He code msg data). all: done. Qed.
Print Assumptions C22_other_kinds_refuted.
Example C22_example :
  of_rpc_error (to_rpc_error (EProtocol (-32001) (lit "late") (Some (JInt 3)))) = EProtocol (-32001) (lit "late") (Some (JInt 3))
  ∧ of_rpc_error (to_rpc_error (EProtocol (-32050) (lit "busy") None)) = EProtocol (-32603) (lit "busy") None
  ∧ of_rpc_error (to_rpc_error (ETimeout 30)) = EProtocol (-32603) (lit "Request timed out after 30ms") None.
Proof. by vm_compute. Qed.

(** ** C74: envelopes survive the wire *)
Theorem C74_request_partial : ∀ q, rid_ok (rq_id q) → rq_params q ≠ Some JNull → storable (request_json q) →
  of_bytes (to_bytes (request_json q)) ≫= request_of_json = Some q.
Proof. intros q ? ? ?. rewrite of_to_bytes by done. by apply request_roundtrip. Qed.
Print Assumptions C74_request_partial.
Theorem C74_notification_partial : ∀ n, rn_params n ≠ Some JNull → storable (notification_json n) →
  of_bytes (to_bytes (notification_json n)) ≫= notification_of_json = Some n.
Proof. intros q ? ?. rewrite of_to_bytes by done. by apply notification_roundtrip. Qed.
Print Assumptions C74_notification_partial.
(** Results may be anything, null included. *)
Theorem C74_response_partial : ∀ r, good_response r → storable (response_json r) →
  of_bytes (to_bytes (response_json r)) ≫= response_of_json = Some r.
Proof. intros q ? ?. rewrite of_to_bytes by done. by apply response_roundtrip. Qed.
Print Assumptions C74_response_partial.
(** Explicit null parameters and null error data are lost. *)
Theorem C74_null_refuted :
  (∀ j i m, rid_ok i → request_of_json (request_json {| rq_jsonrpc := j; rq_id := i; rq_method := m; rq_params := Some JNull |})
            = Some {| rq_jsonrpc := j; rq_id := i; rq_method := m; rq_params := None |}) ∧
  (∀ c m, i32_ok c → error_of_json (error_json {| er_code := c; er_message := m; er_data := Some JNull |})
            = Some {| er_code := c; er_message := m; er_data := None |}).
Proof. exact (conj request_null_params error_null_data). Qed.
Print Assumptions C74_null_refuted.
Definition example_request : rpc_request :=
  new_request (IdNum 1) (lit "tools/call") (Some (JObj [(lit "name", JStr (lit "x""y")); (lit "arguments", JArr [JNull; JInt (-4)])])).
Example C74_example : rid_ok (rq_id example_request) ∧ rq_params example_request ≠ Some JNull ∧ storable (request_json example_request) ∧
  to_bytes (request_json example_request) = lit "{""jsonrpc"":""2.0"",""id"":1,""method"":""tools/call"",""params"":{""name"":""x\""y"",""arguments"":[null,-4]}}".
Proof.
  split; [cbn; unfold i64_min, i64_max; lia|]. split; [done|]. split; [|by vm_compute].
  split; [cbn; lia|]. split; [|split; [|cbn; lia]].
  - cbn. repeat split; apply nodupb_NoDup; by vm_compute.
  - cbn. repeat split; repeat constructor; unfold scalar; lia.
Qed.

(** ** C75: classification of raw messages *)
Theorem C75_classify_partial :
  (∀ q, rid_ok (rq_id q) → classify (request_json q) = Some MRequest) ∧
  (∀ n, classify (notification_json n) = Some MNotification) ∧
  (∀ r, good_response r → rs_payload r ≠ PResult JNull →
     classify (response_json r) = Some (match rs_payload r with PResult _ => MResponse | PError _ => MErrorResponse end)).
Proof. exact (conj classify_request (conj classify_notification classify_response)). Qed.
Print Assumptions C75_classify_partial.
Theorem C75_null_result_refuted : ∀ i, rid_ok i → classify (response_json (success i JNull)) = Some MInvalid.
Proof. intros i. apply classify_null_result. Qed.
Print Assumptions C75_null_result_refuted.
Example C75_example :
  classify (response_json (failure (IdStr (lit "q")) {| er_code := -32601; er_message := lit "no"; er_data := Some (JBool true) |})) = Some MErrorResponse
  ∧ classify (JObj [(lit "jsonrpc", JStr (lit "2.0"))]) = Some MInvalid ∧ classify (JObj []) = None.
Proof. by vm_compute. Qed.

(** ** C76: every protocol type survives JSON *)
Theorem C76_roundtrip_partial : ∀ t v, t ∈ protocol_types → is_of t v → storable v →
  of_bytes (to_bytes v) ≫= decode t = Some v.
Proof. exact types_roundtrip. Qed.
Print Assumptions C76_roundtrip_partial.
(** Only values of the type are accepted. *)
Theorem C76_sound : ∀ t v w, t ∈ protocol_types → keys_ok v → decode t v = Some w → is_of t w.
Proof. exact types_sound. Qed.
Print Assumptions C76_sound.
(** Neither the order of fields nor unknown fields matter. *)
Theorem C76_fields : ∀ fs l l', agree_on fs.*1 l l' → decode (struct fs) (JObj l) = decode (struct fs) (JObj l').
Proof. exact struct_agree. Qed.
Print Assumptions C76_fields.
(** A present null value in an optional field is lost. *)
Theorem C76_null_option_refuted : ∀ m,
  decode t_log_message (JObj [(lit "level", JStr (lit "info")); (lit "message", JStr m); (lit "data", JNull)])
  = Some (JObj [(lit "level", JStr (lit "info")); (lit "message", JStr m)]).
Proof. done. Qed.
Print Assumptions C76_null_option_refuted.
(** A flag that may be left out counts as false. *)
Theorem C76_flags : ∀ t m fs n d l, t ∈ protocol_types → inside (TStruct m fs) t → (n, (Def d, TBool)) ∈ fs → assoc n l = None →
  decode (TStruct m fs) (JObj l) = decode (TStruct m fs) (JObj ((n, JBool false) :: l)).
Proof. exact flag_left_out. Qed.
Print Assumptions C76_flags.
(** Sampling parameters without includeContext ask for none. *)
Theorem C76_context : ∀ l, assoc (lit "includeContext") l = None →
  decode t_create_message (JObj l) = decode t_create_message (JObj ((lit "includeContext", JStr (lit "none")) :: l)).
Proof. exact context_left_out. Qed.
Print Assumptions C76_context.
(** Exactly the numbers of the field's Rust type are accepted. *)
Theorem C76_numbers : ∀ z : Z, let ok t l := is_Some (decode t (JObj l)) in
  (ok t_complete_result [(lit "completion", JObj [(lit "values", JArr []); (lit "total", JInt z)])] ↔ (0 <= z < 2 ^ 64)%Z) ∧
  (ok t_create_message [(lit "messages", JArr []); (lit "maxTokens", JInt z)] ↔ (0 <= z < 2 ^ 32)%Z) ∧
  (ok t_cancelled [(lit "requestId", JInt z)] ↔ (- 2 ^ 63 <= z < 2 ^ 63)%Z) ∧
  (ok t_progress [(lit "progressToken", JInt z); (lit "progress", JInt 1)] ↔ (- 2 ^ 63 <= z < 2 ^ 63)%Z) ∧
  (ok t_rpc_error [(lit "code", JInt z); (lit "message", JStr [])] ↔ (- 2 ^ 31 <= z < 2 ^ 31)%Z).
Proof.
  intros z ok. unfold ok.
  split; [|split; [|split; [|split]]]; lazy beta iota zeta delta -[Z.leb Z.le Z.lt is_Some];
  repeat match goal with |- context [(?a <=? ?b)%Z] => destruct (Z.leb_spec a b) end; (split; intros H1; [|first [lia|by eexists]]); first [lia|by destruct H1].
Qed.
Print Assumptions C76_numbers.
Definition example_progress : json :=
  JObj [(lit "progressToken", JStr (lit "t")); (lit "progress", JFloat (lit "0.5"))].
Example C76_example : t_progress ∈ protocol_types ∧ is_of t_progress example_progress ∧ storable example_progress ∧
  decode t_progress (JObj [(lit "extra", JNull); (lit "progress", JFloat (lit "0.5")); (lit "progressToken", JStr (lit "t")); (lit "message", JNull)])
  = Some example_progress ∧
  decode t_content (JObj [(lit "text", JStr (lit "hi")); (lit "type", JStr (lit "text"))])
  = Some (JObj [(lit "type", JStr (lit "text")); (lit "text", JStr (lit "hi"))]) ∧
  decode t_content (JObj [(lit "text", JStr (lit "hi")); (lit "type", JStr (lit "image"))]) = None.
Proof.
  split. { unfold protocol_types. repeat (first [apply elem_of_list_here | apply elem_of_list_further]). }
  split. { exists [(lit "progressToken", JStr (lit "t")); (lit "progress", JFloat (lit "0.5"))], []. split; [done|]. split; [|done].
    cbn. eexists _, _. split; [done|]. split; [eauto|]. eexists _, _. split; [done|]. split; [eauto|]. by left. }
  split; [|by vm_compute].
  split; [by cbn|]. split; [|split; [|cbn; lia]].
  - cbn. repeat split; apply nodupb_NoDup; by vm_compute.
  - cbn. repeat split; repeat constructor; unfold scalar; lia.
Qed.

(** ** C26: typed requests and notifications survive the wire *)
(** Missing: the server-side sampling and elicitation requests, refuted below. *)
Theorem C26_request_partial : ∀ id r, good_request r → one_sided r → parse_request (create_request id r) = Some (id, r).
Proof. exact request_back. Qed.
Print Assumptions C26_request_partial.
(** What is accepted has the id and the method of the message and a well-typed body. *)
Theorem C26_only : ∀ q id r, (∀ p, rq_params q = Some p → keys_ok p) → parse_request q = Some (id, r) →
  id = rq_id q ∧ good_request r ∧ rq_method q = request_name r.
Proof. exact request_sound. Qed.
Print Assumptions C26_only.
(** No two different requests share a method, but for sampling/createMessage. *)
Theorem C26_methods_distinct : ∀ r1 r2, request_name r1 = request_name r2 →
  match r1, r2 with
  | RClient a _, RClient b _ => a = b
  | RServer a _, RServer b _ => a = b
  | RClient a _, RServer b _ => a = CCreateMessage ∧ b = SCreateMessage
  | RServer a _, RClient b _ => a = SCreateMessage ∧ b = CCreateMessage
  end.
Proof. exact request_names_distinct. Qed.
Print Assumptions C26_methods_distinct.
(** No elicitation request is ever read back: it is sent under a method the reader does not know. *)
Theorem C26_elicit_refuted : ∀ id p, parse_request (create_request id (RServer SElicitInput p)) = None.
Proof. exact elicit_lost. Qed.
Print Assumptions C26_elicit_refuted.
(** A server's sampling request is read as a client's. *)
Theorem C26_sampling_refuted : ∀ id p, is_of t_create_message p →
  parse_request (create_request id (RServer SCreateMessage p)) = Some (id, RClient CCreateMessage p).
Proof. exact create_message_back. Qed.
Print Assumptions C26_sampling_refuted.
(** Every notification is read back, as [seen_as] says: unchanged but for the variants that share a
    method with another one. *)
Theorem C26_notification_partial : ∀ n, good_notification n →
  parse_notification (notification_json (create_notification n)) = Some (seen_as n).
Proof. exact notification_back. Qed.
Print Assumptions C26_notification_partial.
Example C26_example :
  let r := RClient CCallTool (JObj [(lit "name", JStr (lit "add")); (lit "arguments", JObj [(lit "a", JInt 1)])]) in
  good_request r ∧ one_sided r ∧ parse_request (create_request (IdNum 4) r) = Some (IdNum 4, r) ∧
  good_notification (NServer SToolsChanged JNull) ∧ seen_as (NServer SToolsChanged JNull) = NServer SToolsChanged JNull.
Proof.
  cbn zeta. split; [|split; [done|split; [by vm_compute|done]]].
  exists [(lit "name", JStr (lit "add")); (lit "arguments", JObj [(lit "a", JInt 1)])], []. split; [done|]. split; [|done].
  cbn. eexists _, _. split; [done|]. split; [eauto|]. eexists _, _. done.
Qed.

(** ** C77: parameters may be omitted where all of them are optional *)
(** An object is accepted whatever else it contains; missing: no parameters at all. *)
Theorem C77_list_params_partial : ∀ id c l v, creq_body c = BTy t_list_request →
  assoc (lit "cursor") l = v → (v = None ∨ v = Some JNull ∨ ∃ s, v = Some (JStr s)) →
  parse_request (new_request id (creq_tag c) (Some (JObj l)))
  = Some (id, RClient c (JObj (match v with Some (JStr s) => [(lit "cursor", JStr s)] | _ => [] end))).
Proof. exact list_params. Qed.
Print Assumptions C77_list_params_partial.
(** Every request with a parameter type is rejected as an unknown method when it has no parameters. *)
Theorem C77_omitted_refuted : ∀ id c t, creq_body c = BTy t → parse_request (new_request id (creq_tag c) None) = None.
Proof. exact params_omitted. Qed.
Print Assumptions C77_omitted_refuted.
(** A ping with parameters, even an empty object, is rejected. *)
Theorem C77_ping_refuted : ∀ id p, p ≠ JNull → parse_request (new_request id (creq_tag CPing) (Some p)) = None.
Proof. exact ping_params. Qed.
Print Assumptions C77_ping_refuted.
Example C77_example :
  creq_body CListTools = BTy t_list_request ∧
  parse_request (new_request (IdNum 1) (lit "tools/list") None) = None ∧
  parse_request (new_request (IdNum 1) (lit "tools/list") (Some (JObj []))) = Some (IdNum 1, RClient CListTools (JObj [])) ∧
  parse_request (new_request (IdNum 1) (lit "ping") (Some (JObj []))) = None.
Proof. by vm_compute. Qed.

(** ** C78: messages survive the stdio transport *)
Theorem C78_message_partial : ∀ m, good_message m → not_elicitation m → storable (message_json m) →
  parse_message (serialize_message m) = Some (msg_seen_as m).
Proof. exact message_bytes. Qed.
Print Assumptions C78_message_partial.
Theorem C78_elicitation_refuted : ∀ i p, rid_ok i → is_of t_elicit_request p →
  storable (message_json (MsgRequest i (RServer SElicitInput p))) →
  parse_message (serialize_message (MsgRequest i (RServer SElicitInput p))) = None.
Proof. exact elicitation_message_lost. Qed.
Print Assumptions C78_elicitation_refuted.
Example C78_example :
  let m := MsgResponse (success (IdNum 2) (JObj [(lit "content", JArr [])])) in
  good_message m ∧ not_elicitation m ∧ msg_seen_as m = m ∧ storable (message_json m) ∧
  parse_message (lit "{ ""id"":5, ""method"":""ping"" }") = None ∧
  parse_message (lit "{ ""id"":5, ""method"":""ping"", ""jsonrpc"":""1.0"" }") = Some (MsgRequest (IdNum 5) (RClient CPing JNull)).
Proof.
  cbn zeta. split; [cbn; unfold good_response; cbn; unfold i64_min, i64_max; lia|].
  split; [done|]. split; [done|]. split; [|by vm_compute].
  split; [cbn; lia|]. split; [|split; [|cbn; lia]].
  - cbn. repeat split; apply nodupb_NoDup; by vm_compute.
  - cbn. repeat split; repeat constructor; unfold scalar; lia.
Qed.

(** ** C79: the protocol version is checked *)
(** [validate] accepts exactly version 2.0 … *)
Theorem C79_validate_partial : ∀ q, request_valid q = true ↔ rq_jsonrpc q = lit "2.0".
Proof. intros q. unfold request_valid. apply bool_decide_eq_true. Qed.
Print Assumptions C79_validate_partial.
(** … but nothing calls it: requests and responses are received alike whatever their version. *)
Theorem C79_unchecked_refuted : ∀ j,
  (∀ q, rid_ok (rq_id q) → rq_params q ≠ Some JNull →
     message_of_json (request_json {| rq_jsonrpc := j; rq_id := rq_id q; rq_method := rq_method q; rq_params := rq_params q |})
     = message_of_json (request_json q)) ∧
  (∀ r, good_response r →
     message_of_json (response_json {| rs_jsonrpc := j; rs_id := rs_id r; rs_payload := rs_payload r |})
     = Some (MsgResponse {| rs_jsonrpc := j; rs_id := rs_id r; rs_payload := rs_payload r |})).
Proof. exact version_unchecked. Qed.
Print Assumptions C79_unchecked_refuted.
Example C79_example : request_valid example_request = true ∧
  message_of_json (JObj [(lit "jsonrpc", JStr (lit "1.0")); (lit "id", JInt 1); (lit "method", JStr (lit "ping"))]) = Some (MsgRequest (IdNum 1) (RClient CPing JNull)).
Proof. by vm_compute. Qed.
