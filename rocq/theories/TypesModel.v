(** The serde-derived protocol types of src/types, as descriptions for SerdeLib.  A Rust field
    foo_bar under rename_all = "camelCase" is written fooBar here; Box and type aliases vanish. *)
From stdpp Require Import sets list strings.
From Verif Require Import ListLib TextLib JsonLib SerdeLib.
Local Open Scope N_scope.

(** No code of its own: a plain field, an Option field and a field with serde(default), as in src/types/protocol.rs 1-946 *)
Definition req (n : string) (t : ty) : list N * (fkind * ty) := (lit n, (Req, t)).
Definition opt (n : string) (t : ty) : list N * (fkind * ty) := (lit n, (Opt, t)).
Definition dflt (n : string) (d : json) (t : ty) : list N * (fkind * ty) := (lit n, (Def d, t)).
Definition struct := TStruct MapOrSeq.
(** std; src/types/jsonrpc.rs 298, src/types/protocol.rs 614 *)
Definition t_i32 : ty := TInt (-2147483648) 2147483647.
Definition t_u32 : ty := TInt 0 4294967295.
(** usize on a 64-bit target *)
Definition t_usize : ty := TInt 0 18446744073709551615.

(** src/types/jsonrpc.rs:30-35 RequestId, src/types/protocol.rs:518-523 ProgressToken *)
Definition t_request_id : ty := TStrInt (-9223372036854775808) 9223372036854775807.
Definition t_progress_token : ty := t_request_id.
(** src/types/protocol.rs:36-43 *)
Definition t_implementation : ty := struct [req "name" TStr; req "version" TStr].
(** src/types/capabilities.rs:89-153 *)
Definition t_tool_caps : ty := struct [opt "listChanged" TBool].
Definition t_prompt_caps : ty := struct [opt "listChanged" TBool].
Definition t_resource_caps : ty := struct [opt "subscribe" TBool; opt "listChanged" TBool].
Definition t_logging_caps : ty := struct [opt "levels" (TVec TStr)].
Definition t_sampling_caps : ty := struct [opt "models" (TVec TStr)].
Definition t_roots_caps : ty := struct [dflt "listChanged" (JBool false) TBool].
Definition t_completion_caps : ty := struct [].
(** src/types/capabilities.rs:23-53 *)
Definition t_client_caps : ty := struct
  [opt "tools" t_tool_caps; opt "prompts" t_prompt_caps; opt "resources" t_resource_caps;
   opt "logging" t_logging_caps; opt "sampling" t_sampling_caps; opt "roots" t_roots_caps;
   opt "experimental" (TMap TAny)].
(** src/types/capabilities.rs:56-86 *)
Definition t_server_caps : ty := struct
  [opt "tools" t_tool_caps; opt "prompts" t_prompt_caps; opt "resources" t_resource_caps;
   opt "logging" t_logging_caps; opt "completions" t_completion_caps; opt "sampling" t_sampling_caps;
   opt "experimental" (TMap TAny)].
(** src/types/protocol.rs:46-55 *)
Definition t_initialize_request : ty := struct
  [req "protocolVersion" TStr; req "capabilities" t_client_caps; req "clientInfo" t_implementation].
(** src/types/protocol.rs:61-73 *)
Definition t_initialize_result : ty := struct
  [req "protocolVersion" TStr; req "capabilities" t_server_caps; req "serverInfo" t_implementation;
   opt "instructions" TStr].
(** src/types/protocol.rs:79-85, 176-182, 287-293, 337-343 (ListTools, ListPrompts, ListResources and
    ListResourceTemplates requests have the same fields) *)
Definition t_list_request : ty := struct [opt "cursor" TStr].
(** src/types/protocol.rs:91-101 *)
Definition t_tool_info : ty := struct [req "name" TStr; opt "description" TStr; req "inputSchema" TAny].
(** src/types/protocol.rs:104-112 *)
Definition t_list_tools_result : ty := struct [req "tools" (TVec t_tool_info); opt "nextCursor" TStr].
(** src/types/protocol.rs:115-123 (Value::default() is null) *)
Definition t_call_tool_request : ty := struct [req "name" TStr; dflt "arguments" JNull TAny].
(** src/types/protocol.rs:144-173 *)
Definition t_content : ty := TTag (lit "type")
  [(lit "text", [req "text" TStr]);
   (lit "image", [req "data" TStr; req "mimeType" TStr]);
   (lit "resource", [req "uri" TStr; opt "text" TStr; opt "mimeType" TStr])].
(** src/types/protocol.rs:129-138 *)
Definition t_call_tool_result : ty := struct
  [dflt "content" (JArr []) (TVec t_content); dflt "isError" (JBool false) TBool].
(** src/types/completable.rs:90-103 *)
Definition t_completion_provider : ty := TEnum
  [lit "static"; lit "resource"; lit "tool"; lit "file"] [(lit "custom", TStr)].
(** src/types/completable.rs:78-87 *)
Definition t_completion_config : ty := TStruct Flatten [req "provider" t_completion_provider].
(** src/types/protocol.rs:202-216 *)
Definition t_prompt_argument : ty := struct
  [req "name" TStr; opt "description" TStr; dflt "required" (JBool false) TBool;
   opt "completion" t_completion_config].
(** src/types/protocol.rs:188-199 *)
Definition t_prompt_info : ty := struct
  [req "name" TStr; opt "description" TStr; opt "arguments" (TVec t_prompt_argument)].
(** src/types/protocol.rs:219-227 *)
Definition t_list_prompts_result : ty := struct [req "prompts" (TVec t_prompt_info); opt "nextCursor" TStr].
(** src/types/protocol.rs:230-238 *)
Definition t_get_prompt_request : ty := struct [req "name" TStr; dflt "arguments" (JObj []) (TMap TStr)].
(** src/types/protocol.rs:265-274 *)
Definition t_role : ty := TEnum [lit "user"; lit "assistant"; lit "system"] [].
(** src/types/protocol.rs:255-262, 655-662 (PromptMessage and SamplingMessage) *)
Definition t_message : ty := struct [req "role" t_role; req "content" t_content].
(** src/types/protocol.rs:244-252 *)
Definition t_get_prompt_result : ty := struct [opt "description" TStr; req "messages" (TVec t_message)].
(** src/types/protocol.rs:299-312 *)
Definition t_resource_info : ty := struct
  [req "uri" TStr; req "name" TStr; opt "description" TStr; opt "mimeType" TStr].
(** src/types/protocol.rs:315-323 *)
Definition t_list_resources_result : ty := struct
  [req "resources" (TVec t_resource_info); opt "nextCursor" TStr].
(** src/types/protocol.rs:326-331, 373-378, 381-386, 742-747 (ReadResource, Subscribe, Unsubscribe
    requests and ResourceUpdatedParams) *)
Definition t_uri_params : ty := struct [req "uri" TStr].
(** src/types/protocol.rs:346-359 *)
Definition t_resource_template : ty := struct
  [req "uriTemplate" TStr; req "name" TStr; opt "description" TStr; opt "mimeType" TStr].
(** src/types/protocol.rs:362-370 *)
Definition t_list_resource_templates_result : ty := struct
  [req "resourceTemplates" (TVec t_resource_template); opt "nextCursor" TStr].
(** src/types/protocol.rs:399-414 *)
Definition t_completion_reference : ty := TTag (lit "type")
  [(lit "ref/resource", [req "uri" TStr]); (lit "ref/prompt", [req "name" TStr])].
(** src/types/protocol.rs:389-396, 417-424 *)
Definition t_complete_request : ty := struct
  [req "ref" t_completion_reference; req "argument" (struct [req "name" TStr; req "value" TStr])].
(** src/types/protocol.rs:427-446 *)
Definition t_complete_result : ty := struct
  [req "completion" (struct [req "values" (TVec TStr); opt "total" t_usize; dflt "hasMore" (JBool false) TBool])].
(** src/types/protocol.rs:449-462 *)
Definition t_logging_level : ty := TEnum [lit "debug"; lit "info"; lit "warning"; lit "error"; lit "critical"] [].
(** src/types/protocol.rs:465-470 *)
Definition t_read_resource_result : ty := struct [req "contents" (TVec t_content)].
(** src/types/protocol.rs:473-497 *)
Definition t_model_preferences : ty := struct
  [opt "hints" (TVec (struct [opt "name" TStr])); opt "costPriority" TNum; opt "speedPriority" TNum;
   opt "intelligencePriority" TNum].
(** src/types/protocol.rs:500-510 *)
Definition t_progress : ty := struct
  [req "progressToken" t_progress_token; req "progress" TNum; opt "message" TStr].
(** src/types/protocol.rs:665-680 *)
Definition t_include_context : ty := TEnum [lit "all"; lit "none"; lit "thisServerOnly"] [].
(** src/types/protocol.rs:595-621 *)
Definition t_create_message : ty := struct
  [req "messages" (TVec t_message); opt "modelPreferences" t_model_preferences; opt "systemPrompt" TStr;
   dflt "includeContext" (JStr (lit "none")) t_include_context; opt "temperature" TNum;
   opt "maxTokens" t_u32; opt "stopSequences" (TVec TStr); opt "metadata" TAny].
(** src/types/protocol.rs:627-652 *)
Definition t_create_message_result : ty := struct
  [req "content" t_content; req "model" TStr;
   opt "usage" (struct [req "inputTokens" t_u32; req "outputTokens" t_u32; req "totalTokens" t_u32]);
   opt "stopReason" TStr].
(** src/types/protocol.rs:701-709 *)
Definition t_cancelled : ty := struct [req "requestId" t_request_id; opt "reason" TStr].
(** src/types/protocol.rs:750-763, 790-801 *)
Definition t_log_message : ty := struct
  [req "level" (TEnum [lit "debug"; lit "info"; lit "warning"; lit "error"] []); opt "logger" TStr;
   req "message" TStr; opt "data" TAny].
(** src/types/elicitation.rs:123-157 InputType *)
Definition t_input_type : ty := TEnum
  [lit "text"; lit "textarea"; lit "boolean"; lit "number"; lit "select"; lit "multiSelect"; lit "filePath";
   lit "directoryPath"; lit "password"; lit "date"; lit "time"; lit "dateTime"; lit "color"; lit "url"; lit "email"] [].
(** src/types/elicitation.rs:188-204 SelectOption, 159-186 InputValidation *)
Definition t_select_option : ty := struct
  [req "value" TAny; req "label" TStr; opt "description" TStr; dflt "disabled" (JBool false) TBool].
Definition t_input_validation : ty := struct
  [dflt "required" (JBool false) TBool; opt "min" TNum; opt "max" TNum; opt "pattern" TStr;
   opt "options" (TVec t_select_option); opt "message" TStr].
(** src/types/elicitation.rs:93-119 ElicitInputRequest *)
Definition t_elicit_request : ty := TStruct Flatten
  [req "elicitationId" TStr; req "inputType" t_input_type; req "prompt" TStr; opt "description" TStr;
   opt "default" TAny; opt "validation" t_input_validation].
(** src/types/elicitation.rs:207-222 ElicitInputResponse *)
Definition t_elicit_response : ty := struct
  [req "elicitationId" TStr; opt "value" TAny; dflt "cancelled" (JBool false) TBool; opt "error" TStr].
(** src/types/completable.rs:58-75, 106-157 *)
Definition t_completable_argument : ty := struct
  [req "name" TStr; opt "description" TStr; dflt "required" (JBool false) TBool; opt "completion" t_completion_config].
Definition t_completion_request : ty := struct
  [req "argument" TStr; req "partial" TStr; req "context" (TMap TStr)].
Definition t_completion_item : ty := TStruct Flatten
  [req "value" TStr; opt "label" TStr; opt "description" TStr; opt "icon" TStr].
Definition t_completion_response : ty := struct
  [req "completions" (TVec t_completion_item); dflt "hasMore" (JBool false) TBool; opt "continuationToken" TStr].

(** Every request, notification and result type of the protocol (src/types/protocol.rs 1-946) *)
Definition protocol_types : list ty :=
  [t_request_id; t_progress_token; t_implementation; t_tool_caps; t_prompt_caps; t_resource_caps; t_logging_caps;
   t_sampling_caps; t_roots_caps; t_completion_caps; t_client_caps; t_server_caps; t_initialize_request;
   t_initialize_result; t_list_request; t_tool_info; t_list_tools_result; t_call_tool_request; t_content;
   t_call_tool_result; t_completion_provider; t_completion_config; t_prompt_argument; t_prompt_info;
   t_list_prompts_result; t_get_prompt_request; t_role; t_message; t_get_prompt_result; t_resource_info;
   t_list_resources_result; t_uri_params; t_resource_template; t_list_resource_templates_result;
   t_completion_reference; t_complete_request; t_complete_result; t_logging_level; t_read_resource_result;
   t_model_preferences; t_progress; t_include_context; t_create_message; t_create_message_result; t_cancelled;
   t_log_message; t_input_type; t_select_option; t_input_validation; t_elicit_request; t_elicit_response;
   t_completable_argument; t_completion_request; t_completion_item; t_completion_response].
