(** pmcp-macros: what the attribute macros tool and tool_router read and generate.  The generated code names
    error variants the crate does not have (InvalidParams, ToolError, InternalError, MethodNotFound); the
    model takes them as failures.  Identifiers are ASCII. *)
From stdpp Require Import list strings.
From Verif Require Import ListLib TextLib JsonLib SerdeLib.
Local Open Scope N_scope.

(** str::find followed by slicing behind the match, pmcp-macros/src/tool_router.rs:137-138, 147-148 *)
Fixpoint after (p l : list N) : option (list N) :=
  if starts_with p l then Some (drop (length p) l) else match l with [] => None | _ :: l => after p l end.
(** the text up to the next quote, 139-141, 149-151 *)
Definition upto_quote (l : list N) : option (list N) := fst <$> split_once 34 l.
(** parse_tool_attribute, tool_router.rs:127-162, on the text of the attribute: the name, if any, and the
    description.  None: "Tool must have a description" *)
Definition parse_tool_attribute (s : list N) : option (option (list N) * list N) :=
  let description := if contains (lit "description") s then after (lit "description = """) s ≫= upto_quote else None in
  let name := if contains (lit "name") s && contains (lit "name = """) s then after (lit "name = """) s ≫= upto_quote else None in
  (λ d, (name, d)) <$> description.

(** ToolMethod, tool_router.rs:30-36, without is_async: an async method is awaited, which changes no value *)
Record tool_method := MkMethod { tm_method : list N; tm_tool : list N; tm_description : list N }.
(** collect_tool_methods, 94-115.  An item of the impl block is a method with the text of its tool attribute,
    if it has one.  None: a compile error *)
Fixpoint collect_tool_methods (items : list (list N * option (list N))) : option (list tool_method) :=
  match items with
  | [] => Some []
  | (m, None) :: items => collect_tool_methods items
  | (m, Some a) :: items =>
    match parse_tool_attribute a with
    | None => None
    | Some (name, d) => (λ ms, MkMethod m (default m name) d :: ms) <$> collect_tool_methods items
    end
  end.
(** expand_tool_router, 39-91: None is a compile error, among others of a block without tools, 56-61 *)
Definition expand_tool_router (items : list (list N * option (list N))) : option (list tool_method) :=
  match collect_tool_methods items with Some (m :: ms) => Some (m :: ms) | _ => None end.
(** The schema every tool is listed with, 175-179 and tool.rs:120-126 *)
Definition input_schema : json := JObj [(lit "type", JStr (lit "object")); (lit "properties", JObj []); (lit "required", JArr [])].
(** the generated tools(), 165-189: name, description and schema *)
Definition tools (ms : list tool_method) : list (list N * list N * json) := (λ m, (tm_tool m, tm_description m, input_schema)) <$> ms.
(** the generated handle_tool(), 192-232.  [call m args] is the method's result as JSON or its error's text.
    The arms of a match are tried in order. *)
Inductive routed_result := RValue (v : json) | RToolError (e : list N) | RUnknown.
Definition handle_tool (ms : list tool_method) (call : list N → json → json + list N) (name : list N) (args : json) : routed_result :=
  match list_find (λ m, tm_tool m = name) ms with
  | Some (_, m) => match call (tm_method m) args with inl v => RValue v | inr e => RToolError e end
  | None => RUnknown
  end.

(** ParamInfo, tool.rs:136-140; for a parameter of type Option<T> [pr_ty] is T *)
Record param := MkParam { pr_name : list N; pr_ty : ty; pr_optional : bool }.
(** Value::get (pmcp-macros/src/tool.rs 187, 193) *)
Definition get (args : json) (k : list N) : option json := match args with JObj l => assoc k l | _ => None end.
(** serde_json::from_value(..).ok() for the type of a parameter: for Option<T> null is None (pmcp-macros/src/tool.rs 188, 194) *)
Definition from_value (p : param) (v : json) : option (option json) :=
  if pr_optional p then match v with JNull => Some None | _ => Some <$> decode (pr_ty p) v end
  else Some <$> decode (pr_ty p) v.
(** generate_param_extraction, tool.rs:176-204: the arguments of the call, or the name of the parameter in
    "Missing required parameter".  None is the None of an optional parameter. *)
Fixpoint extract (ps : list param) (args : json) : list N + list (option json) :=
  match ps with
  | [] => inr []
  | p :: ps =>
    match (if pr_optional p then Some (default None (get args (pr_name p) ≫= from_value p)) else get args (pr_name p) ≫= from_value p) with
    | None => inl (pr_name p)
    | Some v => match extract ps args with inl n => inl n | inr vs => inr (v :: vs) end
    end
  end.
(** the generated handle(), tool.rs:93-107 with generate_result_conversion 207-228.  [f] is the annotated
    function: its value as JSON, or its error's text if it returns a Result *)
Inductive handled := HValue (v : json) | HMissing (n : list N) | HError (e : list N).
Definition handle (ps : list param) (f : list (option json) → json + list N) (args : json) : handled :=
  match extract ps args with
  | inl n => HMissing n
  | inr vs => match f vs with inl v => HValue v | inr e => HError e end
  end.

(** char::to_uppercase of an ASCII letter (pmcp-macros/src/tool.rs 257) *)
Definition upper (c : N) : N := if (97 <=? c) && (c <=? 122) then c - 32 else c.
(** to_pascal_case, tool.rs:251-261 *)
Definition to_pascal_case (s : list N) : list N := concat ((λ w, match w with [] => [] | c :: r => upper c :: r end) <$> split_on 95 s).
(** the name of the generated handler, tool.rs:69-72 *)
Definition handler_name (f : list N) : list N := to_pascal_case f ++ lit "ToolHandler".
