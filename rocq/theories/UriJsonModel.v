(** URI templates in JSON: src/shared/uri_template.rs 20-50, 118-127.  Definitions only. *)
From stdpp Require Import list strings.
From Verif Require Import TextLib Utf8Lib JsonLib UriModel.

(** UriTemplate, 20-28, and new, 118-127 *)
Record template := MkTemplate { tp_text : list N; tp_exprs : list expr }.
Definition template_new (t : list N) : option template := MkTemplate t <$> parse_template t.
(** serialize, 32-37: only the text *)
Definition template_json (x : template) : json := JStr (tp_text x).
(** deserialize, 42-48: String::deserialize, then new *)
Definition template_of_json (v : json) : option template := match v with JStr t => template_new t | _ => None end.
(** serde_json::to_vec and from_slice of a template *)
Definition template_bytes (x : template) : list N := to_bytes (template_json x).
Definition template_of_bytes (bs : list N) : option template := of_bytes bs ≫= template_of_json.
(** expand and match_uri of a template *)
Definition template_expand (x : template) (vars : list (list N * list N)) : list N := expand (tp_exprs x) vars.
Definition template_match (x : template) (uri : list N) := match_uri (tp_exprs x) uri.
