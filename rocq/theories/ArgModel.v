(** The builder of arguments with completions: src/types/completable.rs 397-465.  Definitions only. *)
From stdpp Require Import list strings.
From Verif Require Import TextLib JsonLib SerdeLib.
Local Open Scope N_scope.

(** CompletionConfig as the builder makes it, 78-87: [Static] with the entry "values" or [File] with no entries *)
Inductive completion := Values (vs : list (list N)) | Files.
(** CompletableBuilder, 397-404, and the CompletableArgument of build, 451-458, which has the same fields *)
Record argument := MkArg { a_name : list N; a_desc : option (list N); a_required : bool; a_completion : option completion }.
(** new, 407-414, and completable, 462-464 *)
Definition arg_new (name : list N) : argument := MkArg name None false None.
Inductive aop := ADesc (t : list N) | ARequired | AValues (vs : list (list N)) | AFiles.
Definition arg_step (a : argument) (o : aop) : argument :=
  match o with
  | ADesc t => MkArg (a_name a) (Some t) (a_required a) (a_completion a)                 (* 417-420 *)
  | ARequired => MkArg (a_name a) (a_desc a) true (a_completion a)                       (* 423-426 *)
  | AValues vs => MkArg (a_name a) (a_desc a) (a_required a) (Some (Values vs))          (* 429-439; to_value of a Vec<String> does not fail *)
  | AFiles => MkArg (a_name a) (a_desc a) (a_required a) (Some Files)                    (* 442-448 *)
  end.
Definition arg_build (name : list N) (os : list aop) : argument := fold_left arg_step os (arg_new name).
(** What serde writes: 58-75 (required is always written), 78-87 with the flattened config, 90-103 *)
Definition completion_json (c : completion) : json :=
  match c with
  | Values vs => JObj [(lit "provider", JStr (lit "static")); (lit "values", JArr (JStr <$> vs))]
  | Files => JObj [(lit "provider", JStr (lit "file"))]
  end.
Definition arg_json (a : argument) : json :=
  JObj ((lit "name", JStr (a_name a)) :: put (lit "description") (JStr <$> a_desc a)
    ((lit "required", JBool (a_required a)) :: put (lit "completion") (completion_json <$> a_completion a) [])).
