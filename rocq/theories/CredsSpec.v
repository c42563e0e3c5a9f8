(** Specification vocabulary for AuthInfo. *)
From stdpp Require Import strings list.
From Verif Require Import TextLib JsonLib SerdeLib TypesModel AuthModel CredsModel.

(** A value of the Rust type: the keys of a map are different, the oauth field is an OAuthInfo. *)
Definition creds_ok (a : creds) : Prop := NoDup (cr_params a).*1 ∧ ∀ o, cr_oauth a = Some o → is_of t_oauth_info o.
(** Names of parameters that are also names of fields. *)
Definition reserved : list (list N) := [lit "scheme"; lit "token"; lit "oauth"].
