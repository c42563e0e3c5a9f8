(** Specification vocabulary for client registrations. *)
From stdpp Require Import gmap strings list.
From Verif Require Import ListLib TextLib JsonLib SerdeLib OAuthModel FlowModel RegModel.

(** A value of the Rust type: the keys of a map are different. *)
Definition reg_ok (r : reg) : Prop := NoDup (rg_meta r).*1.
(** The metadata of a document: its members that are not fields. *)
Definition no_field (k : text) : Prop := k ∉ [lit "client_id"; lit "client_secret"; lit "client_name"; lit "redirect_uris"; lit "grant_types"; lit "response_types"; lit "scopes"].
(** Fields that a document must have. *)
Definition required : list text := [lit "client_id"; lit "client_name"; lit "redirect_uris"; lit "grant_types"; lit "response_types"; lit "scopes"].
