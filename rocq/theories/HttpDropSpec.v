(** Specification vocabulary for HTTP clients that go away. *)
From stdpp Require Import gmap strings list.
From Verif Require Import ListLib TextLib JsonLib SerdeLib TypesModel RpcModel ServerModel HttpModel HttpDropModel.

(** The same operations while one more request waits, at place [j], whose client goes away in the end: the places of the requests
    behind it are one higher; it moves up when a request in front of it is done. *)
Definition beside (j : nat) (o : gop) : gop :=
  match o with
  | GOp (HContinue i a b) => GOp (HContinue (if decide (i < j) then i else S i) a b)
  | GGone i => GGone (if decide (i < j) then i else S i)
  | o => o
  end.
Definition moved (j : nat) (o : gop) : nat :=
  match o with GOp (HContinue i _ _) | GGone i => if decide (i < j) then pred j else j | _ => j end.
Fixpoint then_gone (j : nat) (os : list gop) : list gop :=
  match os with [] => [GGone j] | o :: os => beside j o :: then_gone (moved j o) os end.
(** Nobody deletes the session. *)
Definition undeleted (sid : text) (o : gop) : Prop := ∀ h, o = GOp (HDelete h) → h_session h ≠ Some sid.
