(** What the limits of a WebSocket server are to mean. *)
From stdpp Require Import list.
From Verif Require Import Utf8Lib TextLib JsonLib RpcModel WsModel WsLimitModel.
Local Open Scope N_scope.

Definition last_set {B} (f : wbop → option B) (os : list wbop) : option B := last (omap f os).
Definition frame_set (o : wbop) := match o with WFrame n => Some n | _ => None end.
Definition message_set (o : wbop) := match o with WMessage n => Some n | _ => None end.
Definition unmasked_set (o : wbop) := match o with WUnmasked b => Some b | _ => None end.
(** One text message, cut into frames: all but the last say that more follows. *)
Fixpoint cut (text : list N) (rs : list raw) : Prop :=
  match rs with
  | [] => False
  | [r] => rw_last r = true ∧ text = rw_bytes r
  | r :: rs => rw_last r = false ∧ ∃ rest, text = rw_bytes r ++ rest ∧ cut rest rs
  end.
(** Within the configured limits. *)
Definition within (c : wconf) (text : list N) (rs : list raw) : Prop :=
  match wc_message c with Some l => N.of_nat (length text) <= l | None => True end ∧
  Forall (λ r, match wc_frame c with Some l => N.of_nat (length (rw_bytes r)) <= l | None => True end ∧ (rw_masked r = true ∨ wc_unmasked c = true)) rs.
Definition MiB : N := 1048576.
