(** What keep-alive pings and reconnection are to be. *)
From stdpp Require Import list.
From Coq Require Import NArith.
From Verif Require Import WsModel WsKeepModel.

(** Pings written, and the time since the connection was made. *)
Definition pings (s : keep) : N := N.of_nat (length (kp_out s)).
Definition passed (o : kop) : N := match o with KPass d => d | _ => 0%N end.
Definition elapsed (os : list kop) : N := fold_right N.add 0%N (passed <$> os).
(** Both tasks have done all there is to do: running them again changes nothing. *)
Definition idle (p : option N) (s : keep) : Prop := k_step p s KPing = s ∧ ∀ ok, k_step p s (KWrite ok) = s.
Global Instance kop_eq : EqDecision kop. Proof. solve_decision. Defined.
Definition no_failure (os : list kop) : Prop := KWrite false ∉ os.
(** How often a client has connected. *)
Definition connects (os : list cop) : nat := length (omap (λ o, match o with COnce true => Some tt | _ => None end) os).
Definition receives (os : list cop) : nat := length (omap (λ o, match o with CReceive => Some tt | _ => None end) os).
(** Every connection the client has made is gone. *)
Definition all_lost (s : ctransport) : Prop := Forall (λ c, cc_stopped c = true ∧ cc_holds c = None) (ct_conns s).
