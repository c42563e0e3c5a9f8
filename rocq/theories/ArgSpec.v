(** What a built argument is to say: each method's last call counts. *)
From stdpp Require Import list strings.
From Verif Require Import ArgModel.

Definition last_call {B} (f : aop → option B) (os : list aop) : option B := last (omap f os).
Definition describes (o : aop) : option (list N) := match o with ADesc t => Some t | _ => None end.
(** Both kinds of completions are set by one of two methods; the later call replaces the earlier. *)
Definition completes (o : aop) : option completion := match o with AValues vs => Some (Values vs) | AFiles => Some Files | _ => None end.
