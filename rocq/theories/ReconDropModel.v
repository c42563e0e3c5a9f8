(** Several tasks that call reconnect_with on one shared ReconnectManager, and give up (a timeout or a select drops the future):
    src/shared/reconnect.rs 361-394.  Definitions only.  should_reconnect, on_connecting, on_connected and on_connection_failed
    are one step each (their locks are not held while they wait for anything else). *)
From stdpp Require Import base numbers list gmap.
From Verif Require Import ReconnectModel.
Local Open Scope Z_scope.

(** Where a call is: the check said yes (367); connect is running (374-376); connect has failed and was recorded (381-382);
    it sleeps (388-390) *)
Inductive place := Checked | Trying | Failed | Sleeping.
Record shared := MkShared { h_man : manager; h_calls : gmap nat place }.
(** Task k calls reconnect_with, or begins the next turn of its loop (367-372); goes on to connect (374); connect ends
    (376-382); checks again (384-390); the caller gives up.  Besides: the connection is lost (344-358, also by ReconnectGuard,
    443-450), set_enabled (199-201), reset (407-410) *)
Inductive top := TTurn (k : nat) (now : Z) | TConnect (k : nat) | TEnd (k : nat) (ok : bool) (now : Z) | TAgain (k : nat) (now : Z) | TDrop (k : nat)
  | TLost (now : Z) | TEnable (b : bool) | TReset.
(** What a call returns: Ok, the error of 368-371, the error of connect (385) *)
Inductive tresult := TOk | TRefused | TFailed.
Section shared.
  Context (c : rconfig).
  (** src/shared/reconnect.rs 366-393, step by step *)
  Definition t_step (s : shared) (o : top) : option (nat * tresult) * shared :=
    match o with
    | TTurn k now =>
      match h_calls s !! k with
      | None | Some Sleeping =>
        let '(ok, m) := should_reconnect c now (h_man s) in
        if ok : bool then (None, MkShared m (<[k := Checked]> (h_calls s))) else (Some (k, TRefused), MkShared m (delete k (h_calls s)))
      | _ => (None, s)
      end
    | TConnect k =>
      match h_calls s !! k with
      | Some Checked => (None, MkShared (on_connecting (h_man s)) (<[k := Trying]> (h_calls s)))
      | _ => (None, s)
      end
    | TEnd k ok now =>
      match h_calls s !! k with
      | Some Trying =>
        if ok then (Some (k, TOk), MkShared (on_connected c now (h_man s)) (delete k (h_calls s)))
        else (None, MkShared (on_failed c now (h_man s)) (<[k := Failed]> (h_calls s)))
      | _ => (None, s)
      end
    | TAgain k now =>
      match h_calls s !! k with
      | Some Failed =>
        let '(ok, m) := should_reconnect c now (h_man s) in
        if ok : bool then (None, MkShared m (<[k := Sleeping]> (h_calls s))) else (Some (k, TFailed), MkShared m (delete k (h_calls s)))
      | _ => (None, s)
      end
    | TDrop k => (None, MkShared (h_man s) (delete k (h_calls s)))
    | TLost now => (None, MkShared (on_disconnected c now (h_man s)) (h_calls s))
    | TEnable b => (None, MkShared (set_enabled b (h_man s)) (h_calls s))
    | TReset => (None, MkShared (reset (h_man s)) (h_calls s))
    end.
  (** Histories (they drive src/shared/reconnect.rs 361-394): what the calls returned, and the state *)
  Fixpoint t_run (s : shared) (os : list top) : list (nat * tresult) * shared :=
    match os with
    | [] => ([], s)
    | o :: os => let '(r, s) := t_step s o in let '(rs, s) := t_run s os in (option_list r ++ rs, s)
    end.
End shared.
Definition t_new : shared := MkShared manager_new ∅.
