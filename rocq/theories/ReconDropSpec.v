(** Specification vocabulary for reconnecting with calls that overlap or are given up. *)
From stdpp Require Import base numbers list gmap.
From Verif Require Import ReconnectModel ReconDropModel.

(** What the calls return, and which tasks try to connect, after a history on a new manager. *)
Definition answers (c : rconfig) (os : list top) : list (nat * tresult) := (t_run c t_new os).1.
Definition after (c : rconfig) (os : list top) : shared := (t_run c t_new os).2.
Definition trying (c : rconfig) (os : list top) (k : nat) : Prop := h_calls (after c os) !! k = Some Trying.
(** Each call goes on to connect before anything else happens, and no loss of a connection is reported. *)
Definition prompt (os : list top) : Prop := (∀ os1 os2 k now o, os = os1 ++ TTurn k now :: o :: os2 → o = TConnect k) ∧ ∀ now, TLost now ∉ os.
(** No connect is running or about to. *)
Definition quiet (c : rconfig) (os : list top) : Prop := ∀ k p, h_calls (after c os) !! k = Some p → p = Sleeping.
(** The number of attempts so far, as stats() reports it. *)
Definition attempts (c : rconfig) (os : list top) : nat := m_attempts (h_man (after c os)).
(** The retry limit is not reached. *)
Definition below_limit (c : rconfig) (os : list top) : Prop := ∀ m, rc_max c = Some m → (m_retry (h_man (after c os)) < m)%nat.
