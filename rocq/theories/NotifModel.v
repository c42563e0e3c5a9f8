(** Debouncing and batching of server notifications: src/server/notification_debouncer.rs.
    Definitions only.  Every step runs under the write lock of the map, so any interleaving of calls and
    background tasks is a sequence of steps; times are those read before the lock is taken. *)
From stdpp Require Import gmap strings list.
From Verif Require Import TextLib SerdeLib.
Local Open Scope Z_scope.

(** ServerNotification, src/types/protocol.rs:717-739, and ProgressToken, 518-523; what is not looked at
    is a number *)
Inductive token := TkStr (s : text) | TkNum (n : Z).
Inductive notice := NfProgress (t : token) (rest : nat) | NfTools | NfPrompts | NfResources | NfRoots | NfUpdated (uri : text) | NfLog (rest : nat).
Global Instance token_eq : EqDecision token. Proof. solve_decision. Defined.
Global Instance notice_eq : EqDecision notice. Proof. solve_decision. Defined.

(** NotificationDebouncerConfig, 18-33; defaults 35-54, in milliseconds *)
Record nconfig := MkNconfig { n_default : Z; n_types : gmap text Z; n_max : nat; n_merge : bool; n_wait : Z }.
Definition default_types : gmap text Z := <[lit "log" := 50]> (<[lit "progress" := 100]> {[ lit "resources/list_changed" := 500 ]}).
Definition nconfig_default : nconfig := MkNconfig 250 default_types 100 true 5000.

(** PendingNotification, 65-81; [count] only serves statistics *)
Record waiting_notice := MkWait { wn_main : notice; wn_first : Z; wn_last : Z; wn_count : nat; wn_merged : list notice }.
Record ndeb := MkNdeb { nd_pending : gmap text waiting_notice; nd_out : list notice }.
Definition ndeb_new : ndeb := MkNdeb ∅ [].
Inductive nop := NSubmit (n : notice) (now : Z) | NTick (now : Z) | NFlush.

Section notif.
  (** [dbg] is the derived Debug of a progress token *)
  Context (dbg : token → text).
  (** notification_key, 221-235 *)
  Definition notification_key (n : notice) : text :=
    match n with
    | NfProgress t _ => lit "progress:" ++ dbg t
    | NfUpdated u => lit "resource_updated:" ++ u
    | NfResources => lit "resource_list_changed"
    | NfTools => lit "tool_list_changed"
    | NfPrompts => lit "prompt_list_changed"
    | NfRoots | NfLog _ => lit "unknown"
    end.
  Context (cf : nconfig).
  (** submit, 137-172 *)
  Definition submit (n : notice) (now : Z) (s : ndeb) : ndeb :=
    let k := notification_key n in
    match nd_pending s !! k with
    | Some w =>
      let w' := if n_merge cf
                then MkWait (wn_main w) (wn_first w) now (S (wn_count w)) (if (length (wn_merged w) <? n_max cf)%nat then wn_merged w ++ [n] else wn_merged w)
                else MkWait n (wn_first w) now (S (wn_count w)) (wn_merged w) in
      MkNdeb (<[k := w']> (nd_pending s)) (nd_out s)
    | None => MkNdeb (<[k := MkWait n now now 1 []]> (nd_pending s)) (nd_out s)
    end.
  Definition interval_of (k : text) : Z := default (n_default cf) (n_types cf !! k).                     (* 251-255 *)
  (** 257-261; Instant's duration_since is never negative *)
  Definition should_flush (now : Z) (e : text * waiting_notice) : bool :=
    (interval_of e.1 <=? Z.max 0 (now - wn_last e.2)) || (n_wait cf <=? Z.max 0 (now - wn_first e.2)).
  Definition sends (e : text * waiting_notice) : list notice := wn_main e.2 :: wn_merged e.2.
  (** flush_pending, 239-292: notifications of different keys in the order of [map_to_list] *)
  Definition flush_pending (now : Z) (s : ndeb) : ndeb :=
    MkNdeb (filter (λ e, should_flush now e = false) (nd_pending s))
      (nd_out s ++ concat (sends <$> filter (λ e, should_flush now e = true) (map_to_list (nd_pending s)))).
  (** flush_all, 295-310: nothing is removed *)
  Definition flush_all (s : ndeb) : ndeb := MkNdeb (nd_pending s) (nd_out s ++ concat (sends <$> map_to_list (nd_pending s))).
  Definition n_step (s : ndeb) (o : nop) : ndeb :=
    match o with NSubmit n now => submit n now s | NTick now => flush_pending now s | NFlush => flush_all s end.
  Definition n_run (os : list nop) : ndeb := fold_left n_step os ndeb_new.

  (** *** NotificationBatcher, 313-390.  [nb_flight]: full batches whose sender has given the lock back and
      not sent yet (352-356); [nb_timers]: the keys of the timers that have not fired (357-372). *)
  Record nbatcher := MkNb { nb_batches : gmap text (list notice); nb_flight : list (list notice); nb_timers : list text; nb_sent : list (list notice) }.
  Definition nbatcher_new : nbatcher := MkNb ∅ [] [] [].
  Inductive bop := BAdd (n : notice) | BSend (i : nat) | BTimer (i : nat) | BFlush.
  Context (max : nat).
  Definition nonempty (b : list notice) : bool := match b with [] => false | _ => true end.
  Definition b_step (s : nbatcher) (o : bop) : nbatcher :=
    match o with
    | BAdd n =>
      let k := notification_key n in
      let b := default [] (nb_batches s !! k) ++ [n] in
      if (max <=? length b)%nat then MkNb (<[k := []]> (nb_batches s)) (nb_flight s ++ [b]) (nb_timers s) (nb_sent s)
      else MkNb (<[k := b]> (nb_batches s)) (nb_flight s) (nb_timers s ++ [k]) (nb_sent s)
    | BSend i =>
      match nb_flight s !! i with
      | Some b => MkNb (nb_batches s) (delete i (nb_flight s)) (nb_timers s) (nb_sent s ++ [b])
      | None => s
      end
    | BTimer i =>
      match nb_timers s !! i with
      | Some k => MkNb (delete k (nb_batches s)) (nb_flight s) (delete i (nb_timers s)) (nb_sent s ++ filter (λ b, nonempty b = true) (option_list (nb_batches s !! k)))
      | None => s
      end
    | BFlush => MkNb ∅ (nb_flight s) (nb_timers s) (nb_sent s ++ filter (λ b, nonempty b = true) (map_to_list (nb_batches s)).*2)
    end.
  Definition b_run (os : list bop) : nbatcher := fold_left b_step os nbatcher_new.
End notif.
