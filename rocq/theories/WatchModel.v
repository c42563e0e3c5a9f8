(** The resource watcher: src/server/resource_watcher.rs.  Definitions only. *)
From stdpp Require Import gmap strings list.
From Verif Require Import TextLib SerdeLib.
Local Open Scope Z_scope.

(** *** process_events, 110-165, and the resources, 249-272.  Paths are what they display as; the kind
    of an event is only logged.  [w_queue] is the event channel, [w_sent] the uris announced.
    Simplified: a tick is one step, and announces in the order of [map_to_list] (HashMap's is
    unspecified). *)
Record watcher := MkWatcher { w_tracked : gmap text nat; w_queue : list (text * Z); w_pending : gmap text Z; w_sent : list text }.
Definition watcher_new : watcher := MkWatcher ∅ [] ∅ [].
Definition file_uri (path : text) : text := lit "file://" ++ path.     (* 148 *)
(** now.duration_since(timestamp) >= debounce, 137: the difference is never negative *)
Definition quiet_for (debounce now ts : Z) : bool := debounce <=? Z.max 0 (now - ts).
Inductive wop := WEvent (path : text) (ts : Z) | WTick (now : Z) | WAdd (uri : text) (info : nat) | WRemove (uri : text).
Section watch.
  Context (debounce : Z) (max_resources : nat).
  Definition received (q : list (text * Z)) (p : gmap text Z) : gmap text Z := fold_left (λ m e, <[e.1 := e.2]> m) q p.   (* 123-128 *)
  Definition tick (now : Z) (w : watcher) : watcher :=
    let p := received (w_queue w) (w_pending w) in
    let due := filter (λ e : text * Z, quiet_for debounce now e.2 = true) (map_to_list p) in                         (* 131-144 *)
    MkWatcher (w_tracked w) [] (filter (λ e : text * Z, quiet_for debounce now e.2 = false) p)
      (w_sent w ++ filter (λ u, is_Some (w_tracked w !! u)) ((λ e, file_uri e.1) <$> due)).                           (* 147-163 *)
  Definition w_step (w : watcher) (o : wop) : watcher :=
    match o with
    | WEvent p ts => MkWatcher (w_tracked w) (w_queue w ++ [(p, ts)]) (w_pending w) (w_sent w)
    | WTick now => tick now w
    | WAdd u i => if (max_resources <=? size (w_tracked w))%nat then w                                                 (* 249-259 *)
                  else MkWatcher (<[u := i]> (w_tracked w)) (w_queue w) (w_pending w) (w_sent w)
    | WRemove u => MkWatcher (delete u (w_tracked w)) (w_queue w) (w_pending w) (w_sent w)                             (* 262-266 *)
    end.
  Definition w_run (os : list wop) : watcher := fold_left w_step os watcher_new.
End watch.

(** *** watch_filesystem, 275-357: what the operating system reports goes through a channel of 1000
    that drops what does not fit (286-293), then to the processor, unless the patterns exclude it. *)
Inductive fop := FReport (create_modify_remove : bool) (paths : list text) | FForward (ts : Z).
Record front := MkFront { f_raw : list (bool * list text); f_out : list (text * Z) }.
Section front.
  Context (glob : text → text → bool) (relative : text → option text) (patterns ignored : list text).
  (** matches_patterns, 361-388; [relative] strips the base directory, [glob] is glob_match *)
  Definition matches_patterns (path : text) : bool :=
    match relative path with
    | None => false
    | Some r => negb (existsb (λ g, glob g r) ignored) && existsb (λ g, glob g r) patterns
    end.
  Definition capacity : nat := N.to_nat 1000.
  Definition f_step (s : front) (o : fop) : front :=
    match o with
    | FReport k ps => if (length (f_raw s) <? capacity)%nat then MkFront (f_raw s ++ [(k, ps)]) (f_out s) else s
    | FForward ts =>
      match f_raw s with
      | [] => s
      | (k, ps) :: rest => MkFront rest (f_out s ++ (if k then (λ p, (p, ts)) <$> filter (λ p, matches_patterns p = true) ps else []))
      end
    end.
  Definition f_run (os : list fop) : front := fold_left f_step os (MkFront [] []).
End front.
