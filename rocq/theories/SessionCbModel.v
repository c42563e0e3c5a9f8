(** The callbacks of the session manager: src/shared/session.rs 104-115 (SessionCallbacks), 164-167, 236-240, 264-268.
    Definitions only. *)
From stdpp Require Import gmap strings list.
From Verif Require Import ListLib TextLib SessionModel.

(** Calls of on_create, on_destroy and on_expire, with the session they are given *)
Inductive scall := OnCreate (s : session) | OnDestroy (s : session) | OnExpire (s : session).
(** What each step of a call makes the manager call.  Simplified: a callback runs in the step that changed the map, where the
    code calls it right after; all three are set (an unset one is not called, 165, 237, 265). *)
Definition cb_step (timeout : Z) (m : smgr) (o : sstep_op) : list scall :=
  match o with
  | CreateInsert t id now =>                                                            (* 162-167 *)
    match calls m !! t with Some (PCreate c) => [OnCreate (fresh_session id now timeout c)] | _ => [] end
  | ValidateEnd t now =>                                                                (* 197-198, through destroy_session *)
    match calls m !! t with
    | Some (PCheck id s) => if decide (s_expires s < now)%Z then match sessions m !! id with Some s' => [OnDestroy s'] | None => [] end else []
    | _ => []
    end
  | Destroy id => match sessions m !! id with Some s => [OnDestroy s] | None => [] end  (* 234-240 *)
  | CleanRemove t =>                                                                    (* 262-268 *)
    match calls m !! t with
    | Some (PClean (id :: _)) => match sessions m !! id with Some s => [OnExpire s] | None => [] end
    | _ => []
    end
  | _ => []
  end.
(** No code of its own: the calls made in a history, in order *)
Fixpoint cb_log (max_sessions : nat) (timeout : Z) (m : smgr) (h : list sstep_op) : list scall :=
  match h with
  | [] => []
  | o :: h => cb_step timeout m o ++ cb_log max_sessions timeout (sexec max_sessions timeout m o).1 h
  end.
