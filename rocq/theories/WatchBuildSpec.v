(** What a built watcher is to watch. *)
From stdpp Require Import gmap strings list.
From Verif Require Import TextLib SerdeLib WatchModel WatchBuildModel.
Local Open Scope Z_scope.

Definition base_given (o : wcall) := match o with WBase d => Some d | _ => None end.
Definition debounce_given (o : wcall) := match o with WDebounce d => Some d | _ => None end.
Definition max_given (o : wcall) := match o with WMax d => Some d | _ => None end.
Definition pattern_given (o : wcall) := match o with WPattern d => Some d | _ => None end.
Definition ignore_given (o : wcall) := match o with WIgnore d => Some d | _ => None end.
Definition last_given {B} (f : wcall → option B) (os : list wcall) : option B := last (omap f os).
(** The file system reported a change of [p]. *)
Definition reported_path (p : text) (fs : list fop) : Prop := ∃ ps, FReport true ps ∈ fs ∧ p ∈ ps.
(** The watcher takes notice of [p]. *)
Definition noticed (p : text) (s : front) : Prop := ∃ ts, (p, ts) ∈ f_out s.
