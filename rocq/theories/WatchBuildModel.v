(** The builder of resource watchers: src/server/resource_watcher.rs 31-58, 390-458.  Definitions only. *)
From stdpp Require Import gmap strings list.
From Verif Require Import TextLib SerdeLib WatchModel.
Local Open Scope Z_scope.

(** WatchConfig, 31-42, in milliseconds, and its default, 44-58 *)
Record wconfig := MkWatchConfig { wg_debounce : Z; wg_patterns : list text; wg_ignored : list text; wg_max : nat }.
Definition wconfig_default : wconfig :=
  MkWatchConfig 500 [lit "**/*"] [lit "**/.git/**"; lit "**/node_modules/**"; lit "**/.DS_Store"; lit "**/target/**"] (N.to_nat 10000).
(** ResourceWatcherBuilder, 390-405 *)
Record wbuilder := MkWB { wb_base : option text; wb_config : wconfig }.
Definition wbuilder_new : wbuilder := MkWB None wconfig_default.
Inductive wcall := WBase (d : text) | WDebounce (ms : Z) | WPattern (g : text) | WIgnore (g : text) | WMax (n : nat).
Definition wcall_step (b : wbuilder) (o : wcall) : wbuilder :=
  let c := wb_config b in
  match o with
  | WBase d => MkWB (Some d) c                                                                                         (* 408-411 *)
  | WDebounce ms => MkWB (wb_base b) (MkWatchConfig ms (wg_patterns c) (wg_ignored c) (wg_max c))                      (* 414-417 *)
  | WPattern g => MkWB (wb_base b) (MkWatchConfig (wg_debounce c) (wg_patterns c ++ [g]) (wg_ignored c) (wg_max c))    (* 420-423 *)
  | WIgnore g => MkWB (wb_base b) (MkWatchConfig (wg_debounce c) (wg_patterns c) (wg_ignored c ++ [g]) (wg_max c))     (* 426-429 *)
  | WMax n => MkWB (wb_base b) (MkWatchConfig (wg_debounce c) (wg_patterns c) (wg_ignored c) n)                        (* 432-435 *)
  end.
(** build, 438-450: [None] is the error "Base directory not specified" *)
Definition watch_build (os : list wcall) : option (text * wconfig) :=
  let b := fold_left wcall_step os wbuilder_new in (λ d, (d, wb_config b)) <$> wb_base b.
(** start, 186-237: the tasks get the configuration.  What the file system reports and the ticks [now] of the processor:
    [relative d] strips the base directory [d] (path.strip_prefix, 367). *)
Definition watch_reports (glob : text → text → bool) (relative : text → text → option text) (w : text * wconfig) (os : list fop) : front :=
  f_run glob (relative w.1) (wg_patterns w.2) (wg_ignored w.2) os.
