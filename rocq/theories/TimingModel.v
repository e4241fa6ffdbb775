(** What --print-timing prints.
    Source: /repo/src/timing.rs. Times are numbers; how a total is written in seconds is left out. *)
From stdpp Require Import gmap.
From Verif Require Import Base.

(** [TimingCollector] (timing.rs:9-18, 20-27). *)
Record timing_state := Timing { tm_enabled : bool; tm_order : list str; tm_totals : gmap str N }.
Definition timing_new (enabled : bool) : timing_state := Timing enabled [] ∅.

(** [add_timing] (timing.rs:31-47) at a time; [Instant] subtraction saturates. *)
Definition add_timing (c : timing_state) (start now : N) (timing : str) : timing_state :=
  if tm_enabled c then
    let elapsed := (now - start)%N in
    match tm_totals c !! timing with
    | Some total => Timing true (tm_order c) (<[timing := (total + elapsed)%N]> (tm_totals c))
    | None => Timing true (tm_order c ++ [timing]) (<[timing := elapsed]> (tm_totals c))
    end
  else c.

(** [Display] (timing.rs:50-57): the lines, as category and total; [None] is the panic of indexing a map. *)
Definition timing_lines (c : timing_state) : option (list (str * N)) :=
  mapM (fun k => total ← tm_totals c !! k; Some (k, total)) (tm_order c).

(** A whole run: what is reported, as start, time and category. *)
Definition timing_run (enabled : bool) (rs : list (N * N * str)) : timing_state :=
  foldl (fun c r => add_timing c r.1.1 r.1.2 r.2) (timing_new enabled) rs.
