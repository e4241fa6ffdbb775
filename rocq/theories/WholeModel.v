(** A whole run of [cargo acl] without a sub-command: how the results of the calls in [Cackle::run] hang together
    with what the checker went through.
    Sources: /repo/src/main.rs:357-457, /repo/src/proxy.rs:161-240, 299-314. *)
From Verif Require Import Base ConfigModel ProblemModel StoreModel CheckerModel UiModel.

(** The results of the calls; the store of problems at line 439; what the checker works with; everything that
    happened to the checker before line 449. *)
Record whole_run := WholeRun {
  wr_results : run_results;
  wr_store : store;
  wr_env : environment;
  wr_scan : scanner;
  wr_requests : nat -> rustc_output;
  wr_events : list event }.

Definition wr_system (w : whole_run) : system := (sys_run (wr_env w) (wr_scan w) (wr_requests w) sys_init (wr_events w)).1.
Definition wr_outcomes (w : whole_run) : list outcome_of :=
  (sys_run (wr_env w) (wr_scan w) (wr_requests w) sys_init (wr_events w)).2.
