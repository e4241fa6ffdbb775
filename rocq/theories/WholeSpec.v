(** What a whole run consists of. *)
From Verif Require Import Base ConfigModel ProblemModel StoreModel StoreSpec CheckerModel CheckerSpec UiModel WholeModel.

(** The results of the calls fit what happened: line 439 reads the flag of the store; an outcome that is given up has
    been given up in the store; line 449 asks the checker for unused permissions; and a failed analysis makes the build
    fail (C156). *)
Record fits (w : whole_run) (sent : list store_event) : Prop := {
  fits_history : history (wr_store w) sent;
  fits_aborted : rr_aborted (wr_results w) = st_aborted (wr_store w);
  fits_initial : rr_initial (wr_results w) = Some GiveUp -> exists c, GiveUp ∈ received sent c;
  fits_imports : rr_imports (wr_results w) = GiveUp -> exists c, GiveUp ∈ received sent c;
  fits_unused : rr_unused (wr_results w) = true -> is_Some (check_unused (wr_env w) (sy_checker (wr_system w)));
  fits_failed : forall t l, OComplete t l None ∈ wr_outcomes w -> rr_build (wr_results w) = false }.

(** [cargo acl] without a sub-command, and not replaying requests, has exited with success. *)
Definition succeeded (ui_ok : bool) (w : whole_run) : Prop :=
  rr_command (wr_results w) = false /\ rr_replay (wr_results w) = false /\ exit_with ui_ok (wr_results w) = Success.
