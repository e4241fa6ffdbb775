(** C260: giving up before the build. C94 says which questions can keep the build from being started; the announcement of
    a newer version of the configuration is not among them. *)
From Verif Require Import Base ApiMapModel ConfigModel ProblemModel StoreModel StoreSpec TomlModel
  EditorModel UiModel UiSpec UiProps.

(** With --fail-on-warnings and an older version in the file, the main procedure (client 0) submits the announcement and is
    told to give up (main.rs:376-381). It still starts the build if there is nothing else to object to, and only the code
    with which it exits says that it was to stop. *)
Theorem C260_refuted :
  exists (f : ui_flags) (i : ui_input) (s : ui_system) (acts : list ui_act) (r : run_results),
    system_run ui_fixes ui_apply f ui_system_init [USubmit 0 [PNewConfigVersionAvailable 3]; UTurn i] = Some (s, acts) /\
    answers acts 0 = [GiveUp] /\ st_aborted (us_store s) = true /\
    rr_update r = GiveUp /\ rr_aborted r = st_aborted (us_store s) /\
    RanBuild ∈ (main_run r).1 /\ exit_with true r = Failure.
Proof.
  exists (UiFlags false true false), ui_nothing.
  do 2 eexists. exists (RunResults false false false Continue true (Some 0%Z) GiveUp (Some Continue) Continue true true true true Continue).
  split; [vm_compute; reflexivity|]. split_and!; try (vm_compute; reflexivity).
  cbn. right. left.
Qed.
Print Assumptions C260_refuted.

(** The same run, given up at the first check instead: the build is not started. *)
Example C260_ex :
  let r := RunResults false false false Continue true (Some 0%Z) Continue (Some GiveUp) Continue true true true true Continue in
  (main_run r).1 = [RanClean] /\ exit_with true r = Failure.
Proof. by vm_compute. Qed.
