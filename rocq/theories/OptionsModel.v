(** The options that choose the interface and what is printed at the end, and the configurations that the calls of
    cargo are made with. Sources: /repo/src/ui.rs:20-102, /repo/src/main.rs:302-398, 578-605. *)
From Verif Require Import Base ConfigModel ProblemModel StoreModel UiModel LaunchModel.

(** ** The interface *)

(** [Kind] (ui.rs:24-32), with the feature [ui], which is on by default. *)
Inductive kind := NoUi | BasicUi | FullUi.
Global Instance kind_eq_dec : EqDecision kind.
Proof. solve_decision. Defined.

(** The fields of [Args] (main.rs:84-181) that are used here. *)
Record options := Options {
  op_no_ui : bool;
  op_ui : option kind;
  op_flags : ui_flags;
  op_quiet : bool;
  op_print_map : bool;
  op_print_timing : bool }.

(** [ui_kind] (ui.rs:91-102); [terminal] says that the standard output is a terminal. *)
Definition ui_kind (o : options) (terminal : bool) : kind :=
  if op_no_ui o then NoUi
  else match op_ui o with
       | Some k => k
       | None => if terminal then FullUi else NoUi
       end.

(** [should_capture_cargo_output] (ui.rs:87-89). *)
Definition captures (o : options) (terminal : bool) : bool := negb (bool_decide (ui_kind o terminal = NoUi)).

(** [start_ui] (ui.rs:42-84): only the non-interactive interface gets to know the options. *)
Inductive interface := NullInterface (f : ui_flags) | BasicInterface | FullInterface.

Definition start_ui (o : options) (terminal : bool) : interface :=
  match ui_kind o terminal with
  | NoUi => NullInterface (op_flags o)
  | BasicUi => BasicInterface
  | FullUi => FullInterface
  end.

(** ** The end of a run *)

(** What [run_and_report_errors] prints itself. *)
Inductive line := UiErrorLine | ErrorLine | MapLines | TimingLines | CompletedLine | SummaryLines.
Global Instance line_eq_dec : EqDecision line.
Proof. solve_decision. Defined.

(** [run_and_report_errors] (main.rs:302-344), for runs other than the summary. *)
Definition run_and_report (o : options) (ui_ok : bool) (r : run_results) : list line * exit_code :=
  if negb ui_ok then ([UiErrorLine], Failure)
  else
    let code := match (main_run r).2 with Some e => e | None => Failure end in
    ((match (main_run r).2 with None => [ErrorLine] | Some _ => [] end) ++
     (if op_print_map o then [MapLines] else []) ++
     (if op_print_timing o then [TimingLines] else []) ++
     (if bool_decide (code = Success) && negb (op_quiet o) && negb (fl_command (op_flags o))
      then [CompletedLine; SummaryLines] else []),
     code).

(** ** The configurations of the calls of cargo *)

(** The parts for cargo of the configurations that are loaded in the course of [Cackle::run]: before cleaning (main.rs:365),
    whenever problems found before the build were dealt with (383, 598), and before the build (397). *)
Record loads := Loads {
  ld_first : build_config;
  ld_handled : list build_config;
  ld_last : build_config }.

(** main.rs:367-374 *)
Definition clean_of (dir target_dir : str) (a : launch_args) (l : loads) : cargo_call :=
  clean_call dir target_dir a (ld_first l).

(** main.rs:384, 406-413: the configuration is copied before it is loaded for the last time. *)
Definition build_of (dir tmpdir target_dir exe rustc names : str) (a : launch_args) (l : loads) : cargo_call :=
  build_call dir tmpdir target_dir exe rustc names a (default (ld_first l) (last (ld_handled l))).

(** The configuration that the checker has during the build (main.rs:397). *)
Definition checker_of (l : loads) : build_config := ld_last l.
