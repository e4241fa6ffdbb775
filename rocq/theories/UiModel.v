(** The non-interactive and the basic user interface and the main procedure: /repo/src/ui/null_ui.rs,
    /repo/src/ui/basic_term.rs, /repo/src/main.rs. *)
From Verif Require Import Base ApiMapModel ConfigModel ProblemModel StoreModel TomlModel EditorModel
  CheckerModel.

(** ** The non-interactive user interface *)

(** The options that matter (main.rs:97-99, 163-167, 179-180): whether a sub-command is given. *)
Record ui_flags := UiFlags { fl_command : bool; fl_fail_on_warnings : bool; fl_auto_accept : bool }.

(** What a turn of the interface reads and whether it can write: the configuration that the checker
    has loaded (null_ui.rs:46), the file (line 47; [None] if it cannot be parsed; a file that cannot be
    read is empty), and whether the file can be written (line 63). *)
Record ui_input := UiInput { ui_config : config; ui_file : option table; ui_writable : bool }.

(** What a turn does, in order. *)
Inductive ui_act :=
| AStore (e : store_event)
| AWrote (d : table)
| APrinted (s : severity) (p : problem).

(** A turn ends normally, or with an error, which ends the thread of the interface. [None] is a
    panic. *)
Notation ui_result := (option (store * list ui_act * bool)).

(** null_ui.rs:105-115: under which heading a problem is printed, if at all. *)
Definition shown_as (f : ui_flags) (p : problem) : option severity :=
  if fl_command f && bool_decide (problem_severity p = Warning) then None
  else Some (if fl_fail_on_warnings f then Error else problem_severity p).

(** Resolving the problem with the given id. *)
Definition ui_resolve (s : store) (id : nat) : option (store * ui_act) :=
  match store_step s (SReplace id []) with
  | Some (s', e) => Some (s', AStore e)
  | None => None
  end.

(** null_ui.rs:136-147: resolving the first open problem until there is none. *)
Fixpoint resolve_all (fuel : nat) (s : store) : option (store * list ui_act) :=
  match store_open s with
  | [] => Some (s, [])
  | (id, _) :: _ =>
      match fuel with
      | 0 => None
      | S fuel =>
          match ui_resolve s id with
          | None => None
          | Some (s', a) =>
              match resolve_all fuel s' with
              | None => None
              | Some (s'', acts) => Some (s'', a :: acts)
              end
          end
      end
  end.

Section ui.
  (** [fixes_for_problem] and [Edit::apply]; the oracles of these are fixed here. *)
  Context (fixes : problem -> config -> list edit) (apply : edit -> table -> option table).

  (** [first_sensible_edit] (null_ui.rs:73-84). *)
  Fixpoint first_sensible_edit (c : config) (l : list (nat * problem)) : option (nat * edit) :=
    match l with
    | [] => None
    | (id, p) :: l' =>
        match fixes p c with
        | e :: _ => Some (id, e)
        | [] => first_sensible_edit c l'
        end
    end.

  (** The loop of [accept_all_single_edits] (null_ui.rs:50-60): the store, what was done, and the
      edited document, [None] if an edit failed. *)
  Fixpoint accept_loop (fuel : nat) (c : config) (s : store) (d : table)
      : option (store * list ui_act * option table) :=
    match first_sensible_edit c (store_open s) with
    | None => Some (s, [], Some d)
    | Some (id, e) =>
        match fuel with
        | 0 => None
        | S fuel =>
            match apply e d with
            | None => Some (s, [], None)
            | Some d' =>
                match ui_resolve s id with
                | None => None
                | Some (s', a) =>
                    match accept_loop fuel c s' d' with
                    | None => None
                    | Some (s'', acts, r) => Some (s'', a :: acts, r)
                    end
                end
            end
        end
    end.

  (** [accept_all_single_edits] (null_ui.rs:45-71). *)
  Definition accept_all (i : ui_input) (s : store) : ui_result :=
    match ui_file i with
    | None => Some (s, [], false)
    | Some d =>
        match accept_loop (length (st_problems s)) (ui_config i) s d with
        | None => None
        | Some (s', acts, None) => Some (s', acts, false)
        | Some (s', [], Some _) => Some (s', [], true)
        | Some (s', acts, Some d') =>
            if ui_writable i then Some (s', acts ++ [AWrote d'], true) else Some (s', acts, false)
        end
    end.

  (** null_ui.rs:103-147: the rest of the turn. *)
  Definition report (f : ui_flags) (s : store) : ui_result :=
    let shown := omap (fun e : nat * problem => (fun sev => APrinted sev e.2) <$> shown_as f e.2)
                   (store_open s) in
    if existsb (fun e : nat * problem => bool_decide (shown_as f e.2 = Some Error)) (store_open s)
    then match store_step s SAbort with
         | Some (s', e) => Some (s', shown ++ [AStore e], true)
         | None => None
         end
    else match resolve_all (length (st_problems s)) s with
         | Some (s', acts) => Some (s', shown ++ acts, true)
         | None => None
         end.

  (** The reaction to [ProblemsAdded] (null_ui.rs:95-149); the store is locked all the time. *)
  Definition null_turn (f : ui_flags) (i : ui_input) (s : store) : ui_result :=
    if fl_auto_accept f then
      match accept_all i s with
      | Some (s', acts, true) =>
          match report f s' with
          | Some (s'', acts', ok) => Some (s'', acts ++ acts', ok)
          | None => None
          end
      | r => r
      end
    else report f s.

  (** ** The threads that submit problems and the thread of the interface

      [ProblemStoreRef::fix_problems] (problem_store.rs:43-49) adds the problems, which puts an event
      into the queue (line 84), and waits for the answer. *)
  Record ui_system := UiSystem { us_store : store; us_events : nat; us_running : bool }.
  Definition ui_system_init : ui_system := UiSystem store_init 0 true.

  Inductive ui_step :=
  | USubmit (client : nat) (ps : list problem)
  | UTurn (i : ui_input).

  (** A step is not possible if the interface has no event to react to or has ended. *)
  Inductive ui_stepped :=
  | Stepped (s : ui_system) (acts : list ui_act)
  | NotPossible
  | Panicked.

  Definition system_step (f : ui_flags) (s : ui_system) (a : ui_step) : ui_stepped :=
    match a with
    | USubmit c ps =>
        match store_step (us_store s) (SAdd c ps) with
        | Some (s', e) => Stepped (UiSystem s' (S (us_events s)) (us_running s)) [AStore e]
        | None => Panicked
        end
    | UTurn i =>
        match us_running s, us_events s with
        | true, S n =>
            match null_turn f i (us_store s) with
            | Some (s', acts, ok) => Stepped (UiSystem s' n ok) acts
            | None => Panicked
            end
        | _, _ => NotPossible
        end
    end.

  (** Runs in which every step is possible and does not panic. *)
  Fixpoint system_run (f : ui_flags) (s : ui_system) (l : list ui_step)
      : option (ui_system * list ui_act) :=
    match l with
    | [] => Some (s, [])
    | a :: l' =>
        match system_step f s a with
        | Stepped s' acts =>
            match system_run f s' l' with
            | Some (s'', acts') => Some (s'', acts ++ acts')
            | None => None
            end
        | _ => None
        end
    end.

  (** ** A request under the non-interactive interface

      [RequestHandler::handle_request] (main.rs:578-605) for the completion of rustc with handler [h],
      when nothing else happens: the check, the turn of the interface, reloading the configuration,
      which is unchanged on disk. [None] if the turns are used up. Without automatic fixes the answer
      of the interface depends only on the problems. *)
  Definition null_answer (f : ui_flags) (ps : list problem) : outcome :=
    if existsb (fun p => bool_decide (shown_as f p = Some Error)) ps then GiveUp else Continue.

  Fixpoint null_handle (fuel : nat) (f : ui_flags) (env : environment) (scan : scanner)
      (requests : nat -> rustc_output) (h : nat) (s : system) : option outcome :=
    match fuel with
    | 0 => None
    | S fuel =>
        match sys_step env scan requests s (EComplete h) with
        | (s', OComplete _ _ (Some [])) => Some Continue
        | (s', OComplete _ _ (Some ps)) =>
            match null_answer f ps with
            | GiveUp => Some GiveUp
            | Continue =>
                let s'' := (sys_step env scan requests s' (ELoad (ck_config (sy_checker s')))).1 in
                if all_send_retry ps then Some Continue
                else null_handle fuel f env scan requests h s''
            end
        | _ => Some GiveUp
        end
    end.
End ui.

(** ** The basic user interface *)

(** What the user does at the prompt (basic_term.rs:156-216, [Action]): apply a fix, change the file so
    that it is tried again; showing a diff and invalid input only repeat the prompt. At the end of the
    list the input is closed (line 208; from then on changes of the file are not noticed either). *)
Inductive user_action := UApply (n : nat) | URetry.

(** One event of the basic interface (basic_term.rs:52-91) with the store as the only problem source:
    the loop over the first open problem. What a fix does to the file (lines 159-165) is left out: only
    whether the loop ends is modelled. The result is what is left of the input;
    [None] if the fuel is used up. A missing configuration is asked for differently (lines 58-68) and
    left out. *)
Fixpoint basic_event (fuel : nat) (s : store) (input : list user_action)
    : option (store * list user_action) :=
  match fuel with
  | 0 => None
  | S fuel =>
      match store_open s with
      | [] => Some (s, input)
      | (id, _) :: _ =>
          match input with
          | [] => basic_event fuel s []                 (* Outcome::GiveUp => {}, line 89 *)
          | _ :: rest =>
              match store_step s (SReplace id []) with
              | Some (s', _) => basic_event fuel s' rest
              | None => None
              end
          end
      end
  end.

(** ** The main procedure *)

(** What [Cackle::run] (main.rs:357-457) gets from the calls it makes; [None] and [false] are errors. *)
Record run_results := RunResults {
  rr_command : bool;             (* a sub-command is given *)
  rr_replay : bool;              (* --replay-requests *)
  rr_ignore_newer : bool;        (* --ignore-newer-config-versions *)
  rr_create : outcome;           (* 358 *)
  rr_load : bool;                (* 365 *)
  rr_clean : option Z;           (* 368: the exit code of cargo clean, None if it cannot be run *)
  rr_update : outcome;           (* 379 *)
  rr_initial : option outcome;   (* 383 *)
  rr_imports : outcome;          (* 386-389 *)
  rr_reload : bool;              (* 397 *)
  rr_build : bool;               (* 402-437, if it is reached *)
  rr_aborted : bool;             (* 439 *)
  rr_unused : bool;              (* 449 *)
  rr_unused_fix : outcome        (* 450 *)
}.

Inductive exit_code := Success | Failure.
Global Instance exit_code_eq_dec : EqDecision exit_code.
Proof. solve_decision. Defined.

(** main.rs:459-461 *)
Definition should_clean (r : run_results) : bool := negb (rr_replay r) && negb (rr_command r).

(** [Outcome::and] (outcome.rs:15-21). *)
Definition outcome_and (a b : outcome) : outcome :=
  match a, b with Continue, Continue => Continue | _, _ => GiveUp end.

(** What is run on the way: cargo clean (368), the build or the replay of requests (402-433), the check
    for unused permissions (449). *)
Inductive stage := RanClean | RanBuild | RanUnused.

(** [Cackle::run] (main.rs:357-457); [None] is an error. [proxy::clean] (proxy.rs:81-96) ignores the
    exit code. *)
Definition main_run (r : run_results) : list stage * option exit_code :=
  match rr_create r with
  | GiveUp => ([], Some Failure)
  | Continue =>
      if negb (rr_load r) then ([], None)
      else
        let ran := if should_clean r then [RanClean] else [] in
        if should_clean r && negb (match rr_clean r with Some _ => true | None => false end)
        then (ran, None)
        else match rr_initial r with
             | None => (ran, None)
             | Some initial =>
                 if negb (rr_reload r) then (ran, None)
                 else
                   let '(ran, build) := match outcome_and initial (rr_imports r) with
                                        | Continue => (ran ++ [RanBuild], rr_build r)
                                        | GiveUp => (ran, true)
                                        end in
                   if rr_aborted r then (ran, Some Failure)
                   else if negb build then (ran, None)
                   else if should_clean r then
                     let ran := ran ++ [RanUnused] in
                     if negb (rr_unused r) then (ran, None)
                     else match rr_unused_fix r with
                          | Continue => (ran, Some Success)
                          | GiveUp => (ran, Some Failure)
                          end
                   else (ran, Some Success)
             end
  end.

(** [run_and_report_errors] (main.rs:302-344): [ui_ok] says that the thread of the interface did not end
    with an error. *)
Definition exit_with (ui_ok : bool) (r : run_results) : exit_code :=
  if negb ui_ok then Failure else match (main_run r).2 with Some e => e | None => Failure end.
