(** Checking the output of build scripts.
    Sources: /repo/src/build_script_checker.rs, /repo/src/checker.rs:248-270,
    /repo/src/config_editor.rs:381-437, /repo/src/sandbox.rs:244-278. *)
From stdpp Require Import pretty.
From Verif Require Import Base TextModel ApiMapModel ConfigModel ProblemModel.

(** [BuildScriptReport] (build_script_checker.rs:10-14). *)
Record bs_report := BsReport { br_problems : list problem; br_env : list str }.

(** build_script_checker.rs:56-61 *)
Definition always_permitted : list str :=
  [lit "cargo:rerun-if-"; lit "cargo:warning"; lit "cargo:rustc-cfg=";
   lit "cargo:rustc-check-cfg="].

(** [matches] (build_script_checker.rs:87-93) *)
Definition rule_matches (instruction rule : str) : bool :=
  match strip_suffix_char "*"%char rule with
  | Some prefix => starts_with prefix instruction
  | None => str_eqb instruction rule
  end.

(** [check_directive] (build_script_checker.rs:63-85) *)
Definition check_directive (instruction : str) (pkg : pkg_id) (allow : list str) : list problem :=
  if existsb (fun prefix => starts_with prefix instruction) always_permitted then []
  else if existsb (rule_matches instruction) allow then []
  else [PDisallowedBuildInstruction pkg instruction].

(** The body of the loop, build_script_checker.rs:35-48. *)
Definition report_line (pkg : pkg_id) (allow : list str) (r : bs_report) (line : str) : bs_report :=
  let problems :=
    if starts_with (lit "cargo:") line
    then br_problems r ++ check_directive line pkg allow else br_problems r in
  let env :=
    match strip_prefix (lit "cargo:rustc-env=") line with
    | Some rest =>
        match split_once "="%char rest with
        | Some (var, _) => br_env r ++ [var]
        | None => br_env r
        end
    | None => br_env r
    end in
  BsReport problems env.

(** build_script_checker.rs:23-27 *)
Definition allowed_instructions (ps : permissions) (pkg : pkg_id) : list str :=
  match ps !! (pi_name pkg, Build) with
  | Some c => pc_allow_build_instructions c
  | None => []
  end.

(** [BuildScriptReport::build] (build_script_checker.rs:17-50). The package is named in
    the message by its name only. *)
Definition bs_build (ps : permissions) (pkg : pkg_id) (stdout : str) : bs_report :=
  if utf8_valid stdout then
    foldl (report_line pkg (allowed_instructions ps pkg)) (BsReport [] []) (str_lines stdout)
  else
    BsReport [PMessage (lit "The build script `" ++ pi_name pkg ++ lit "` emitted invalid UTF-8")] [].

(** The answer to [BinExecutionComplete] (checker.rs:248-270), with the list of variable
    names that is written. [output] stands for the whole output in a failure report. *)
Definition execution_complete (ps : permissions) (exit_code : Z) (sel : crate_sel) (output : nat)
    (stdout : str) : list problem * option (list str) :=
  if Z.eqb exit_code 0 then
    match cs_kind sel with
    | BuildScript =>
        let r := bs_build ps (cs_pkg sel) stdout in (br_problems r, Some (br_env r))
    | _ => ([], None)
    end
  else ([PExecutionFailed sel output], None).

(** ** Suggested rules *)

Definition sep_any (c : ascii) : bool :=
  Ascii.eqb c "="%char || Ascii.eqb c "-"%char || Ascii.eqb c ":"%char.

(** The search for the last separator (config_editor.rs:391-401 and 419-429). The
    separators are ASCII, so going through bytes instead of characters is the same. *)
Fixpoint last_separator (only_eq : bool) (pos : nat) (acc : option nat) (s : str) : option nat :=
  match s with
  | [] => acc
  | c :: s' =>
      if (if only_eq then Ascii.eqb c "="%char else sep_any c)
      then last_separator (only_eq || Ascii.eqb c "="%char) (S pos) (Some pos) s'
      else last_separator only_eq (S pos) acc s'
  end.

(** The loop (config_editor.rs:408-435). [None] is a panic of a slice; [fuel] bounds
    the number of iterations and running out of it is [None] too. *)
Fixpoint suggestion_loop (fuel : nat) (instruction : str) : option (list str) :=
  match fuel with
  | 0 => None
  | S fuel =>
      let rule := instruction ++ lit "*" in
      match instruction with
      | [] => Some [rule]
      | _ =>
          match slice_to instruction (length instruction - 1) with
          | None => None
          | Some shorter =>
              match last_separator false 0 None shorter with
              | None => Some [rule]
              | Some pos =>
                  match slice_to shorter (pos + 1) with
                  | None => None
                  | Some next =>
                      match suggestion_loop fuel next with
                      | None => None
                      | Some rules => Some (rule :: rules)
                      end
                  end
              end
          end
      end
  end.

(** The rules of [edits_for_build_instruction] (config_editor.rs:381-437). *)
Definition suggested_rules (instruction : str) : option (list str) :=
  match last_separator false 0 None instruction with
  | None => suggestion_loop (S (length instruction)) instruction
  | Some pos =>
      match slice_to instruction (pos + 1) with
      | None => None
      | Some start => suggestion_loop (S (length instruction)) start
      end
  end.

(** ** Recorded environment variables *)

(** [name_is_unique] (crate_index.rs:88-96). *)
Definition name_is_unique (idx : crate_index) (name : str) : bool :=
  Nat.eqb (length (filter (fun p => pk_name p = name) idx)) 1.

(** Display of a version without pre-release parts. *)
Definition version_string (v : list nat) : str :=
  join (lit ".") (map (fun n => list_ascii_of_string (pretty n)) v).

(** [Display] of [PackageId] (crate_index.rs:359-377). *)
Definition pkg_string (idx : crate_index) (p : pkg_id) : str :=
  pi_name p ++
  if name_is_unique idx (pi_name p) then []
  else lit "[" ++ version_string (pi_version p) ++ lit "]".

(** The files under the target directory, by profile and file name: [env_vars_file]
    (sandbox.rs:244-250). *)
Notation env_files := (gmap (str * str) str).

(** [write_env_vars] (sandbox.rs:252-265), without I/O errors. *)
Definition write_env_vars (idx : crate_index) (files : env_files) (profile : str) (p : pkg_id)
    (names : list str) : env_files :=
  <[(profile, pkg_string idx p) := join [nl] names]> files.

(** [read_env_vars] (sandbox.rs:267-278). *)
Definition read_env_vars (idx : crate_index) (files : env_files) (profile : str) (p : pkg_id)
    : list str :=
  match files !! (profile, pkg_string idx p) with
  | None => []
  | Some contents =>
      if utf8_valid contents
      then filter (fun line => line <> []) (split_char nl contents)
      else []
  end.

(** What [BinExecutionComplete] does to the files (checker.rs:254-262); a run is the
    profile, the program, the exit code and the standard output. *)
Definition record_run (idx : crate_index) (ps : permissions) (files : env_files)
    (r : str * crate_sel * Z * str) : env_files :=
  let '(profile, sel, code, stdout) := r in
  match snd (execution_complete ps code sel 0 stdout) with
  | Some names => write_env_vars idx files profile (cs_pkg sel) names
  | None => files
  end.
