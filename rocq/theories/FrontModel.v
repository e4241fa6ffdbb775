(** What happens before and around the analysis: the directory that is analysed, the built-in API
    definitions, the initial configuration, the prompt of the basic interface, and requests that are
    saved and replayed.
    Sources: /repo/src/main.rs, /repo/src/config/built_in.rs, /repo/src/ui/basic_term.rs,
    /repo/src/config_editor.rs. *)
From Coq Require Import NArith.
From Verif Require Import Base TextModel ApiMapModel ConfigModel ProblemModel StoreModel TomlModel
  EditorModel DemangleModel IndexModel ReportModel.

(** ** The directory *)

(** The loop of [root_path] (main.rs:538-551) from the current directory upwards. A directory is the list
    of its components below the root, here with the last one first; [exists_file] is [Path::exists].
    [None] is the error of line 546. *)
Fixpoint find_manifest (exists_file : list str -> bool) (dir : list str) : option (list str) :=
  if exists_file (rev dir ++ [lit "Cargo.toml"]) then Some (rev dir)
  else match dir with
       | [] => None
       | _ :: parent => find_manifest exists_file parent
       end.

(** [root_path] (main.rs:531-552). [given] is the option [--path]; a current directory that cannot be
    determined is [None]. *)
Definition root_path (exists_file : list str -> bool) (given cwd : option (list str))
    : option (list str) :=
  match given with
  | Some path => Some path
  | None =>
      match cwd with
      | Some dir => find_manifest exists_file (rev dir)
      | None => None
      end
  end.

(** ** The built-in definitions *)

(** [get_built_ins] and [perm] (config/built_in.rs:6-72). *)
Definition perm (include exclude : list str) : api_config := ApiConfig include exclude [].
Definition built_in_list : list (str * api_config) :=
  [(lit "fs", perm [lit "std::fs"; lit "std::os::linux::fs"; lit "std::os::unix::fs";
                    lit "std::os::unix::io"; lit "std::path"] []);
   (lit "env", perm [lit "std::env"] []);
   (lit "net", perm [lit "std::net"; lit "std::os::linux::net"] []);
   (lit "unix_sockets", perm [lit "std::os::unix::net"] []);
   (lit "process", perm [lit "std::process"; lit "std::os::linux::process"; lit "std::unix::process"]
                        [lit "std::process::abort"; lit "std::process::exit"]);
   (lit "terminate", perm [lit "std::process::abort"; lit "std::process::exit"] [])].
Definition built_ins : gmap str api_config := list_to_map built_in_list.

(** ** Lines that the user types

    Only lines of ASCII characters are modelled: [str::trim] also removes other white space of Unicode and
    [to_lowercase] also changes other letters. *)
Definition is_space (c : ascii) : bool := between 9 13 c || Ascii.eqb c " "%char.
Fixpoint trim_start (s : str) : str :=
  match s with
  | c :: s' => if is_space c then trim_start s' else s
  | [] => []
  end.
Definition trim (s : str) : str := rev (trim_start (rev (trim_start s))).
Definition lower (c : ascii) : ascii :=
  if between 65 90 c then ascii_of_N (N_of_ascii c + 32) else c.

(** ** The prompt of the basic interface *)

(** The configuration file: missing or not readable (also because it is not UTF-8), not TOML, or a
    document. *)
Inductive disk := NotReadable | NotToml | Doc (d : table).

(** [ConfigEditor::from_file] and [from_toml_string] (config_editor.rs:153-165): what cannot be read is
    taken to be empty. *)
Definition from_file (f : disk) : option table :=
  match f with
  | NotReadable => Some []
  | NotToml => None
  | Doc d => Some d
  end.

(** [fix_index] (basic_term.rs:241-247). *)
Definition fix_index (s : str) (num_fixes : nat) : option nat :=
  match parse_level s with
  | None => None
  | Some n => if Nat.ltb n 1 || Nat.ltb num_fixes n then None else Some (n - 1)
  end.

(** [Action] (basic_term.rs:249-254) as far as it comes from a line, and the second half of [get_action]
    (197, 211-215); [None] is an error, which is printed (180-182). *)
Inductive action := ApplyFix (n : nat) | ShowDiff (n : nat).
Definition line_action (line : str) (num_fixes : nat) : option action :=
  let response := trim (map lower line) in
  match strip_prefix (lit "d") response with
  | Some rest => option_map ShowDiff (fix_index rest num_fixes)
  | None => option_map ApplyFix (fix_index response num_fixes)
  end.

(** The file with its time of modification ([config_modification_time], basic_term.rs:256-258) and the
    time that the interface knows ([config_last_modified]). *)
Record prompt_state := PromptState {
  ps_file : disk; ps_time : option N; ps_known : option N }.

(** What happens while the prompt is shown: somebody else changes the file; a line is typed, with the
    time at which the file is written if it is written ([None] if that fails); 250 ms pass. If the list
    ends the input is closed. *)
Inductive prompt_event :=
| EvFile (f : disk) (time : option N)
| EvLine (line : str) (written : option N)
| EvTick.

(** What is printed: a difference for a fix, from the old to the new document, or an error. *)
Inductive prompt_output := ODiff (n : nat) (before after : table) | OInvalid.

(** How the prompt ends: the problem is taken as solved, after writing the file or because the file was
    changed; it is given up; or with an error, which ends the thread of the interface. *)
Inductive prompt_end := Fixed | Retried | GivenUp | Failed.

Inductive prompt_step_result :=
| Stays (s : prompt_state) (o : list prompt_output)
| Ends (s : prompt_state) (e : prompt_end).

Section prompt.
  Context (apply : edit -> table -> option table).

  (** One event in [prompt_for_fix] (basic_term.rs:156-185) and [get_action] (187-216). Line 172 fails
      for a file that cannot be read. *)
  Definition prompt_step (fixes : list edit) (s : prompt_state) (ev : prompt_event)
      : prompt_step_result :=
    match ev with
    | EvFile f t => Stays (PromptState f t (ps_known s)) []
    | EvTick =>
        if bool_decide (ps_known s = ps_time s) then Stays s []
        else Ends (PromptState (ps_file s) (ps_time s) (ps_time s)) Retried
    | EvLine line written =>
        match line_action line (length fixes) with
        | None => Stays s [OInvalid]
        | Some a =>
            match from_file (ps_file s) with
            | None => Ends s Failed
            | Some d =>
                match a with
                | ApplyFix n =>
                    match fixes !! n ≫= (fun e => apply e d) with
                    | None => Ends s Failed
                    | Some d' =>
                        match written with
                        | None => Ends s Failed
                        | Some t => Ends (PromptState (Doc d') (Some t) (Some t)) Fixed
                        end
                    end
                | ShowDiff n =>
                    match fixes !! n ≫= (fun e => apply e d) with
                    | None => Ends s Failed
                    | Some d' =>
                        match ps_file s with
                        | NotReadable => Ends s Failed
                        | _ => Stays s [ODiff n d d']
                        end
                    end
                end
            end
        end
    end.

  (** The loop of [prompt_for_fix] (157-184): the state, what was printed, how it ended, and the events
      that are left. *)
  Fixpoint prompt_for_fix (fixes : list edit) (s : prompt_state) (evs : list prompt_event)
      : prompt_state * list prompt_output * prompt_end * list prompt_event :=
    match evs with
    | [] => (s, [], GivenUp, [])
    | ev :: evs =>
        match prompt_step fixes s ev with
        | Ends s' e => (s', [], e, evs)
        | Stays s' o =>
            let '(s'', o', e, rest) := prompt_for_fix fixes s' evs in (s'', o ++ o', e, rest)
        end
    end.
End prompt.

(** ** The initial configuration *)

Section initial.
  Context (usable : sandbox_kind -> bool).

  (** The loop over the parts of a line (basic_term.rs:131-142): the document and whether no part is
      unknown. *)
  Fixpoint select_parts (parts : list str) (d : table) : option (table * bool) :=
    match parts with
    | [] => Some (d, true)
    | part :: parts =>
        let part := trim part in
        match part with
        | [] => select_parts parts d
        | _ =>
            match built_ins !! part with
            | Some _ => d' ← apply_edit usable built_ins (ImportStdApi part) d; select_parts parts d'
            | None => r ← select_parts parts d; Some (r.1, false)
            end
        end
    end.

  (** The loop over the lines (128-143): the document and the lines that are left. [None] if the input is
      closed or the document cannot be edited. *)
  Fixpoint select_apis (lines : list str) (d : table) : option (table * list str) :=
    match lines with
    | [] => None
    | line :: lines =>
        match select_parts (split_char ","%char (trim line)) d with
        | None => None
        | Some (d', true) => Some (d', lines)
        | Some (d', false) => select_apis lines d'
        end
    end.

  (** [create_initial_config] (basic_term.rs:107-154); [kind] is what [available_kind] of sandbox.rs
      finds. [None] is an error; otherwise the document that is written. *)
  Definition create_initial_config (kind : sandbox_kind) (lines : list str) : option (table * list str) :=
    d ← edit_version max_version [];
    d ← apply_edit usable built_ins (SelectSandbox kind) d;
    r ← select_apis lines d;
    match r.2 with
    | [] => None
    | _ :: rest => Some (r.1, rest)
    end.

  (** The reaction to a missing configuration (basic_term.rs:58-68): the file that is written, with which
      the problem is resolved, or the panic of line 65. *)
  Inductive initial_turn := Created (d : table) (rest : list str) | Panic.
  Definition missing_configuration (kind : sandbox_kind) (lines : list str) : initial_turn :=
    match create_initial_config kind lines with
    | Some (d, rest) => Created d rest
    | None => Panic
    end.
End initial.

(** ** Saved requests *)

(** The name of the file (main.rs:524): the number with at least three digits. *)
Definition rpc_name (n : nat) : str :=
  let digits := number (N.of_nat n) in
  replicate (3 - length digits) "0"%char ++ digits ++ lit ".cackle-rpc".

Section saved.
  (** [S] is the state of the checker; [print] and [parse] stand for [serde_json::to_string] and
      [serde_json::from_str]; [handle] for a request handler ([None] is an error). *)
  Context {R S : Type} (print : R -> str) (parse : str -> option R)
    (handle : S -> R -> S * option outcome).

  (** [save_request] (main.rs:518-528), on the files of the directory. *)
  Definition save_request (dir : gmap str str) (r : R) : gmap str str :=
    <[rpc_name (size dir) := print r]> dir.

  (** The loop of [replay_requests] (main.rs:490-509) with [replay_request] (511-516). [false] is an
      error. *)
  Fixpoint replay_loop (s : S) (files : list str) : S * bool :=
    match files with
    | [] => (s, true)
    | text :: files =>
        match parse text with
        | None => (s, false)
        | Some r =>
            match handle s r with
            | (s', Some Continue) => replay_loop s' files
            | (s', _) => (s', false)
            end
        end
    end.
  Definition replay_requests (s : S) (dir : gmap str str) : S * bool :=
    replay_loop s (omap (fun name => dir !! name) (sort_strs (map fst (map_to_list dir)))).
End saved.
