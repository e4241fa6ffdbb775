(** For whom, with which configuration and with which compiler a wrapper of rustc works: all of this is read from
    variables of the environment.
    Sources: /repo/src/proxy/subprocess.rs:193-233, 246-263, 315-317, 431-436, /repo/src/sandbox.rs:144-173,
    /repo/src/crate_index.rs:251-315. *)
From Verif Require Import Base TextModel ConfigModel ProblemModel StoreModel ScannerModel IndexModel SandboxModel
  SubprocessModel.

(** The world around one attempt to run rustc: the files with configurations, the variables recorded for a crate, the
    target directory and the profile, how running a command with these directories and variables in the sandbox goes,
    the other files, the answers of the main process. *)
Record surroundings := Surroundings {
  wo_config : str -> option (permissions * Z);
  wo_vars : crate_sel -> str -> str -> list str;
  wo_rustc : rustc_inputs -> command -> option proc_output;
  wo_read : str -> option str;
  wo_canonicalize : str -> option str;
  wo_answer : request -> option outcome
}.

Section wrapper.
  Context (parse_version : str -> option (list nat)).
  Context (lexer : str -> list lexed) (parse : str -> option message) (exe : str).

  (** The selector of [proxy_rustc] (subprocess.rs:202-205) with [CrateSel::from_env]; [None] is an error. *)
  Definition wrapper_sel (h : host) (argv : list str) : option crate_sel :=
    match id_from_env parse_version (env_var h), rustc_kind (env_var h) argv with
    | Some id, Some kind => Some (CrateSel (PkgId id.1.1 id.1.2) kind)
    | _, _ => None
    end.

  (** What [run] (subprocess.rs:246-263) reads from the environment before it runs anything: the configuration
      ([SubprocessConfig::from_env], 431-436), the compiler ([rustc_path_from_env], 222-230, in [get_command], 317),
      the directories ([RustcSandboxInputs::from_env], sandbox.rs:144-173). If one is missing then it ends with an
      error before anything is run. [RUSTC_PATH] is read with [var_os]; here it is text. *)
  Definition attempt_of (h : host) (sel : crate_sel) (argv : list str) (w : surroundings) : attempt :=
    match env_var h (lit "CACKLE_CONFIG_PATH"), env_var h (lit "CACKLE_RUSTC_PATH"),
          rustc_inputs_from_env h argv (wo_vars w sel) with
    | Some path, Some _, Some inputs =>
        Attempt (wo_config w path) (wo_rustc w inputs) (wo_read w) (wo_canonicalize w) (wo_answer w)
    | _, _, _ => Attempt None (fun _ => None) (wo_read w) (wo_canonicalize w) (wo_answer w)
    end.

  (** [proxy_rustc] (subprocess.rs:193-220). Without a name of a package rustc is run directly, in the world of the
      first attempt and without a sandbox. *)
  Definition rustc_wrapper (h : host) (direct : command -> option proc_output) (argv : list str) (worlds : list surroundings)
      : list event * ending :=
    match env_var h (lit "CARGO_PKG_NAME") with
    | None =>
        match env_var h (lit "CACKLE_RUSTC_PATH") with
        | None => ([], Fails)
        | Some rustc =>
            let c := Command rustc (drop 2 argv) [] in
            match direct c with
            | None => ([Ran c], Fails)
            | Some o => ([Ran c], Exits (exit_code o) (po_stdout o) (po_stderr o))
            end
        end
    | Some _ =>
        match wrapper_sel h argv with
        | None => ([], Fails)
        | Some sel =>
            proxy_rustc lexer parse (default [] (env_var h (lit "CACKLE_RUSTC_PATH"))) exe sel argv
              (map (attempt_of h sel argv) worlds)
        end
    end.
End wrapper.
