(** The wrappers of rustc, of the linker and of the programs that are built, and the answers of the
    main process.
    Source: /repo/src/proxy/subprocess.rs, /repo/src/proxy/errors.rs, /repo/src/main.rs:577-606,
    /repo/src/proxy.rs:299-314, /repo/src/outcome.rs. *)
From Verif Require Import Base TextModel ApiMapModel ConfigModel ProblemModel StoreModel BuildScriptModel
  ScannerModel DepsModel IndexModel SandboxModel.

(** ** Running programs *)

(** [std::process::Output]: the exit code is missing if the program was killed by a signal. *)
Record proc_output := ProcOutput {
  po_code : option Z;
  po_stdout : str;
  po_stderr : str
}.

(** [ExitCode::from] (outcome.rs:43-47). *)
Definition exit_code (o : proc_output) : Z := default (-1)%Z (po_code o).

(** [std::process::Command]: program, arguments, variables set. *)
Record command := Command {
  cm_program : str;
  cm_args : list str;
  cm_env : list (str * str)
}.

(** A place in a file ([SourceLocation], location.rs:7-12). Both sources of locations used here
    give a column. *)
Notation place := (str * nat * nat)%type.

(** What the wrappers send to the main process ([rpc::Request]). For a finished program the
    request also says how it was run, which no check looks at. *)
Inductive request :=
| RustcComplete (sel : crate_sel) (files : list str)
| UsesUnsafe (sel : crate_sel) (places : list place)
| UsesExtern (sel : crate_sel) (places : list place)
| BinComplete (sel : crate_sel) (code : Z) (stdout stderr : str).

(** ** rustc *)

(** The loop of [get_command] (subprocess.rs:320-344): the arguments that are kept, and the linker
    that was asked for. *)
Fixpoint kept_args (args : list str) (linker : option str) : list str * option str :=
  match args with
  | [] => ([], linker)
  | arg :: rest =>
      let pass :=
        if starts_with (lit "--error-format") arg then kept_args rest linker
        else let '(args, linker) := kept_args rest linker in (arg :: args, linker) in
      if str_eqb arg (lit "-C") then
        match rest with
        | next :: rest' =>
            match strip_prefix (lit "linker=") next with
            | Some l => kept_args rest' (Some l)
            | None => if starts_with (lit "debuginfo=") next then kept_args rest' linker else pass
            end
        | [] => pass
        end
      else pass
  end.

(** [get_command] (subprocess.rs:315-365). [argv] are the arguments of the wrapper: itself, rustc as
    cargo names it, and rustc's arguments. *)
Definition get_command (rustc exe : str) (kind : crate_kind) (argv : list str)
    (unsafe_ok extern_ok : bool) : command :=
  let '(args, linker) := kept_args (drop 2 argv) None in
  Command rustc
    (args ++ [lit "-C"; lit "debuginfo=2"; lit "--error-format=json"; lit "-C"; lit "linker=" ++ exe;
              lit "-C"; lit "save-temps"; lit "-Ccodegen-units=1"]
     ++ (if unsafe_ok then [] else [lit "-Funsafe-code"])
     ++ (if extern_ok then [] else [lit "-Fmissing-unsafe-on-extern"]))
    (match linker with Some l => [(lit "CACKLE_ORIG_LINKER", l)] | None => [] end
     ++ [(lit "CACKLE_CRATE_KIND", to_token kind)]).

(** The fields of rustc's messages that are read (errors.rs:74-100); lines that are not such
    messages are skipped, so reading a line gives an option. *)
Record message := Message {
  ms_code : str;
  ms_level : str;
  ms_spans : list place
}.

(** [get_disallowed_unsafe_locations_str], [get_disallowed_extern_locations_str]
    (errors.rs:29-73). *)
Definition error_places (parse : str -> option message) (canonicalize : str -> option str)
    (code output : str) : list place :=
  omap (fun line =>
    match parse line with
    | Some m =>
        if str_eqb (ms_level m) (lit "error") && str_eqb (ms_code m) code then
          match ms_spans m with
          | (file, line, column) :: _ => Some (default file (canonicalize file), line, column)
          | [] => None
          end
        else None
    | None => None
    end) (str_lines output).

(** [get_disallowed_unsafe_locations], [get_disallowed_extern_locations] (errors.rs:11-27): output
    that is not text is an error. *)
Definition disallowed_places (parse : str -> option message) (canonicalize : str -> option str)
    (code output : str) : option (list place) :=
  if utf8_valid output then Some (error_places parse canonicalize code output) else None.

(** [find_unsafe_in_sources], [find_extern_in_sources] (subprocess.rs:369-384). *)
Fixpoint find_in_sources (scan : str -> option (list location)) (read : str -> option str)
    (paths : list str) : option (list place) :=
  match paths with
  | [] => Some []
  | path :: paths =>
      match read path with
      | None => None
      | Some bytes =>
          match scan bytes, find_in_sources scan read paths with
          | Some ls, Some rest => Some (map (fun l : location => (path, l.1, l.2)) ls ++ rest)
          | _, _ => None
          end
      end
  end.

(** Comparison of places ([derive(Ord)], location.rs:6): the path first, by components, then line,
    then column. *)
Fixpoint compare_lists {A} (compare : A -> A -> comparison) (l k : list A) : comparison :=
  match l, k with
  | [], [] => Eq
  | [], _ :: _ => Lt
  | _ :: _, [] => Gt
  | a :: l, b :: k => match compare a b with Eq => compare_lists compare l k | c => c end
  end.

Definition compare_chars (a b : ascii) : comparison := Nat.compare (nat_of_ascii a) (nat_of_ascii b).
Definition compare_paths (a b : str) : comparison :=
  compare_lists (compare_lists compare_chars) (split_char "/"%char a) (split_char "/"%char b).
Definition compare_places (a b : place) : comparison :=
  match compare_paths a.1.1 b.1.1 with
  | Eq => match Nat.compare a.1.2 b.1.2 with
          | Eq => Nat.compare a.2 b.2
          | c => c
          end
  | c => c
  end.

(** [Vec::sort]. *)
Fixpoint insert_place (p : place) (l : list place) : list place :=
  match l with
  | [] => [p]
  | q :: l => match compare_places p q with Gt => q :: insert_place p l | _ => p :: q :: l end
  end.
Definition sort_places (l : list place) : list place := foldr insert_place [] l.

(** [Vec::dedup]: equal neighbours. *)
Fixpoint dedup_places (l : list place) : list place :=
  match l with
  | p :: (q :: _) as rest =>
      if bool_decide (p = q) then dedup_places rest else p :: dedup_places rest
  | _ => l
  end.

(** Everything outside the wrapper during one attempt: the configuration file
    ([SubprocessConfig::from_env]: permissions and version), rustc (run in the sandbox if there is
    one), the file system after that, the answers of the main process. [None] is an error. *)
Record attempt := Attempt {
  at_config : option (permissions * Z);
  at_rustc : command -> option proc_output;
  at_read : str -> option str;
  at_canonicalize : str -> option str;
  at_answer : request -> option outcome
}.

(** [RustcRunStatus] (subprocess.rs:235-239) or an error. *)
Inductive run_status :=
| Retry
| StatusGiveUp
| Done (o : proc_output)
| StatusError.

(** What can be seen from outside: programs that are run and requests that are sent. *)
Inductive event :=
| Ran (c : command)
| Asked (r : request).

(** subprocess.rs:294-299 and 304-309. *)
Definition after_report (answer : option outcome) : run_status :=
  match answer with
  | Some Continue => Retry
  | Some GiveUp => StatusGiveUp
  | None => StatusError
  end.

(** subprocess.rs:291-312. *)
Definition report (a : attempt) (sel : crate_sel) (o : proc_output) (uses_unsafe uses_extern : list place)
    : list event * run_status :=
  match uses_unsafe, uses_extern with
  | _ :: _, _ =>
      let r := UsesUnsafe sel (dedup_places (sort_places uses_unsafe)) in
      ([Asked r], after_report (at_answer a r))
  | [], _ :: _ =>
      let r := UsesExtern sel (dedup_places (sort_places uses_extern)) in
      ([Asked r], after_report (at_answer a r))
  | [], [] => ([], Done o)
  end.

Section rustc.
  Context (lexer : str -> list lexed) (parse : str -> option message) (rustc exe : str).

  (** [RustcRunner::run] (subprocess.rs:246-313). The sandbox around rustc is part of [at_rustc]; its
      arguments are modelled by [for_rustc]. *)
  Definition run (sel : crate_sel) (argv : list str) (a : attempt) : list event * run_status :=
    match at_config a with
    | None => ([], StatusError)
    | Some (ps, version) =>
        let unsafe_ok := unsafe_permitted ps (pi_name (cs_pkg sel)) (cs_kind sel) in
        let extern_ok := extern_permitted ps version (pi_name (cs_pkg sel)) (cs_kind sel) in
        let c := get_command rustc exe (cs_kind sel) argv unsafe_ok extern_ok in
        match at_rustc a c with
        | None => ([Ran c], StatusError)
        | Some o =>
            if bool_decide (po_code o = Some 0%Z) then
              match source_files (at_read a) (at_canonicalize a) argv with
              | None => ([Ran c], StatusError)
              | Some files =>
                  let r := RustcComplete sel files in
                  match at_answer a r with
                  | None => ([Ran c; Asked r], StatusError)
                  | Some GiveUp => ([Ran c; Asked r], StatusGiveUp)
                  | Some Continue =>
                      match (if unsafe_ok then Some [] else find_in_sources (scan_unsafe lexer) (at_read a) files),
                            (if extern_ok then Some [] else find_in_sources (scan_extern lexer) (at_read a) files) with
                      | Some uses_unsafe, Some uses_extern =>
                          let '(evs, st) := report a sel o uses_unsafe uses_extern in
                          (Ran c :: Asked r :: evs, st)
                      | _, _ => ([Ran c; Asked r], StatusError)
                      end
                  end
              end
            else
              match disallowed_places parse (at_canonicalize a) (lit "unsafe_code") (po_stderr o),
                    disallowed_places parse (at_canonicalize a) (lit "missing_unsafe_on_extern") (po_stderr o) with
              | Some uses_unsafe, Some uses_extern =>
                  let '(evs, st) := report a sel o uses_unsafe uses_extern in (Ran c :: evs, st)
              | _, _ => ([Ran c], StatusError)
              end
        end
    end.

  (** How a wrapper ends: with an exit code after writing to standard output and standard error,
      with an error message of its own (and a failure code), or not within the attempts given. *)
  Inductive ending :=
  | Exits (code : Z) (stdout stderr : str)
  | Fails
  | Unfinished.

  (** The loop of [proxy_rustc] (subprocess.rs:208-218). Notices that compilation started
      ([rustc_started], 207) are left out: the answer is not looked at. *)
  Fixpoint proxy_rustc (sel : crate_sel) (argv : list str) (attempts : list attempt)
      : list event * ending :=
    match attempts with
    | [] => ([], Unfinished)
    | a :: rest =>
        let '(evs, st) := run sel argv a in
        match st with
        | Retry => let '(more, e) := proxy_rustc sel argv rest in (evs ++ more, e)
        | StatusGiveUp => (evs, Exits (-1)%Z [] [])
        | Done o => (evs, Exits (exit_code o) (po_stdout o) (po_stderr o))
        | StatusError => (evs, Fails)
        end
    end.
End rustc.

(** ** The linker *)

(** [invoke_real_linker], [default_linker] (subprocess.rs:406-421): the program that is run. *)
Definition real_linker (env : str -> option str) : str :=
  default (lit "cc") (env (lit "CACKLE_ORIG_LINKER")).

(** ** Programs that were built *)

(** One attempt: the configuration, how running a command outside and inside a sandbox with
    these arguments goes, and the answers. *)
Record bin_attempt := BinAttempt {
  ba_config : option permissions;
  ba_host : host;
  ba_run : command -> option proc_output;
  ba_run_in : list str -> command -> option proc_output;
  ba_answer : request -> option outcome
}.

(** [proxy_binary] (subprocess.rs:139-191). Outside a sandbox the program writes to the wrapper's own
    standard output and error. Events say with which arguments the program itself was run. *)
Fixpoint proxy_binary (bin : str) (sel : crate_sel) (args : list str) (attempts : list bin_attempt)
    : list event * ending :=
  match attempts with
  | [] => ([], Unfinished)
  | a :: rest =>
      match ba_config a with
      | None => ([], Fails)
      | Some ps =>
          let config := sandbox_config_for_package ps (pi_name (cs_pkg sel), scope_of_kind (cs_kind sel)) in
          match for_perm_sel (ba_host a) config bin with
          | None => ([], Fails)
          | Some None =>
              let c := Command bin (args ++ args) [] in
              match ba_run a c with
              | None => ([Ran c], Fails)
              | Some o => ([Ran c], Exits (exit_code o) (po_stdout o) (po_stderr o))
              end
          | Some (Some sandbox) =>
              let c := Command bin args [] in
              match ba_run_in a sandbox c with
              | None => ([Ran c], Fails)
              | Some o =>
                  let r := BinComplete sel (exit_code o) (po_stdout o) (po_stderr o) in
                  match ba_answer a r with
                  | None => ([Ran c; Asked r], Fails)
                  | Some GiveUp => ([Ran c; Asked r], Exits (-1)%Z [] [])
                  | Some Continue =>
                      if bool_decide (po_code o = Some 0%Z) then
                        ([Ran c; Asked r], Exits 0 (po_stdout o) (po_stderr o))
                      else let '(more, e) := proxy_binary bin sel args rest in
                           (Ran c :: Asked r :: more, e)
                  end
              end
          end
      end
  end.

(** ** The main process *)

(** One turn of the loop of [handle_request] (main.rs:577-606): the problems found by the checker
    ([None] is an error), the answer of the user interface, whether the configuration could be
    reloaded. *)
Record turn := Turn {
  tn_problems : option (list problem);
  tn_fix : outcome;
  tn_reload : bool
}.

(** [handle_request] (main.rs:577-606) and [process_request] (proxy.rs:299-314): the answer that is
    sent; an error is sent as giving up. [None] if the turns are used up. *)
Fixpoint handle_request (turns : list turn) : option outcome :=
  match turns with
  | [] => None
  | t :: rest =>
      match tn_problems t with
      | None => Some GiveUp
      | Some [] => Some Continue
      | Some problems =>
          match tn_fix t with
          | GiveUp => Some GiveUp
          | Continue =>
              if negb (tn_reload t) then Some GiveUp
              else if all_send_retry problems then Some Continue
              else handle_request rest
          end
      end
  end.
