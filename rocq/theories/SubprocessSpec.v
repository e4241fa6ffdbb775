(** What the wrappers should do. *)
From Verif Require Import Base TextSpec TextModel ApiMapModel ConfigModel ConfigSpec ProblemModel StoreModel BuildScriptSpec
  ScannerModel ScannerSpec SubprocessModel.

(** ** rustc's arguments *)

(** The arguments of rustc as cargo gives them: every [-C] is followed by its value. *)
Inductive rustc_arg :=
| LinkerArg (linker : str)
| DebugArg (level : str)
| FormatArg (rest : str)
| CodegenArg (option : str)
| OtherArg (arg : str).

Definition arg_text (a : rustc_arg) : list str :=
  match a with
  | LinkerArg linker => [lit "-C"; lit "linker=" ++ linker]
  | DebugArg level => [lit "-C"; lit "debuginfo=" ++ level]
  | FormatArg rest => [lit "--error-format" ++ rest]
  | CodegenArg option => [lit "-C"; option]
  | OtherArg arg => [arg]
  end.

Definition proper_arg (a : rustc_arg) : Prop :=
  match a with
  | CodegenArg o =>
      ~ lit "linker=" `prefix_of` o /\ ~ lit "debuginfo=" `prefix_of` o /\ o <> lit "-C" /\
      ~ lit "--error-format" `prefix_of` o
  | OtherArg o => o <> lit "-C" /\ ~ lit "--error-format" `prefix_of` o
  | _ => True
  end.

(** Arguments that cackle leaves alone. *)
Inductive passed_on : list rustc_arg -> list str -> Prop :=
| passed_none : passed_on [] []
| passed_codegen o items rest : passed_on items rest -> passed_on (CodegenArg o :: items) (lit "-C" :: o :: rest)
| passed_other o items rest : passed_on items rest -> passed_on (OtherArg o :: items) (o :: rest)
| passed_linker l items rest : passed_on items rest -> passed_on (LinkerArg l :: items) rest
| passed_debug l items rest : passed_on items rest -> passed_on (DebugArg l :: items) rest
| passed_format l items rest : passed_on items rest -> passed_on (FormatArg l :: items) rest.

(** The linker asked for: the last one counts. *)
Definition linker_asked (items : list rustc_arg) (l : str) : Prop :=
  exists before after, items = before ++ LinkerArg l :: after /\ forall l', LinkerArg l' ∉ after.

(** ** Permissions of a crate *)

Definition may_use_unsafe (ps : permissions) (sel : crate_sel) : Prop :=
  exists c, ps !! (pi_name (cs_pkg sel), crate_scope (cs_kind sel)) = Some c /\ pc_allow_unsafe c = true.

(** Up to version 2 of the configuration [extern] was covered by [allow_unsafe]. *)
Definition may_use_extern (ps : permissions) (version : Z) (sel : crate_sel) : Prop :=
  exists c, ps !! (pi_name (cs_pkg sel), crate_scope (cs_kind sel)) = Some c /\
    ((version <= 2)%Z /\ pc_allow_unsafe c = true \/ (2 < version)%Z /\ pc_allow_extern c = true).

(** ** Source files *)

(** The lexer divides every text into pieces. *)
Definition lexes (lexer : str -> list lexed) (bytes : str) (pieces : list source_piece) : Prop :=
  well_lexed pieces /\ source_text pieces = bytes /\ lexer bytes = map lexed_piece pieces.
Definition lexer_ok (lexer : str -> list lexed) : Prop :=
  forall bytes, is_utf8 bytes -> exists pieces, lexes lexer bytes pieces.

(** The file uses the keyword at this line and column, before the rest of the file. *)
Definition use_before (use : str -> list source_piece -> Prop) (lexer : str -> list lexed) (bytes : str)
    (line col : nat) (rest : list source_piece) : Prop :=
  exists pieces before t, lexes lexer bytes pieces /\ pieces = before ++ Token t :: rest /\
    use t rest /\ line = line_after (source_text before) /\ column_after (source_text before) col.

Definition used_at (use : str -> list source_piece -> Prop) (lexer : str -> list lexed) (bytes : str)
    (line col : nat) : Prop :=
  exists rest, use_before use lexer bytes line col rest.

(** The same, where more follows than comments and white space. *)
Definition used_early (use : str -> list source_piece -> Prop) (lexer : str -> list lexed) (bytes : str)
    (line col : nat) : Prop :=
  exists rest, use_before use lexer bytes line col rest /\ ~ no_token rest.

(** No use, unless it is the very last token of the file. *)
Definition not_used (use : str -> list source_piece -> Prop) (lexer : str -> list lexed) (bytes : str) : Prop :=
  forall line col, ~ used_early use lexer bytes line col.

(** The places of uses in some files. All are given except possibly one at the very end of a file. *)
Definition uses_in (use : str -> list source_piece -> Prop) (lexer : str -> list lexed)
    (read : str -> option str) (files : list str) (ps : list place) : Prop :=
  (forall f line col, (f, line, col) ∈ ps ->
     f ∈ files /\ exists bytes, read f = Some bytes /\ used_at use lexer bytes line col) /\
  (forall f bytes line col, f ∈ files -> read f = Some bytes ->
     used_early use lexer bytes line col -> (f, line, col) ∈ ps).

(** The places of rustc's errors with a certain code: one for each message. *)
Definition errors_in (parse : str -> option message) (canonicalize : str -> option str) (code : str)
    (output : str) (ps : list place) : Prop :=
  forall f line col, (f, line, col) ∈ ps <->
    exists ls text m f0 more, lines_of output ls /\ text ∈ ls /\ parse text = Some m /\
      ms_level m = lit "error" /\ ms_code m = code /\ ms_spans m = (f0, line, col) :: more /\
      (canonicalize f0 = Some f \/ canonicalize f0 = None /\ f = f0).

(** ** Answers of the main process *)

(** Problems after which the wrapper tries again, by itself, with the new configuration. *)
Definition retried_by_wrapper (p : problem) : Prop :=
  (exists c o, p = PExecutionFailed c o) \/ (exists c l, p = PDisallowedUnsafe c l) \/
  (exists c l, p = PDisallowedExtern c l).

(** ** Programs that were built *)

(** The program is to be run in a sandbox. *)
Definition runs_sandboxed (ps : permissions) (sel : crate_sel) : Prop :=
  exists c, ps !! (pi_name (cs_pkg sel), crate_scope (cs_kind sel)) = Some c /\
    sb_kind (pc_sandbox c) = Some Bubblewrap.

(** Variables of a command on top of those of its parent. *)
Inductive variable_of (env : str -> option str) (c : command) (name : str) : option str -> Prop :=
| var_set before after value :
    cm_env c = before ++ (name, value) :: after -> (forall v, (name, v) ∉ after) ->
    variable_of env c name (Some value)
| var_inherited : (forall v, (name, v) ∉ cm_env c) -> variable_of env c name (env name).
