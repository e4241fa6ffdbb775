(** How problems are reported, how uses are listed, and how a place in the sources is shown.
    Source: /repo/src/problem.rs, /repo/src/location.rs, /repo/src/crate_index.rs,
    /repo/src/config/permissions.rs, /repo/src/ui/full_term/problems_ui.rs. *)
From stdpp Require Import pretty.
From Verif Require Import Base TextModel ApiMapModel ConfigModel.

(** Decimal numbers as written by [Display]. *)
Definition number (n : N) : str := list_ascii_of_string (pretty n).

(** [SourceLocation] (location.rs:7-12). *)
Record place := Place { pl_file : str; pl_line : N; pl_column : option N }.

(** "[line:column]" (location.rs:51-55, problem.rs:442-446). *)
Definition in_brackets (line : N) (column : option N) : str :=
  lit "[" ++ number line ++ match column with Some c => lit ":" ++ number c | None => [] end ++ lit "]".

(** [Display] of [SourceLocation] (location.rs:49-57). *)
Definition place_display (p : place) : str :=
  pl_file p ++ lit " " ++ in_brackets (pl_line p) (pl_column p).

(** A package as displayed (crate_index.rs:37-45). *)
Record shown_pkg := ShownPkg { sp_name : str; sp_version : str; sp_unique : bool }.

(** [Display] of [CrateSel] (crate_index.rs:358-371) and of [PackageId] (373-377). *)
Definition sel_display (p : shown_pkg) (k : crate_kind) : str :=
  sp_name p ++
  match k with BuildScript => lit ".build" | Primary => [] | TestCrate => lit ".test" end ++
  if sp_unique p then [] else lit "[" ++ sp_version p ++ lit "]".
Definition pkg_display (p : shown_pkg) : str := sel_display p Primary.

(** [Display] of [PermSel] (permissions.rs:298-307), [config_selector] (310-318). *)
Definition section_display (s : perm_sel) : str :=
  s.1 ++ match s.2 with
         | All => []
         | Build => lit ".build"
         | Test => lit ".test"
         | FromBuild => lit ".from.build"
         | FromTest => lit ".from.test"
         end.

(** A [BTreeMap] of vectors as a sorted list: [entry(k).or_default().push(v)]. [leb] is the order of the
    keys. *)
Section groups.
  Context {K V : Type} `{EqDecision K} (leb : K -> K -> bool).

  Fixpoint push_group (k : K) (v : V) (l : list (K * list V)) : list (K * list V) :=
    match l with
    | [] => [(k, [v])]
    | (k', vs) :: l' =>
        if decide (k = k') then (k', vs ++ [v]) :: l'
        else if leb k k' then (k, [v]) :: (k', vs) :: l'
        else (k', vs) :: push_group k v l'
    end.

  Definition group_by (key : V -> K) (vs : list V) : list (K * list V) :=
    fold_left (fun l v => push_group (key v) v l) vs [].
End groups.

Section report.
  (** The names of the code a use is in ([SymbolOrDebugName]), their order and their text. *)
  Context {K : Type} `{EqDecision K} (name_leb : K -> K -> bool) (name_text : K -> str).

  (** The part of [ApiUsage] that is displayed (checker.rs:84-97): [ru_to] is the text of [to_source]. Paths
      are compared as strings. *)
  Record use := Use { ru_from : K; ru_to : str; ru_place : place }.

  Definition newline : str := [nl].

  (** problem.rs:442-446 *)
  Definition use_line (u : use) : str :=
    lit "      -> " ++ ru_to u ++ lit " " ++ in_brackets (pl_line (ru_place u)) (pl_column (ru_place u)) ++ newline.

  (** [display_usages] (problem.rs:421-451). *)
  Definition display_uses (us : list use) : str :=
    concat (map (fun f : str * list use =>
        lit "  " ++ f.1 ++ newline ++
        concat (map (fun g : K * list use =>
            lit "    " ++ name_text g.1 ++ newline ++ concat (map use_line g.2))
          (group_by name_leb ru_from f.2)))
      (group_by str_leb (fun u => pl_file (ru_place u)) us)).

  (** [Problem] with all that is displayed (problem.rs:29-106). *)
  Inductive shown_problem :=
  | RMessage (text : str)
  | RMissingConfiguration (path : str)
  | RUsesBuildScript (p : shown_pkg)
  | RUnsafe (p : shown_pkg) (k : crate_kind) (places : list place)
  | RExtern (p : shown_pkg) (k : crate_kind) (places : list place)
  | RProcMacro (p : shown_pkg)
  | RApi (p : shown_pkg) (s : scope) (api : str) (us : list use)
  | ROffTree (p : shown_pkg) (s : scope) (api : str) (us : list use) (referenced : shown_pkg)
  | RExecutionFailed (p : shown_pkg) (k : crate_kind) (stderr stdout : str) (sandbox : option str)
  | RInstruction (p : shown_pkg) (instruction : str)
  | RUnusedPackage (s : perm_sel)
  | RUnusedApis (s : perm_sel) (apis : list str)
  | RSelectSandbox
  | RImportStd (api : str)
  | RAvailable (p : shown_pkg) (api : str)
  | RPossible (p : shown_pkg) (api symbol : str)
  | RUnusedSandbox (s : perm_sel)
  | RNewVersion (v : N).

  Definition quoted (s : str) : str := lit "`" ++ s ++ lit "`".

  (** problem.rs:362-372 *)
  Definition scope_note (s : scope) : str :=
    match s with
    | All => []
    | Build => lit " in its build script"
    | Test => lit " in its test(s)"
    | FromBuild => lit " in code included in a build script from another package"
    | FromTest => lit " in code included in a test from another package"
    end.

  (** problem.rs:255-257 *)
  Definition places_display (places : list place) : str :=
    concat (map (fun p => place_display p ++ newline) places).

  (** [Display] of [Problem] (problem.rs:244-349) and of its parts (351-419); [details] is the flag
      [alternate]. [from_utf8_lossy] is left out: the output of a program is taken to be text. *)
  Definition display (details : bool) (p : shown_problem) : str :=
    match p with
    | RMessage text => text
    | RNewVersion v => lit "Newer config version " ++ number v ++ lit " is available"
    | RUnsafe p k places =>
        quoted (sel_display p k) ++ lit " uses unsafe" ++
        if details then newline ++ places_display places else []
    | RExtern p k places =>
        quoted (sel_display p k) ++ lit " uses extern" ++
        if details then newline ++ places_display places else []
    | RUsesBuildScript p => quoted (pkg_display p) ++ lit " has a build script"
    | RProcMacro p => quoted (pkg_display p) ++ lit " is a proc macro"
    | RApi p s api us =>
        if details then
          lit "'" ++ pkg_display p ++ lit "' uses disallowed API " ++ quoted api ++ newline ++ display_uses us
        else quoted (pkg_display p) ++ lit " uses the " ++ quoted api ++ lit " API" ++ scope_note s
    | ROffTree p s api us referenced =>
        quoted (pkg_display p) ++ lit " uses " ++ quoted api ++ lit " API from non-dependency " ++
        quoted (pkg_display referenced) ++
        if details then newline ++ display_uses us else []
    | RExecutionFailed p k stderr stdout sandbox =>
        match k with
        | Primary => lit "Execution of binary for package " ++ quoted (pkg_display p) ++ lit " failed"
        | BuildScript => lit "Build script for package " ++ quoted (pkg_display p) ++ lit " failed"
        | TestCrate => lit "Execution of test for package " ++ quoted (pkg_display p) ++ lit " failed"
        end ++
        if details then
          newline ++ stderr ++ stdout ++
          match sandbox with
          | Some s => lit "Sandbox config:" ++ newline ++ s ++ newline
          | None => []
          end
        else []
    | RInstruction p instruction =>
        pkg_display p ++ lit "'s build script emitted disallowed instruction " ++ quoted instruction
    | RUnusedPackage s =>
        lit "Config supplied for package " ++ quoted (section_display s) ++ lit " not in dependency tree"
    | RUnusedApis s apis =>
        lit "`pkg." ++ section_display s ++ lit "` allows APIs that aren't used" ++
        if details then
          lit ":" ++ newline ++ concat (map (fun a => lit "    " ++ a ++ newline) apis)
        else []
    | RMissingConfiguration path => lit "Config file " ++ quoted path ++ lit " not found"
    | RSelectSandbox => lit "Select sandbox kind"
    | RImportStd api => lit "Optionally import std API " ++ quoted api
    | RAvailable p api => lit "Package " ++ quoted (pkg_display p) ++ lit " exports API " ++ quoted api
    | RPossible p api symbol =>
        if details then
          lit "Package " ++ quoted (pkg_display p) ++ lit " provides symbol " ++ quoted symbol ++
          lit ". A top-level module has the same name as the API " ++ quoted api ++
          lit ". If this module is public (we can't tell), then consider adjusting the API includes."
        else lit "Package " ++ quoted (pkg_display p) ++ lit " may provide API " ++ quoted api
    | RUnusedSandbox s =>
        lit "Having a sandbox configuration for " ++ quoted (section_display s) ++
        lit " doesn't make sense. Perhaps you meant to configure " ++
        quoted (section_display s ++ lit ".build.sandbox")
    end.

  (** ** The list of uses in the full-screen interface *)

  (** A line of the list: the place and the text of [list_display] (problems_ui.rs:1008-1061). *)
  Record listed_use := Listed { ld_place : place; ld_text : str }.

  (** The derived order of [SourceLocation] (location.rs:7): file, line, column. *)
  Definition place_leb (a b : place) : bool :=
    if decide (pl_file a = pl_file b) then
      if N.eqb (pl_line a) (pl_line b) then
        match pl_column a, pl_column b with
        | None, _ => true
        | Some _, None => false
        | Some x, Some y => N.leb x y
        end
      else N.leb (pl_line a) (pl_line b)
    else str_leb (pl_file a) (pl_file b).

  (** [sort_by_key] is stable: insertion sort from the right. *)
  Fixpoint insert_listed (u : listed_use) (l : list listed_use) : list listed_use :=
    match l with
    | [] => [u]
    | v :: l' => if place_leb (ld_place u) (ld_place v) then u :: v :: l' else v :: insert_listed u l'
    end.

  (** problems_ui.rs:1035-1040 and 1054-1059; [strip] is [Path::strip_prefix] for the directory of the
      package, if it is known. *)
  Definition place_text (strip : str -> option str) (p : place) : str :=
    default (pl_file p) (strip (pl_file p)) ++ lit ":" ++ number (pl_line p).

  (** [usages_for_problem] (problems_ui.rs:925-964). *)
  Definition listed_uses (strip : shown_pkg -> str -> option str) (p : shown_problem) : list listed_use :=
    foldr insert_listed []
      match p with
      | RApi _ _ _ us | ROffTree _ _ _ us _ =>
          map (fun u => Listed (ru_place u) (name_text (ru_from u) ++ lit " -> " ++ ru_to u)) us
      | RUnsafe q _ places | RExtern q _ places =>
          map (fun l => Listed l (place_text (strip q) l)) places
      | _ => []
      end.
End report.
Arguments use K : clear implicits.
Arguments shown_problem K : clear implicits.

(** ** Showing a place in the sources *)

(** Wrapping conversion to a signed number of 32 bits ([as i32]). *)
Definition as_i32 (n : Z) : Z := (n + 2 ^ 31) mod 2 ^ 32 - 2 ^ 31.

(** A piece of a line; [sp_marked] stands for reversed colours. Colours are left out. *)
Record span := Span { sn_text : str; sn_marked : bool }.

(** [format_line] (problems_ui.rs:788-807); [lexer] cuts the line into tokens. *)
Fixpoint format_tokens (offset : nat) (target : option nat) (tokens : list str) : list span :=
  match tokens with
  | [] => []
  | t :: ts =>
      let next := offset + length t in
      Span t (match target with Some c => Nat.leb offset c && Nat.ltb c next | None => false end)
      :: format_tokens next target ts
  end.
Definition format_line (lexer : str -> list str) (column : option N) (line : str) : list span :=
  format_tokens 0 ((fun c => N.to_nat c - 1) <$> column) (lexer line).

(** A line on the screen: marker, line number, text. The width of the gutter is left out. *)
Record shown_line := ShownLine { sl_marker : bool; sl_number : Z; sl_spans : list span }.

(** The loop of problems_ui.rs:768-784. *)
Fixpoint shown_from (lexer : str -> list str) (target : Z) (column : option N) (n : Z) (lines : list str)
    : list shown_line :=
  match lines with
  | [] => []
  | l :: ls =>
      let here := bool_decide (n = target) in
      ShownLine here n (format_line lexer (if here then column else None) l)
      :: shown_from lexer target column (n + 1) ls
  end.

(** [usage_source_lines] (problems_ui.rs:757-786) for a file that could be read; [max_lines] is the height
    of the area. [None] is the panic of [ilog10] (767) on a number that is not positive; arithmetic wraps
    as in a release build. *)
Definition source_lines (lexer : str -> list str) (source : str) (p : place) (max_lines : nat)
    : option (list shown_line) :=
  let before := as_i32 (Z.of_nat (max_lines / 2)) in
  let target := as_i32 (Z.of_N (pl_line p)) in
  let start := Z.max (as_i32 (target - before)) 1 in
  if Z.ltb 0 (as_i32 (start + as_i32 (Z.of_nat max_lines))) then
    Some (shown_from lexer target (pl_column p) start
            (take max_lines (drop (Z.to_nat start - 1) (str_lines source))))
  else None.
