(** The titles under which fixes are offered. Source: /repo/src/config_editor.rs. *)
From Verif Require Import Base ConfigModel ProblemModel EditorModel ReportModel.

Section titles.
  (** The text of a version, and whether a package is the only one of its name
      ([PackageId], crate_index.rs:37-45). *)
  Context (version_text : list nat -> str) (unique : pkg_id -> bool).

  Definition shown_id (p : pkg_id) : shown_pkg := ShownPkg (pi_name p) (version_text (pi_version p)) (unique p).

  (** The package and the API of the problem that some edits keep (config_editor.rs:83-91,
      130-136, 352-365). Other edits do not need them. *)
  Definition subject (p : problem) : pkg_id * str :=
    match p with
    | PAvailableApi p api _ => (p, api)
    | PDisallowedApiUsage u | POffTreeApiUsage u _ => (au_pkg u, au_api u)
    | _ => (PkgId [] [], [])
    end.

  (** [Debug] of [SandboxKind] (config.rs, derived). *)
  Definition kind_debug (k : sandbox_kind) : str :=
    match k with
    | Disabled => lit "Disabled"
    | Bubblewrap => lit "Bubblewrap"
    end.

  (** config_editor.rs:810-826 *)
  Definition scope_title (s : scope) : str :=
    match s with
    | All => []
    | Build => lit " when building its own build script"
    | Test => lit " when building its own tests"
    | FromBuild => lit " when building build scripts"
    | FromTest => lit " when building tests"
    end.

  (** [Edit::title]; the lines of config_editor.rs are beside the cases. *)
  Definition title (p : problem) (e : edit) : str :=
    match e with
    | CreateCustomConfig => lit "Create custom initial config"                    (* 461-463 *)
    | CreateRecommendedConfig => lit "Create recommended initial config"          (* 489-491 *)
    | SelectSandbox kind => kind_debug kind                                       (* 517-519 *)
    | ImportStdApi api => lit "Import std API " ++ quoted api                     (* 536-538 *)
    | ImportApi pkg api =>                                                        (* 554-560 *)
        lit "Import API " ++ quoted api ++ lit " from package " ++ quoted pkg
    | InlineStdApi api => lit "Inline std API " ++ quoted api                     (* 583-585 *)
    | InlineApi _ api _ =>                                                        (* 610-615 *)
        lit "Inline API " ++ quoted api ++ lit " from package " ++ quoted (pkg_display (shown_id (subject p).1))
    | IgnoreStdApi api => lit "Ignore std API " ++ quoted api                     (* 671-673 *)
    | IgnoreApi _ =>                                                              (* 693-698 *)
        lit "Ignore API " ++ quoted (subject p).2 ++ lit " provided by package "
        ++ quoted (pkg_display (shown_id (subject p).1))
    | ExtendApi api path => lit "Include " ++ quoted path ++ lit " in API " ++ quoted api       (* 725-727 *)
    | ExcludeFromApi api path => lit "Exclude " ++ quoted path ++ lit " from API " ++ quoted api (* 750-752 *)
    | NoDetectApi api pkg => lit "Don't detect " ++ quoted api ++ lit " in " ++ quoted pkg      (* 772-778 *)
    | AllowApiUsage sel api =>                                                    (* 807-827 *)
        lit "Allow " ++ quoted (pkg_display (shown_id (subject p).1)) ++ lit " to use " ++ quoted api
        ++ lit " API" ++ scope_title sel.2
    | RemoveUnusedAllowApis _ _ => lit "Remove unused allowed APIs"               (* 880-882 *)
    | RemoveUnusedPkgConfig _ => lit "Remove unused crate configuration"          (* 916-918 *)
    | UpdateConfigVersion n => lit "Update config to version " ++ number (N.of_nat n)           (* 939-941 *)
    | UpdateConfigVersionPreserveBehaviour n =>                                   (* 957-962 *)
        lit "Update config to version " ++ number (N.of_nat n) ++ lit " while preserving old behaviour"
    | AllowProcMacro sel => lit "Allow proc macro " ++ quoted (section_display sel)             (* 1017-1019 *)
    | AllowBuildInstruction sel instruction =>                                    (* 1040-1045 *)
        lit "Allow build script for " ++ quoted (section_display sel) ++ lit " to emit instruction "
        ++ quoted instruction
    | DisableSandbox sel => lit "Disable sandbox for " ++ quoted (section_display sel)          (* 1070-1072 *)
    | AllowUnsafe sel =>                                                          (* 1097-1099 *)
        lit "Allow package " ++ quoted (section_display sel) ++ lit " to use unsafe code"
    | AllowExtern sel =>                                                          (* 1118-1120 *)
        lit "Allow package " ++ quoted (section_display sel) ++ lit " to use extern code"
    | SandboxAllowNetwork sel =>                                                  (* 1143-1145 *)
        lit "Permit network from sandbox for " ++ quoted (section_display sel)
    end.
End titles.
