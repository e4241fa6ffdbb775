(** Automatic edits of the configuration file.
    Sources: /repo/src/config_editor.rs, /repo/src/config/versions.rs:66-69,
    /repo/src/config.rs:281-307 ([unused_imports]).
    Comments that are attached to an edit and the layout of the file are not modelled. *)
From Verif Require Import Base TextModel ApiMapModel ConfigModel ProblemModel BuildScriptModel TomlModel.

(** ** Finding the place *)

(** [PermissionScope::config_selector] (permissions.rs:310-318) split at the dots. *)
Definition selector_path (s : scope) : list str :=
  match s with
  | All => []
  | Build => [lit "build"]
  | Test => [lit "test"]
  | FromBuild => [lit "from"; lit "build"]
  | FromTest => [lit "from"; lit "test"]
  end.

(** [pkg_path] (config_editor.rs:369-379). *)
Definition pkg_path (sel : perm_sel) : list str := lit "pkg" :: sel.1 :: selector_path sel.2.

(** [ConfigEditor::table] (config_editor.rs:201-225) and [pkg_table] (176-187), followed by a change of
    the table that was found: missing tables are created, anything but a table is an error. *)
Fixpoint in_table (path : list str) (f : table -> option table) (t : table) : option table :=
  match path with
  | [] => f t
  | k :: path =>
      match get k t with
      | None => u ← in_table path f []; Some (put k (Table u) t)
      | Some (Table u) => u' ← in_table path f u; Some (put k (Table u') t)
      | Some _ => None
      end
  end.

(** [ConfigEditor::opt_table] (config_editor.rs:227-244) and [opt_pkg_table] (189-191), followed by a
    change of the table: nothing happens if there is none. *)
Fixpoint in_opt_table (path : list str) (f : table -> option table) (t : table) : option table :=
  match path with
  | [] => f t
  | k :: path =>
      match get k t with
      | None => Some t
      | Some (Table u) => u' ← in_opt_table path f u; Some (put k (Table u') t)
      | Some _ => None
      end
  end.

(** ** Changing a table *)

(** The place and the check of config_editor.rs:649-663: insert before the first element that is
    at least as large, unless it is the value itself. *)
Fixpoint insert_value (v : str) (l : list item) : list item :=
  match l with
  | [] => [Text v]
  | Text e :: l' =>
      if str_leb v e then (if str_eqb e v then l else Text v :: l) else Text e :: insert_value v l'
  | i :: l' => i :: insert_value v l'
  end.

(** [add_to_array] (config_editor.rs:635-666), [get_or_create_array] (988-1001). *)
Definition add_to_array (name : str) (values : list str) (t : table) : option table :=
  match values with
  | [] => Some t
  | _ =>
      match get name t with
      | None => Some (put name (Array (foldl (fun l v => insert_value v l) [] values)) t)
      | Some (Array l) => Some (put name (Array (foldl (fun l v => insert_value v l) l values)) t)
      | Some _ => None
      end
  end.

(** The first element that is this text, removed (config_editor.rs:896-902, 262-267). *)
Fixpoint remove_value (v : str) (l : list item) : list item :=
  match l with
  | [] => []
  | Text e :: l' => if str_eqb e v then l' else Text e :: remove_value v l'
  | i :: l' => i :: remove_value v l'
  end.

(** config_editor.rs:892-906. *)
Definition remove_allowed (apis : list str) (t : table) : option table :=
  match get (lit "allow_apis") t with
  | None => Some t
  | Some (Array l) =>
      match foldl (fun l api => remove_value api l) l apis with
      | [] => Some (del (lit "allow_apis") t)
      | l' => Some (put (lit "allow_apis") (Array l') t)
      end
  | Some _ => None
  end.

(** [toggle_std_import] (config_editor.rs:252-272). *)
Definition has_value (v : str) (l : list item) : bool :=
  existsb (fun i => match i with Text e => str_eqb e v | _ => false end) l.
Definition toggle_import (api : str) (t : table) : option table :=
  match get (lit "import_std") t with
  | None => Some (put (lit "import_std") (Array [Text api]) t)
  | Some (Array l) =>
      Some (put (lit "import_std")
              (Array (if has_value api l then remove_value api l else l ++ [Text api])) t)
  | Some _ => None
  end.

(** ** The edits *)

Inductive edit :=
| CreateCustomConfig
| CreateRecommendedConfig
| SelectSandbox (kind : sandbox_kind)
| ImportStdApi (api : str)
| InlineStdApi (api : str)
| IgnoreStdApi (api : str)
| ImportApi (pkg api : str)
| InlineApi (pkg api : str) (config : api_config)
| IgnoreApi (pkg : str)
| ExtendApi (api path : str)
| ExcludeFromApi (api path : str)
| NoDetectApi (api pkg : str)
| AllowApiUsage (sel : perm_sel) (api : str)
| RemoveUnusedAllowApis (sel : perm_sel) (apis : list str)
| RemoveUnusedPkgConfig (sel : perm_sel)
| UpdateConfigVersion (number : nat)
| UpdateConfigVersionPreserveBehaviour (number : nat)
| AllowProcMacro (sel : perm_sel)
| AllowBuildInstruction (sel : perm_sel) (instruction : str)
| DisableSandbox (sel : perm_sel)
| AllowUnsafe (sel : perm_sel)
| AllowExtern (sel : perm_sel)
| SandboxAllowNetwork (sel : perm_sel).

(** [set_version] (config_editor.rs:246-250). *)
Definition edit_version (v : Z) (d : table) : option table :=
  in_table [lit "common"] (fun t => Some (put (lit "version") (Integer v) t)) d.

(** config_editor.rs:888-908. *)
Definition remove_apis (sel : perm_sel) (apis : list str) (d : table) : option table :=
  in_opt_table (pkg_path sel) (remove_allowed apis) d.

(** The [update_fn]s (versions.rs:24-63). *)
Definition update_document (number : nat) (d : table) : option table :=
  match number with
  | 2 =>
      in_table [lit "rustc"; lit "sandbox"] (fun t =>
        match get (lit "kind") t with
        | Some _ => Some t
        | None => Some (put (lit "kind") (Text (lit "Disabled")) t)
        end) d
  | _ => Some d
  end.

(** config_editor.rs:706-712, 626-632. *)
Definition create_import (t : table) : option table :=
  match get (lit "import") t with
  | None => Some (put (lit "import") (Array []) t)
  | Some (Array _) => Some t
  | Some _ => None
  end.
Definition inline_api (api : str) (config : api_config) (d : table) : option table :=
  in_table [lit "api"; api] (fun t =>
    t ← add_to_array (lit "include") (ac_include config) t;
    add_to_array (lit "exclude") (ac_exclude config) t) d.

(** A value set in the sandbox table of a selector ([pkg_sandbox_table], config_editor.rs:193-195,
    and [set_table_value], 1166-1178). *)
Definition set_in_sandbox (sel : perm_sel) (k : str) (v : item) (d : table) : option table :=
  in_table (pkg_path sel ++ [lit "sandbox"]) (fun t => Some (put k v t)) d.
Definition set_in_package (sel : perm_sel) (k : str) (v : item) (d : table) : option table :=
  in_table (pkg_path sel) (fun t => Some (put k v t)) d.

(** [Edit::apply] of every edit. [usable] says whether a kind of sandbox works on this machine
    ([sandbox::verify_kind]). [None] is an error. *)
Definition apply_edit (usable : sandbox_kind -> bool) (built_ins : gmap str api_config) (e : edit)
    (d : table) : option table :=
  match e with
  | CreateCustomConfig => edit_version max_version d                              (* 472-474 *)
  | CreateRecommendedConfig =>                                                    (* 499-505 *)
      d ← edit_version max_version d;
      d ← in_table [lit "common"] (toggle_import (lit "fs")) d;
      d ← in_table [lit "common"] (toggle_import (lit "net")) d;
      in_table [lit "common"] (toggle_import (lit "process")) d
  | SelectSandbox kind =>                                                         (* 528-530, 274-283 *)
      if usable kind then
        in_table [lit "sandbox"] (fun t =>
          Some (put (lit "kind")
                  (Text (match kind with Disabled => lit "Disabled" | Bubblewrap => lit "Bubblewrap" end))
                  t)) d
      else None
  | ImportStdApi api => in_table [lit "common"] (toggle_import api) d             (* 546-548 *)
  | InlineStdApi api =>                                                           (* 595-604 *)
      match built_ins !! api with
      | Some config => inline_api api config d
      | None => None
      end
  | IgnoreStdApi _ => Some d                                                      (* 681-683 *)
  | ImportApi pkg api =>                                                          (* 569-577 *)
      in_table (pkg_path (pkg, All)) (add_to_array (lit "import") [api]) d
  | InlineApi pkg api config =>                                                   (* 626-632 *)
      d ← inline_api api config d; in_table (pkg_path (pkg, All)) create_import d
  | IgnoreApi pkg => in_table (pkg_path (pkg, All)) create_import d               (* 706-712 *)
  | ExtendApi api path =>                                                         (* 737-741 *)
      in_table [lit "api"; api] (add_to_array (lit "include") [path]) d
  | ExcludeFromApi api path =>                                                    (* 762-766 *)
      in_table [lit "api"; api] (add_to_array (lit "exclude") [path]) d
  | NoDetectApi api pkg =>                                                        (* 790-799 *)
      in_table [lit "api"; api] (add_to_array (lit "no_auto_detect") [pkg]) d
  | AllowApiUsage sel api =>                                                      (* 852-872 *)
      d ← in_table (pkg_path sel) (add_to_array (lit "allow_apis") [api]) d;
      foldl (fun d sel => d ← d; remove_apis sel [api] d) (Some d) (descendants sel)
  | RemoveUnusedAllowApis sel apis => remove_apis sel apis d                      (* 888-908 *)
  | RemoveUnusedPkgConfig sel =>                                                  (* 924-931 *)
      in_opt_table (removelast (pkg_path sel)) (fun t => Some (del (List.last (pkg_path sel) []) t)) d
  | UpdateConfigVersion number => edit_version (Z.of_nat number) d                (* 947-949 *)
  | UpdateConfigVersionPreserveBehaviour number =>                                (* 970-972 *)
      d ← update_document number d; edit_version (Z.of_nat number) d
  | AllowProcMacro sel => set_in_package sel (lit "allow_proc_macro") (Flag true) d          (* 1027-1031 *)
  | AllowBuildInstruction sel i =>                                                (* 1054-1062 *)
      in_table (pkg_path sel) (add_to_array (lit "allow_build_instructions") [i]) d
  | DisableSandbox sel => set_in_sandbox sel (lit "kind") (Text (lit "Disabled")) d          (* 1081-1085 *)
  | AllowUnsafe sel => set_in_package sel (lit "allow_unsafe") (Flag true) d      (* 1110-1114 *)
  | AllowExtern sel => set_in_package sel (lit "allow_extern") (Flag true) d      (* 1131-1135 *)
  | SandboxAllowNetwork sel => set_in_sandbox sel (lit "allow_network") (Flag true) d        (* 1153-1157 *)
  end.

(** ** Which edits are offered *)

(** [prefix.strip_prefix(p).is_some_and(|rest| rest.starts_with("::"))]. *)
Definition extends_path (p prefix : str) : bool :=
  match strip_prefix p prefix with
  | Some rest => starts_with (lit "::") rest
  | None => false
  end.

(** [add_include_fixes] (config_editor.rs:287-320), given the common prefixes. *)
Definition include_fixes (c : config) (api : str) (prefixes : list str) : list edit :=
  match rc_apis (cf_raw c) !! api with
  | None => []
  | Some ac =>
      omap (fun prefix =>
        if mem_str prefix (ac_exclude ac) then None
        else if existsb (fun p => str_eqb p prefix || extends_path p prefix) (ac_include ac) then None
        else Some (ExtendApi api prefix)) prefixes
  end.

(** [add_exclude_fixes] (config_editor.rs:322-350). *)
Definition exclude_fixes (c : config) (api : str) (prefixes : list str) : list edit :=
  match rc_apis (cf_raw c) !! api with
  | None => []
  | Some ac =>
      omap (fun prefix =>
        if mem_str prefix (ac_include ac) then None
        else if existsb (fun p => extends_path p prefix) (ac_include ac)
             then Some (ExcludeFromApi api prefix) else None) prefixes
  end.

(** The loop of config_editor.rs:356-365. *)
Fixpoint with_parents (fuel : nat) (s : scope) : list scope :=
  s :: match fuel, parent_scope s with
       | S fuel, Some p => with_parents fuel p
       | _, _ => []
       end.

(** [add_allow_api_fixes] (config_editor.rs:352-366). *)
Definition allow_api_fixes (u : api_usages) : list edit :=
  map (fun s => AllowApiUsage (pi_name (au_pkg u), s) (au_api u)) (with_parents 5 (au_scope u)).

Section fixes.
  (** What is opaque in problems: the sandbox settings under which a program failed, the definition of
      an API that a package exports; and the common prefixes of the names from which ([true]) or to
      which ([false]) the usages refer (checker/common_prefix.rs), [None] for an error. *)
  Context (failed_in : nat -> sandbox_config) (exported : nat -> api_config)
    (prefixes : bool -> list api_usage -> option (list str)).

  (** [fixes_for_problem] (config_editor.rs:66-150). *)
  Definition fixes_for_problem (p : problem) (c : config) : list edit :=
    match p with
    | PMissingConfiguration _ => [CreateRecommendedConfig; CreateCustomConfig]
    | PSelectSandbox => [SelectSandbox Disabled; SelectSandbox Bubblewrap]
    | PImportStdApi api => [ImportStdApi api; InlineStdApi api; IgnoreStdApi api]
    | PAvailableApi p api config =>
        [ImportApi (pi_name p) api; InlineApi (pi_name p) api (exported config); IgnoreApi (pi_name p)]
    | PDisallowedApiUsage u =>
        allow_api_fixes u ++ exclude_fixes c (au_api u) (default [] (prefixes false (au_usages u)))
    | PIsProcMacro p => [AllowProcMacro (pi_name p, All)]
    | PExecutionFailed sel output =>
        if bool_decide (sb_kind (failed_in output) = Some Disabled) then []
        else
          (if default false (sb_allow_network (failed_in output)) then []
           else [SandboxAllowNetwork (pi_name (cs_pkg sel), Build)])
          ++ [DisableSandbox (pi_name (cs_pkg sel), Build)]
    | PDisallowedBuildInstruction p i =>
        map (AllowBuildInstruction (pi_name p, Build)) (default [] (suggested_rules i))
    | PDisallowedUnsafe sel _ => [AllowUnsafe (pi_name (cs_pkg sel), scope_of_kind (cs_kind sel))]
    | PDisallowedExtern sel _ => [AllowExtern (pi_name (cs_pkg sel), scope_of_kind (cs_kind sel))]
    | PUnusedAllowApi sel apis => [RemoveUnusedAllowApis sel apis]
    | PUnusedPackageConfig sel => [RemoveUnusedPkgConfig sel]
    | PPossibleExportedApi p api _ =>
        [ExtendApi api (pi_name p ++ lit "::" ++ api); NoDetectApi api (pi_name p)]
    | POffTreeApiUsage u _ =>
        include_fixes c (au_api u) (default [] (prefixes true (au_usages u)))
        ++ exclude_fixes c (au_api u) (default [] (prefixes false (au_usages u)))
        ++ allow_api_fixes u
    | PNewConfigVersionAvailable v =>
        (* [VERSIONS.get(version as usize)]: a negative number is no index *)
        if Z.leb 0 v && Z.ltb v (Z.of_nat (length version_numbers))
        then [UpdateConfigVersion (Z.to_nat v); UpdateConfigVersionPreserveBehaviour (Z.to_nat v)]
        else []
    | PMessage _ | PUsesBuildScript _ | PUnusedSandboxConfiguration _ => []
    end.
End fixes.

(** ** Available APIs *)

(** [unused_imports] (config.rs:284-307): what is offered for import. [exports] as in
    [import_package]; the built-in definitions and upgrades of the exported file are part of it. *)
Definition unused_imports (exports : str -> list nat -> option (gmap str api_config))
    (idx : crate_index) (rc : raw_config) : list (pkg_id * str * api_config) :=
  concat (map (fun p =>
    match rc_packages rc !! pk_name p with
    | Some (PackageConfig _ _ _ _ _ _ _ _ _ (Some _)) => []
    | _ =>
        match exports (pk_name p) (pk_version p) with
        | None => []
        | Some apis =>
            map (fun e : str * api_config => (PkgId (pk_name p) (pk_version p), e.1, e.2))
              (map_to_list apis)
        end
    end) idx).
