(** Configuration: data types, loading pipeline, permission inheritance,
    validation and versions.
    Sources: /repo/src/config.rs, /repo/src/config/permissions.rs,
    /repo/src/config/versions.rs, /repo/src/config_validation.rs,
    /repo/src/crate_index.rs:228-244. *)
From Verif Require Import Base ApiMapModel.

(** [anyhow::Result] with the distinguishable errors of config loading. *)
Inductive config_error :=
| UnknownStdApi (api : str)                 (* config.rs:228 *)
| ImportPackageNotFound (pkg : str)         (* config.rs:257-259 *)
| ExportsUnavailable (pkg : str)            (* config.rs:260 *)
| ApiDefinedTwice (pkg api : str)           (* config.rs:274 *)
| RelativePathWithoutRoot (path : str).     (* config.rs:348-349 *)

Inductive res (A : Type) :=
| Ok (a : A)
| Err (e : config_error).
Arguments Ok {A} a.
Arguments Err {A} e.

Definition res_bind {A B} (x : res A) (f : A -> res B) : res B :=
  match x with Ok a => f a | Err e => Err e end.

(** A [for] loop with [?] in its body. *)
Fixpoint fold_res {S A} (f : S -> A -> res S) (l : list A) (s : S) : res S :=
  match l with
  | [] => Ok s
  | a :: l' => match f s a with Ok s' => fold_res f l' s' | Err e => Err e end
  end.

(** ** Data types (config.rs:37-179) *)

(** config.rs:136-139 *)
Inductive sandbox_kind := Disabled | Bubblewrap.

Global Instance sandbox_kind_eq_dec : EqDecision sandbox_kind.
Proof. solve_decision. Defined.

(** config.rs:81-100. Paths are byte strings: [PathBuf] equality and order,
    which ignore redundant separators, are simplified to string equality and
    order. *)
Record sandbox_config := SandboxConfig {
  sb_kind : option sandbox_kind;
  sb_extra_args : list str;
  sb_allow_network : option bool;
  sb_bind_writable : list str;
  sb_make_writable : list str;
  sb_pass_env : list str }.

Definition sandbox_default : sandbox_config := SandboxConfig None [] None [] [] [].

(** config.rs:143-179: [PackageConfig] and [FromConfig]. *)
Inductive package_config := PackageConfig {
  pc_allow_unsafe : bool;
  pc_allow_extern : bool;
  pc_allow_build_instructions : list str;
  pc_allow_apis : list str;
  pc_allow_proc_macro : bool;
  pc_build : option package_config;
  pc_test : option package_config;
  pc_from : option from_config;
  pc_sandbox : sandbox_config;
  pc_import : option (list str) }
with from_config := FromConfig {
  fc_build : option package_config;
  fc_test : option package_config }.

Definition package_default : package_config :=
  PackageConfig false false [] [] false None None None sandbox_default None.

(** config.rs:37-107. [build_flags], [features] and [profile] of [common] play no
    role in anything modelled and are left out. *)
Record raw_config := RawConfig {
  rc_version : Z;
  rc_explicit_build_scripts : bool;
  rc_import_std : list str;
  rc_apis : gmap str api_config;
  rc_packages : gmap str package_config;
  rc_sandbox : sandbox_config;
  rc_rustc_sandbox : sandbox_config }.

(** permissions.rs:30-44 *)
Inductive scope := All | Build | Test | FromBuild | FromTest.

Global Instance scope_eq_dec : EqDecision scope.
Proof. solve_decision. Defined.

Global Instance scope_countable : Countable scope.
Proof.
  refine (inj_countable'
    (fun s => match s with
              | All => 0 | Build => 1 | Test => 2 | FromBuild => 3 | FromTest => 4
              end)
    (fun n => match n with
              | 0 => All | 1 => Build | 2 => Test | 3 => FromBuild | _ => FromTest
              end) _).
  by intros [].
Defined.

(** [PermSel] (permissions.rs:24-28): package name and scope. *)
Notation perm_sel := (str * scope)%type.

Notation permissions := (gmap perm_sel package_config).

(** ** The part of the crate index that matters (crate_index.rs:77-154)

    A list of packages, none with the same name and version as another one. PackageModel.v has the map that is behind it,
    in which one of two such packages is lost (C258). *)
Record package := Package {
  pk_name : str;
  pk_version : list nat;          (* semver without pre-release parts *)
  pk_has_build_script : bool;
  pk_has_test : bool;
  pk_is_proc_macro : bool }.

Notation crate_index := (list package).

(** [add_permission_selectors] (crate_index.rs:228-244). *)
Definition selectors_of_package (p : package) : list perm_sel :=
  [(pk_name p, All); (pk_name p, FromBuild); (pk_name p, FromTest)] ++
  (if pk_has_build_script p then [(pk_name p, Build)] else []) ++
  (if pk_has_test p then [(pk_name p, Test)] else []).

(** [CrateIndex::permission_selectors] after crate_index.rs:91-148. *)
Definition permission_selectors (idx : crate_index) : gset perm_sel :=
  list_to_set (concat (map selectors_of_package idx)).

(** Lexicographic order on versions. *)
Fixpoint version_leb (a b : list nat) : bool :=
  match a, b with
  | [], _ => true
  | _ :: _, [] => false
  | x :: a', y :: b' => if Nat.ltb x y then true
                        else if Nat.eqb x y then version_leb a' b' else false
  end.

(** [sort_by_key] is stable; insertion sort, inserting from the right. *)
Fixpoint insert_version (v : list nat) (l : list (list nat)) : list (list nat) :=
  match l with
  | [] => [v]
  | w :: l' => if version_leb v w then v :: w :: l' else w :: insert_version v l'
  end.

Definition sort_versions (l : list (list nat)) : list (list nat) :=
  foldr insert_version [] l.

(** [pkg_name_to_ids[name]] (crate_index.rs:139-143 and 150-152). *)
Definition versions_of (idx : crate_index) (name : str) : list (list nat) :=
  sort_versions (map pk_version (filter (fun p => pk_name p = name) idx)).

(** [newest_package_id_with_name] (crate_index.rs:172-176). *)
Definition newest_version (idx : crate_index) (name : str) : option (list nat) :=
  last (versions_of idx name).

(** ** merge_string_vec (permissions.rs:224-228) *)

(** [Ord] of strings: lexicographic by bytes. *)
Fixpoint str_leb (a b : str) : bool :=
  match a, b with
  | [], _ => true
  | _ :: _, [] => false
  | x :: a', y :: b' =>
      if N.ltb (N_of_ascii x) (N_of_ascii y) then true
      else if N.eqb (N_of_ascii x) (N_of_ascii y) then str_leb a' b' else false
  end.

Fixpoint insert_sorted (x : str) (l : list str) : list str :=
  match l with
  | [] => [x]
  | y :: l' => if str_leb x y then x :: y :: l' else y :: insert_sorted x l'
  end.

Definition sort_strs (l : list str) : list str := foldr insert_sorted [] l.

(** [Vec::dedup] on adjacent equal elements. *)
Fixpoint dedup_strs (l : list str) : list str :=
  match l with
  | [] => []
  | x :: l' =>
      match l' with
      | [] => [x]
      | y :: _ => if str_eqb x y then dedup_strs l' else x :: dedup_strs l'
      end
  end.

Definition merge_string_vec (add_to add : list str) : list str :=
  dedup_strs (sort_strs (add_to ++ add)).

(** ** Inheritance (permissions.rs:196-222) *)

Definition option_or {A} (a b : option A) : option A :=
  match a with Some _ => a | None => b end.

(** permissions.rs:211-221. [pass_env] is left alone. *)
Definition sandbox_inherit (self other : sandbox_config) : sandbox_config :=
  SandboxConfig
    (option_or (sb_kind self) (sb_kind other))
    (merge_string_vec (sb_extra_args self) (sb_extra_args other))
    (option_or (sb_allow_network self) (sb_allow_network other))
    (merge_string_vec (sb_bind_writable self) (sb_bind_writable other))
    (merge_string_vec (sb_make_writable self) (sb_make_writable other))
    (sb_pass_env self).

(** permissions.rs:197-207. *)
Definition package_inherit (self other : package_config) : package_config :=
  PackageConfig
    (pc_allow_unsafe self || pc_allow_unsafe other)
    (pc_allow_extern self || pc_allow_extern other)
    (merge_string_vec (pc_allow_build_instructions self) (pc_allow_build_instructions other))
    (merge_string_vec (pc_allow_apis self) (pc_allow_apis other))
    (pc_allow_proc_macro self || pc_allow_proc_macro other)
    (pc_build self) (pc_test self) (pc_from self)
    (sandbox_inherit (pc_sandbox self) (pc_sandbox other))
    (pc_import self).

(** The package configuration left after the three [take]s of
    permissions.rs:51, 60, 69. *)
Definition without_subsections (pc : package_config) : package_config :=
  PackageConfig (pc_allow_unsafe pc) (pc_allow_extern pc)
    (pc_allow_build_instructions pc) (pc_allow_apis pc) (pc_allow_proc_macro pc)
    None None None (pc_sandbox pc) (pc_import pc).

Definition insert_opt (sel : perm_sel) (sub : option package_config) (m : permissions)
    : permissions :=
  match sub with Some c => <[sel := c]> m | None => m end.

(** Body of the loop of [Permissions::from_config] (permissions.rs:49-96). *)
Definition add_package_sections (m : permissions) (entry : str * package_config)
    : permissions :=
  let '(name, pc) := entry in
  let m := insert_opt (name, Build) (pc_build pc) m in
  let m := insert_opt (name, Test) (pc_test pc) m in
  let m := match pc_from pc with
           | Some dep =>
               let m := insert_opt (name, FromBuild) (fc_build dep) m in
               insert_opt (name, FromTest) (fc_test dep) m
           | None => m
           end in
  <[(name, All) := without_subsections pc]> m.

(** [Permissions::from_config] (permissions.rs:47-98). *)
Definition perms_from_config (rc : raw_config) : permissions :=
  foldl add_package_sections ∅ (map_to_list (rc_packages rc)).

(** permissions.rs:105-107: [entry(sel).or_default()]. *)
Definition add_default_entry (m : permissions) (sel : perm_sel) : permissions :=
  match m !! sel with
  | Some _ => m
  | None => <[sel := package_default]> m
  end.

Definition in_layer (scopes : list scope) (e : perm_sel * package_config) : Prop :=
  e.1.2 ∈ scopes.

(** [config.inherit(parent)] when the parent exists. *)
Definition inherit_from (parents : permissions) (parent_scope : scope -> scope)
    (sel : perm_sel) (c : package_config) : option package_config :=
  Some (match parents !! (sel.1, parent_scope sel.2) with
        | Some parent => package_inherit c parent
        | None => c
        end).

(** permissions.rs:180-184; the other scopes are [unreachable!()] there and do not
    occur in the layer. *)
Definition local_parent_scope (s : scope) : scope :=
  match s with Build => FromBuild | Test => FromTest | _ => s end.

(** [apply_inheritance] (permissions.rs:147-194). *)
Definition apply_inheritance (m : permissions) (global_sandbox : sandbox_config)
    : permissions :=
  let global := PackageConfig false false [] [] false None None None global_sandbox None in
  let all := filter (fun e => e.1.2 ∈ [All]) m in
  let dep := filter (fun e => e.1.2 ∈ [FromBuild; FromTest]) m in
  let local := filter (fun e => e.1.2 ∈ [Build; Test]) m in
  let all := (fun c => package_inherit c global) <$> all in
  let dep := map_imap (inherit_from all (fun _ => All)) dep in
  let local := map_imap (inherit_from dep local_parent_scope) local in
  local ∪ (dep ∪ all).

(** [Permissions::from_config_with_inheritance] (permissions.rs:100-110). *)
Definition perms_with_inheritance (rc : raw_config) (idx : crate_index) : permissions :=
  apply_inheritance
    (foldl add_default_entry (perms_from_config rc) (elements (permission_selectors idx)))
    (rc_sandbox rc).

(** permissions.rs:112-117 *)
Definition sandbox_config_for_package (ps : permissions) (sel : perm_sel) : sandbox_config :=
  match ps !! sel with Some c => pc_sandbox c | None => sandbox_default end.

(** [CrateKind] (crate_index.rs) *)
Inductive crate_kind := Primary | BuildScript | TestCrate.

Global Instance crate_kind_eq_dec : EqDecision crate_kind.
Proof. solve_decision. Defined.

(** [PermSel::for_non_build_output] (permissions.rs:242-249). *)
Definition scope_of_kind (k : crate_kind) : scope :=
  match k with Primary => All | BuildScript => Build | TestCrate => Test end.

(** permissions.rs:119-123 *)
Definition unsafe_permitted (ps : permissions) (pkg : str) (k : crate_kind) : bool :=
  match ps !! (pkg, scope_of_kind k) with
  | Some c => pc_allow_unsafe c
  | None => false
  end.

(** permissions.rs:125-140 *)
Definition extern_permitted (ps : permissions) (version : Z) (pkg : str) (k : crate_kind)
    : bool :=
  match ps !! (pkg, scope_of_kind k) with
  | Some c => if Z.leb version 2 then pc_allow_unsafe c else pc_allow_extern c
  | None => false
  end.

(** [PermissionScope::determine] (permissions.rs:320-334); package ids are
    compared by the caller. *)
Definition determine_scope (same_package : bool) (k : crate_kind) : scope :=
  match k with
  | Primary => All
  | BuildScript => if same_package then Build else FromBuild
  | TestCrate => if same_package then Test else FromTest
  end.

(** [parent_scope] (permissions.rs:336-344). *)
Definition parent_scope (s : scope) : option scope :=
  match s with
  | All => None
  | Build => Some FromBuild
  | Test => Some FromTest
  | FromBuild => Some All
  | FromTest => Some All
  end.

(** [child_scopes] and [descendants] (permissions.rs:276-295, 346-354). *)
Definition child_scopes (s : scope) : list scope :=
  match s with
  | All => [FromBuild; FromTest]
  | Build => []
  | Test => []
  | FromBuild => [Build]
  | FromTest => [Test]
  end.

Definition descendants (sel : perm_sel) : list perm_sel :=
  let scopes := map (fun s => (sel.1, s)) (child_scopes sel.2) in
  scopes ++ concat (map (fun d => map (fun s => (sel.1, s)) (child_scopes d.2)) scopes).

(** ** Loading (config.rs:181-354) *)

Definition set_apis (rc : raw_config) (apis : gmap str api_config) : raw_config :=
  RawConfig (rc_version rc) (rc_explicit_build_scripts rc) (rc_import_std rc) apis
    (rc_packages rc) (rc_sandbox rc) (rc_rustc_sandbox rc).
Definition set_packages (rc : raw_config) (pkgs : gmap str package_config) : raw_config :=
  RawConfig (rc_version rc) (rc_explicit_build_scripts rc) (rc_import_std rc) (rc_apis rc)
    pkgs (rc_sandbox rc) (rc_rustc_sandbox rc).
Definition set_import_std (rc : raw_config) (l : list str) : raw_config :=
  RawConfig (rc_version rc) (rc_explicit_build_scripts rc) l (rc_apis rc)
    (rc_packages rc) (rc_sandbox rc) (rc_rustc_sandbox rc).
Definition set_rustc_sandbox (rc : raw_config) (s : sandbox_config) : raw_config :=
  RawConfig (rc_version rc) (rc_explicit_build_scripts rc) (rc_import_std rc) (rc_apis rc)
    (rc_packages rc) (rc_sandbox rc) s.
Definition set_version (rc : raw_config) (v : Z) : raw_config :=
  RawConfig v (rc_explicit_build_scripts rc) (rc_import_std rc) (rc_apis rc)
    (rc_packages rc) (rc_sandbox rc) (rc_rustc_sandbox rc).

Definition api_config_default : api_config := ApiConfig [] [] [].

(** Loop body of [merge_built_ins] (config.rs:224-236). [built_ins] is the table
    of config/built_in.rs, here any table. *)
Definition merge_built_in (built_ins : gmap str api_config) (apis : gmap str api_config)
    (imp : str) : res (gmap str api_config) :=
  match built_ins !! imp with
  | None => Err (UnknownStdApi imp)
  | Some b =>
      let c := default api_config_default (apis !! imp) in
      Ok (<[imp := ApiConfig (ac_include c ++ ac_include b) (ac_exclude c ++ ac_exclude b)
                     (ac_no_auto_detect c)]> apis)
  end.

(** [merge_built_ins] (config.rs:219-238). *)
Definition merge_built_ins (built_ins : gmap str api_config) (rc : raw_config)
    : res raw_config :=
  match fold_res (merge_built_in built_ins) (rc_import_std rc) (rc_apis rc) with
  | Ok apis => Ok (set_import_std (set_apis rc apis) [])
  | Err e => Err e
  end.

(** Inner loop of [load_imports] (config.rs:261-276). *)
Definition import_api (pkg : str) (imports : list str) (apis : gmap str api_config)
    (export : str * api_config) : res (gmap str api_config) :=
  let '(api, def) := export in
  if mem_str api imports then
    let qualified := pkg ++ lit "::" ++ api in
    match apis !! qualified with
    | Some _ => Err (ApiDefinedTwice pkg api)
    | None => Ok (<[qualified := def]> apis)
    end
  else Ok apis.

Definition set_import (pc : package_config) (i : option (list str)) : package_config :=
  PackageConfig (pc_allow_unsafe pc) (pc_allow_extern pc)
    (pc_allow_build_instructions pc) (pc_allow_apis pc) (pc_allow_proc_macro pc)
    (pc_build pc) (pc_test pc) (pc_from pc) (pc_sandbox pc) i.

(** Outer loop body of [load_imports] (config.rs:242-277); [exports pkg version]
    is what [exported_config_for_package] (config.rs:357-362) yields for that
    package, [None] for an error. *)
Definition import_package (idx : crate_index)
    (exports : str -> list nat -> option (gmap str api_config))
    (apis : gmap str api_config) (entry : str * package_config)
    : res (gmap str api_config) :=
  let '(pkg, pc) := entry in
  match pc_import pc with
  | None | Some [] => Ok apis
  | Some imports =>
      match newest_version idx pkg with
      | None => Err (ImportPackageNotFound pkg)
      | Some v =>
          match exports pkg v with
          | None => Err (ExportsUnavailable pkg)
          | Some exported =>
              fold_res (import_api pkg imports) (map_to_list exported) apis
          end
      end
  end.

(** [load_imports] (config.rs:241-279). The [BTreeMap] iteration order is replaced
    by the order of [map_to_list]. *)
Definition load_imports (idx : crate_index)
    (exports : str -> list nat -> option (gmap str api_config)) (rc : raw_config)
    : res raw_config :=
  match fold_res (import_package idx exports) (map_to_list (rc_packages rc)) (rc_apis rc) with
  | Ok apis =>
      Ok (set_packages (set_apis rc apis)
            ((fun pc => set_import pc ((fun _ => []) <$> pc_import pc)) <$> rc_packages rc))
  | Err e => Err e
  end.

(** [Path::is_absolute] on Unix. *)
Definition is_absolute (p : str) : bool :=
  match p with "/"%char :: _ => true | _ => false end.

(** [Path::join] with a relative right operand. *)
Definition path_join (root p : str) : str :=
  if is_absolute p then p
  else match last root with
       | None => p
       | Some c => if Ascii.eqb c "/"%char then root ++ p else root ++ "/"%char :: p
       end.

(** [make_paths_absolute] (config.rs:340-354). *)
Fixpoint absolute_paths (root : option str) (paths : list str) : res (list str) :=
  match paths with
  | [] => Ok []
  | p :: ps =>
      match (if is_absolute p then Ok p
             else match root with
                  | None => Err (RelativePathWithoutRoot p)
                  | Some r => Ok (path_join r p)
                  end) with
      | Err e => Err e
      | Ok p' =>
          match absolute_paths root ps with
          | Err e => Err e
          | Ok ps' => Ok (p' :: ps')
          end
      end
  end.

(** config.rs:332-338 *)
Definition sandbox_absolute (root : option str) (s : sandbox_config) : res sandbox_config :=
  match absolute_paths root (sb_bind_writable s) with
  | Err e => Err e
  | Ok b =>
      match absolute_paths root (sb_make_writable s) with
      | Err e => Err e
      | Ok m => Ok (SandboxConfig (sb_kind s) (sb_extra_args s) (sb_allow_network s) b m
                      (sb_pass_env s))
      end
  end.

(** config.rs:319-330: the package's own section, [build] and [test]; not [from]. *)
Fixpoint package_absolute (root : option str) (pc : package_config) : res package_config :=
  match sandbox_absolute root (pc_sandbox pc) with
  | Err e => Err e
  | Ok s =>
      match (match pc_build pc with
             | None => Ok None
             | Some b => match package_absolute root b with
                         | Ok b' => Ok (Some b') | Err e => Err e end
             end) with
      | Err e => Err e
      | Ok b =>
          match (match pc_test pc with
                 | None => Ok None
                 | Some t => match package_absolute root t with
                             | Ok t' => Ok (Some t') | Err e => Err e end
                 end) with
          | Err e => Err e
          | Ok t =>
              Ok (PackageConfig (pc_allow_unsafe pc) (pc_allow_extern pc)
                    (pc_allow_build_instructions pc) (pc_allow_apis pc)
                    (pc_allow_proc_macro pc) b t (pc_from pc) s (pc_import pc))
          end
      end
  end.

(** config.rs:310-317 *)
Definition absolute_package_entry (root : option str) (m : gmap str package_config)
    (entry : str * package_config) : res (gmap str package_config) :=
  match package_absolute root entry.2 with
  | Ok pc => Ok (<[entry.1 := pc]> m)
  | Err e => Err e
  end.

Definition make_paths_absolute (root : option str) (rc : raw_config) : res raw_config :=
  match fold_res (absolute_package_entry root) (map_to_list (rc_packages rc))
          (rc_packages rc) with
  | Ok pkgs => Ok (set_packages rc pkgs)
  | Err e => Err e
  end.

(** ** Versions (config/versions.rs) *)

(** The [apply_fn] of version 2 (versions.rs:44-48); those of the other versions do
    nothing. *)
Definition apply_fn (number : nat) (rc : raw_config) : raw_config :=
  match number with
  | 2 =>
      let s := rc_rustc_sandbox rc in
      match sb_kind s with
      | None => set_rustc_sandbox rc
                  (SandboxConfig (Some Disabled) (sb_extra_args s) (sb_allow_network s)
                     (sb_bind_writable s) (sb_make_writable s) (sb_pass_env s))
      | Some _ => rc
      end
  | _ => rc
  end.

(** The [update_fn] (versions.rs:49-55) as an edit of the file; the file is
    represented by the raw configuration it parses to ([contains_key("kind")] is
    [sb_kind <> None]). *)
Definition update_fn (number : nat) (rc : raw_config) : raw_config :=
  match number with
  | 2 =>
      let s := rc_rustc_sandbox rc in
      match sb_kind s with
      | None => set_rustc_sandbox rc
                  (SandboxConfig (Some Disabled) (sb_extra_args s) (sb_allow_network s)
                     (sb_bind_writable s) (sb_make_writable s) (sb_pass_env s))
      | Some _ => rc
      end
  | _ => rc
  end.

Definition version_numbers : list nat := [0; 1; 2; 3].

(** [MAX_VERSION] (versions.rs:6) *)
Definition max_version : Z := 3.

(** [(version as usize + 1).clamp(0, VERSIONS.len())] (versions.rs:77) on a 64-bit
    machine, wrapping as in a release build. *)
Definition first_patch (version : Z) : nat :=
  Z.to_nat (Z.min (((version mod 2 ^ 64) + 1) mod 2 ^ 64) 4).

(** [apply_runtime_patches] (versions.rs:76-80). *)
Definition apply_runtime_patches (rc : raw_config) : raw_config :=
  foldl (fun rc n => apply_fn n rc) rc (drop (first_patch (rc_version rc)) version_numbers).

(** [Version::apply] (versions.rs:66-69): the "preserve behaviour" edit. *)
Definition preserve_edit (number : nat) (rc : raw_config) : raw_config :=
  set_version (update_fn number rc) (Z.of_nat number).

(** [parse_raw] after TOML decoding (config.rs:211-217). *)
Definition parse_raw (built_ins : gmap str api_config) (rc : raw_config) : res raw_config :=
  match merge_built_ins built_ins rc with
  | Err e => Err e
  | Ok rc =>
      let rc := apply_runtime_patches rc in
      Ok (set_rustc_sandbox rc (sandbox_inherit (rc_rustc_sandbox rc) (rc_sandbox rc)))
  end.

(** ** Validation (config_validation.rs:23-57) *)
Inductive validation_problem :=
| UnknownPermission (api : str)
| DuplicateAllowedApi (api : str)
| UnsupportedVersion (v : Z)
| InvalidPkgSelector (sel : perm_sel) (nested : str).

(** config_validation.rs:30-38 *)
Fixpoint validate_apis (known : gmap str api_config) (used : gset str) (apis : list str)
    : list validation_problem :=
  match apis with
  | [] => []
  | a :: apis' =>
      (match known !! a with Some _ => [] | None => [UnknownPermission a] end) ++
      (if bool_decide (a ∈ used) then [DuplicateAllowedApi a] else []) ++
      validate_apis known ({[a]} ∪ used) apis'
  end.

Definition when {A} (o : option A) (p : validation_problem) : list validation_problem :=
  match o with Some _ => [p] | None => [] end.

(** config_validation.rs:29-48 *)
Definition validate_section (known : gmap str api_config)
    (e : perm_sel * package_config) : list validation_problem :=
  validate_apis known ∅ (pc_allow_apis e.2) ++
  when (pc_build e.2) (InvalidPkgSelector e.1 (lit "build")) ++
  when (pc_test e.2) (InvalidPkgSelector e.1 (lit "test")) ++
  when (pc_from e.2) (InvalidPkgSelector e.1 (lit "dep")).

Definition validate (rc : raw_config) : list validation_problem :=
  (if Z.ltb (rc_version rc) 1 || Z.ltb max_version (rc_version rc)
   then [UnsupportedVersion (rc_version rc)] else []) ++
  concat (map (validate_section (rc_apis rc)) (map_to_list (perms_from_config rc))).

(** ** The whole of [parse_file] (config.rs:181-201) *)
Record config := Config {
  cf_raw : raw_config;
  cf_permissions : permissions;
  cf_permissions_no_inheritance : permissions }.

Inductive load_result :=
| Loaded (c : config)
| LoadError (e : config_error)
| Invalid (problems : list validation_problem).

Definition load_config (built_ins : gmap str api_config)
    (exports : str -> list nat -> option (gmap str api_config))
    (idx : crate_index) (root : option str) (file : raw_config) : load_result :=
  match parse_raw built_ins file with
  | Err e => LoadError e
  | Ok rc =>
      match load_imports idx exports rc with
      | Err e => LoadError e
      | Ok rc =>
          match make_paths_absolute root rc with
          | Err e => LoadError e
          | Ok rc =>
              match validate rc with
              | [] => Loaded (Config rc (perms_with_inheritance rc idx) (perms_from_config rc))
              | ps => Invalid ps
              end
          end
      end
  end.
