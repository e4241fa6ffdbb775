(** C185-C189: what is reported about packages themselves, and the version of the configuration. *)
From Verif Require Import Base BaseFacts ApiMapModel ConfigModel ConfigSpec ProblemModel CheckerModel CheckerSpec
  TomlModel EditorModel EditorSpec VetSpec VetProofs EditorProps.

(** ** C185: procedural macros *)

(** A checker that uses a configuration loaded from a file reports, before anything is built, exactly the
    packages that are procedural macros and that the file does not permit to be one. *)
Theorem C185_exactly_the_macros :
  forall (built_ins : gmap str api_config) (exports : str -> list nat -> option (gmap str api_config))
         (root : str) (file : raw_config) (c : config) (env : environment) (ck : checker) (q : problem),
  load_config built_ins exports (en_index env) (Some root) file = Loaded c -> ck_config ck = c ->
  q ∈ base_problems env ck <->
  exists p, p ∈ en_index env /\ pk_is_proc_macro p = true /\ ~ may_be_macro file (pk_name p) /\
    q = PIsProcMacro (PkgId (pk_name p) (pk_version p)).
Proof. exact macros_reported. Qed.
Print Assumptions C185_exactly_the_macros.

Definition vt_section (macro : bool) : package_config :=
  PackageConfig false false [] [] macro None None None sandbox_default None.

Definition vt_idx : crate_index :=
  [Package (lit "app") [1] false false false; Package (lit "derive") [1] false false true;
   Package (lit "derive") [2] false false true; Package (lit "trusted") [3] false false true].

Definition vt_env : environment :=
  Environment vt_idx (fun _ => None) (fun _ => None)
    (fun path => if starts_with (lit "/dep/") path then Some (PkgId (lit "app") [1]) else None)
    (fun path => starts_with (lit "/rust/") path).

Definition vt_file (apis : gmap str api_config) (packages : gmap str package_config) : raw_config :=
  RawConfig 3 false [] apis packages sandbox_default sandbox_default.

Definition vt_checker (file : raw_config) : checker :=
  Checker ∅ (config_of (Some (load_config ∅ nothing_exported vt_idx (Some (lit "/w")) file))) ∅ [].

Lemma vt_loaded (file : raw_config) :
  match load_config ∅ nothing_exported vt_idx (Some (lit "/w")) file with Loaded _ => true | _ => false end = true ->
  load_config ∅ nothing_exported vt_idx (Some (lit "/w")) file = Loaded (ck_config (vt_checker file)).
Proof. unfold vt_checker. cbn [ck_config]. by destruct (load_config _ _ _ _ _). Qed.

Definition vt_macros : raw_config :=
  vt_file ∅ {[lit "trusted" := vt_section true; lit "derive" := vt_section false]}.

(** Both versions of a package that is not permitted are reported. *)
Example C185_ex :
  (exists c, load_config ∅ nothing_exported vt_idx (Some (lit "/w")) vt_macros = Loaded c /\
     ck_config (vt_checker vt_macros) = c) /\
  base_problems vt_env (vt_checker vt_macros) =
    [PIsProcMacro (PkgId (lit "derive") [1]); PIsProcMacro (PkgId (lit "derive") [2])].
Proof.
  split; [|by vm_compute]. eexists. split; [apply vt_loaded; by vm_compute|reflexivity].
Qed.

(** ** C186: APIs that a package may export *)

(** Among the modules of a package that have the name of an API, exactly those are reported that are not
    settled: the file says nothing about imports from the package, the API does not include the module,
    and it is not told to ignore the package. *)
Theorem C186_exactly_the_unsettled :
  forall (built_ins : gmap str api_config) (exports : str -> list nat -> option (gmap str api_config))
         (root : str) (file : raw_config) (c : config) (env : environment) (ck ck' : checker)
         (o : scan_outputs) (ps : list problem) (p : pkg_id) (api sym : str),
  load_config built_ins exports (en_index env) (Some root) file = Loaded c -> ck_config ck = c ->
  so_base o = [] ->
  (exists q, q ∈ en_index env /\ pk_name q = pi_name p) ->
  scan_problems env ck o = (ck', Some ps) ->
  PPossibleExportedApi p api sym ∈ ps <->
  PossibleExport p api sym ∈ so_possible o /\ ~ imports_stated file (pi_name p) /\
  ~ export_settled (rc_apis (cf_raw c)) (pi_name p) api.
Proof. exact exports_reported. Qed.
Print Assumptions C186_exactly_the_unsettled.

(** Either fix that is offered settles it: the file loads again, grants what it granted, and whatever is
    scanned the report does not come back. The definition must not be one that another package exports. *)
Theorem C186_fixes :
  forall (built_ins : gmap str api_config) (exports : str -> list nat -> option (gmap str api_config))
         (root : str) (d d' : table) (c : config) (usable : sandbox_kind -> bool)
         (failed_in : nat -> sandbox_config) (exported : nat -> api_config)
         (prefixes : bool -> list api_usage -> option (list str)) (env : environment) (p : pkg_id)
         (api sym : str) (e : edit),
  load_document built_ins exports (en_index env) root d = Some (Loaded c) ->
  (forall rc x, decode d = Some rc -> ~ import_source (en_index env) exports rc api x) ->
  e ∈ fixes_for_problem failed_in exported prefixes (PPossibleExportedApi p api sym) c ->
  apply_edit usable built_ins e d = Some d' ->
  exists c', load_document built_ins exports (en_index env) root d' = Some (Loaded c') /\ same_grants c c' /\
    forall ck ck' o ps sym', ck_config ck = c' -> so_base o = [] -> scan_problems env ck o = (ck', Some ps) ->
      PPossibleExportedApi p api sym' ∉ ps.
Proof. exact export_fixes. Qed.
Print Assumptions C186_fixes.

Definition vt_app : pkg_id := PkgId (lit "app") [1].
Definition vt_derive : pkg_id := PkgId (lit "derive") [1].
Definition vt_trusted : pkg_id := PkgId (lit "trusted") [3].

(** "net" includes [derive::net], "fs" ignores [app]; [trusted] says that nothing is imported from it. *)
Definition vt_exports : raw_config :=
  vt_file {[lit "net" := ApiConfig [lit "std::net"; lit "derive::net"] [] [];
            lit "fs" := ApiConfig [lit "std::fs"] [] [lit "app"]]}
    {[lit "trusted" := PackageConfig false false [] [] true None None None sandbox_default (Some [])]}.

Definition vt_found : scan_outputs :=
  ScanOutputs [] []
    [PossibleExport vt_app (lit "net") (lit "a"); PossibleExport vt_app (lit "fs") (lit "b");
     PossibleExport vt_derive (lit "net") (lit "c"); PossibleExport vt_derive (lit "fs") (lit "d");
     PossibleExport vt_trusted (lit "fs") (lit "e")].

Example C186_ex :
  (exists c, load_config ∅ nothing_exported vt_idx (Some (lit "/w")) vt_exports = Loaded c /\
     ck_config (vt_checker vt_exports) = c) /\
  (scan_problems vt_env (vt_checker vt_exports) vt_found).2 =
    Some [PPossibleExportedApi vt_app (lit "net") (lit "a"); PPossibleExportedApi vt_derive (lit "fs") (lit "d")].
Proof.
  split; [|by vm_compute]. eexists. split; [apply vt_loaded; by vm_compute|reflexivity].
Qed.

Example C186_fixes_ex :
  let d := ed_doc 3 ed_foo in
  let report d :=
    match ed_load ed_idx d with
    | Some (Loaded c) =>
        (scan_problems (Environment ed_idx (fun _ => None) (fun _ => None) (fun _ => None) (fun _ => false))
           (Checker ∅ c ∅ []) (ScanOutputs [] [] [PossibleExport ed_pkg (lit "net") (lit "s")])).2
    | _ => None
    end in
  fixes_for_problem (fun _ => sandbox_default) no_export no_prefixes
    (PPossibleExportedApi ed_pkg (lit "net") (lit "s")) (config_of (ed_load ed_idx d)) =
    [ExtendApi (lit "net") (lit "foo::net"); NoDetectApi (lit "net") (lit "foo")] /\
  report d = Some [PPossibleExportedApi ed_pkg (lit "net") (lit "s")] /\
  report (edited_doc (ExtendApi (lit "net") (lit "foo::net")) d) = Some [] /\
  report (edited_doc (NoDetectApi (lit "net") (lit "foo")) d) = Some [].
Proof. by vm_compute. Qed.

(** ** C187: the packages of a source file *)

(** After any sequence of builds and configuration changes, a file belongs to exactly the packages that
    rustc compiled it for. Only if there are none does it belong to the Rust distribution, and so to no
    package, or else to the package in whose directory it is; outside of all of them it is an error. *)
Theorem C187_who_compiled_it :
  forall (env : environment) (scan : scanner) (requests : nat -> rustc_output) (es : list event) (path : str),
  let ck := sy_checker (after env scan requests es) in
  ((exists p, compiled_for requests es path p) ->
   exists ids, pkg_ids_for_source env ck path = Some ids /\ NoDup ids /\
     forall p, p ∈ ids <-> compiled_for requests es path p) /\
  ((forall p, ~ compiled_for requests es path p) ->
   (en_in_rust_std env path = true -> pkg_ids_for_source env ck path = Some []) /\
   (en_in_rust_std env path = false -> forall p, en_package_for_path env path = Some p ->
      pkg_ids_for_source env ck path = Some [p]) /\
   (en_in_rust_std env path = false -> en_package_for_path env path = None ->
      pkg_ids_for_source env ck path = None)).
Proof. exact files_of_packages. Qed.
Print Assumptions C187_who_compiled_it.

Definition vt_requests (h : nat) : rustc_output :=
  match h with
  | 0 => RustcOutput (CrateSel vt_app Primary) [lit "/dep/shared.rs"; lit "/w/main.rs"]
  | 1 => RustcOutput (CrateSel vt_derive Primary) [lit "/dep/shared.rs"]
  | _ => RustcOutput (CrateSel vt_app BuildScript) [lit "/w/main.rs"; lit "/rust/x.rs"]
  end.

Definition vt_events : list event := [EComplete 0; EComplete 1; EComplete 0; EComplete 2].

Example C187_ex :
  let files := pkg_ids_for_source vt_env (sy_checker (after vt_env (fun _ _ => None) vt_requests vt_events)) in
  files (lit "/dep/shared.rs") = Some [vt_app; vt_derive] /\ files (lit "/w/main.rs") = Some [vt_app] /\
  files (lit "/rust/x.rs") = Some [vt_app] /\ files (lit "/rust/y.rs") = Some [] /\
  files (lit "/dep/other.rs") = Some [vt_app] /\ files (lit "/tmp/other.rs") = None.
Proof. by vm_compute. Qed.

(** ** C188: the sandbox of rustc *)

(** After loading, rustc is sandboxed as its own section says. What that section leaves open comes from the
    common sandbox; but in a file of version 1 rustc is not sandboxed unless its own section says how. Lists
    are joined; variables are passed only if the own section lists them. *)
Theorem C188_own_then_common :
  forall (built_ins : gmap str api_config) (exports : str -> list nat -> option (gmap str api_config))
         (idx : crate_index) (root : option str) (file : raw_config) (c : config),
  load_config built_ins exports idx root file = Loaded c ->
  let own := rc_rustc_sandbox file in
  let common := rc_sandbox file in
  let used := rc_rustc_sandbox (cf_raw c) in
  sb_kind used = match sb_kind own with
                 | Some k => Some k
                 | None => if bool_decide (rc_version file = 1%Z) then Some Disabled else sb_kind common
                 end /\
  sb_allow_network used = first_set [sb_allow_network own; sb_allow_network common] /\
  (forall x, x ∈ sb_bind_writable used <-> x ∈ sb_bind_writable own \/ x ∈ sb_bind_writable common) /\
  (forall x, x ∈ sb_make_writable used <-> x ∈ sb_make_writable own \/ x ∈ sb_make_writable common) /\
  (forall x, x ∈ sb_extra_args used <-> x ∈ sb_extra_args own \/ x ∈ sb_extra_args common) /\
  sb_pass_env used = sb_pass_env own.
Proof. exact rustc_sandbox_loaded. Qed.
Print Assumptions C188_own_then_common.

Definition vt_rustc (version : Z) (kind : option sandbox_kind) : option sandbox_config :=
  match load_config ∅ nothing_exported vt_idx (Some (lit "/w"))
          (RawConfig version false [] ∅ ∅
             (SandboxConfig (Some Bubblewrap) [lit "--a"] (Some true) [lit "/b"] [lit "/m"] [lit "HOME"])
             (SandboxConfig kind [lit "--own"] None [] [lit "/own"] [lit "CARGO"])) with
  | Loaded c => Some (rc_rustc_sandbox (cf_raw c))
  | _ => None
  end.

Example C188_ex :
  vt_rustc 3 None =
    Some (SandboxConfig (Some Bubblewrap) [lit "--a"; lit "--own"] (Some true) [lit "/b"] [lit "/m"; lit "/own"]
            [lit "CARGO"]) /\
  (sb_kind <$> vt_rustc 1 None) = Some (Some Disabled) /\
  (sb_kind <$> vt_rustc 1 (Some Bubblewrap)) = Some (Some Bubblewrap) /\
  (sb_kind <$> vt_rustc 2 (Some Disabled)) = Some (Some Disabled).
Proof. by vm_compute. Qed.

(** ** C189: a newer version of the configuration *)

(** A newer version is announced for a file exactly if there is one; it is the next one. *)
Theorem C189_announced :
  forall (built_ins : gmap str api_config) (exports : str -> list nat -> option (gmap str api_config))
         (idx : crate_index) (root : option str) (file : raw_config) (c : config) (ck : checker),
  load_config built_ins exports idx root file = Loaded c -> ck_config ck = c ->
  (check_for_new_config_version ck = [] <-> rc_version file = 3%Z) /\
  forall q, q ∈ check_for_new_config_version ck ->
    q = PNewConfigVersionAvailable (rc_version file + 1) /\ (rc_version file = 1%Z \/ rc_version file = 2%Z).
Proof. exact version_announced. Qed.
Print Assumptions C189_announced.

(** Each fix that is offered for it gives a file that loads, has the announced version, and defines the same
    APIs and grants the same permissions. *)
Theorem C189_fixes :
  forall (built_ins : gmap str api_config) (exports : str -> list nat -> option (gmap str api_config))
         (idx : crate_index) (root : str) (d d' : table) (c : config) (ck : checker)
         (usable : sandbox_kind -> bool) (failed_in : nat -> sandbox_config) (exported : nat -> api_config)
         (prefixes : bool -> list api_usage -> option (list str)) (q : problem) (e : edit),
  load_document built_ins exports idx root d = Some (Loaded c) -> ck_config ck = c ->
  q ∈ check_for_new_config_version ck ->
  e ∈ fixes_for_problem failed_in exported prefixes q c ->
  apply_edit usable built_ins e d = Some d' ->
  exists c', load_document built_ins exports idx root d' = Some (Loaded c') /\
    rc_version (cf_raw c') = (rc_version (cf_raw c) + 1)%Z /\
    cf_permissions c' = cf_permissions c /\ rc_apis (cf_raw c') = rc_apis (cf_raw c).
Proof. exact version_fixes. Qed.
Print Assumptions C189_fixes.

Example C189_ex :
  let announced v := check_for_new_config_version (Checker ∅ (config_of (ed_load ed_idx (ed_doc v ed_foo))) ∅ []) in
  announced 1%Z = [PNewConfigVersionAvailable 2] /\ announced 2%Z = [PNewConfigVersionAvailable 3] /\
  announced 3%Z = [] /\
  fixes_for_problem (fun _ => sandbox_default) no_export no_prefixes (PNewConfigVersionAvailable 2)
    (config_of (ed_load ed_idx (ed_doc 1 ed_foo))) =
    [UpdateConfigVersion 2; UpdateConfigVersionPreserveBehaviour 2] /\
  is_Some (loads_to (ed_load ed_idx (edited_doc (UpdateConfigVersion 2) (ed_doc 1 ed_foo)))).
Proof. cbn zeta. do 4 (split; [by vm_compute|]). by vm_compute; eexists. Qed.
