(** C02-C07: the configuration. *)
From Verif Require Import Base ApiMapModel ConfigModel ConfigSpec ConfigProofs ConfigLoadProofs.

(** ** C02: permission inheritance *)

(** Effective permissions are the union over the documented chain. *)
Theorem C02_inheritance :
  forall (rc : raw_config) (idx : crate_index) (p : package) (s : scope) (e : package_config),
    p ∈ idx ->
    perms_with_inheritance rc idx !! (pk_name p, s) = Some e ->
    (forall api, api ∈ pc_allow_apis e <->
       on_chain rc (pk_name p) s (fun sec => api ∈ pc_allow_apis sec)) /\
    (forall i, i ∈ pc_allow_build_instructions e <->
       on_chain rc (pk_name p) s (fun sec => i ∈ pc_allow_build_instructions sec)) /\
    (pc_allow_unsafe e = true <->
       on_chain rc (pk_name p) s (fun sec => pc_allow_unsafe sec = true)) /\
    (pc_allow_extern e = true <->
       on_chain rc (pk_name p) s (fun sec => pc_allow_extern sec = true)) /\
    (pc_allow_proc_macro e = true <->
       on_chain rc (pk_name p) s (fun sec => pc_allow_proc_macro sec = true)).
Proof. exact permissions_on_chain. Qed.
Print Assumptions C02_inheritance.

(** Which selectors of an indexed package have an entry. *)
Theorem C02_entries :
  forall (rc : raw_config) (idx : crate_index) (p : package) (s : scope),
    p ∈ idx ->
    is_Some (perms_with_inheritance rc idx !! (pk_name p, s)) <->
    is_Some (section rc (pk_name p) s) \/ index_selector idx (pk_name p) s.
Proof. exact permission_entries. Qed.
Print Assumptions C02_entries.

(** Sections of other packages do not matter (for any package, indexed or not). *)
Theorem C02_isolation :
  forall (rc rc' : raw_config) (idx : crate_index) (pkg : str) (s : scope),
    rc_packages rc !! pkg = rc_packages rc' !! pkg ->
    rc_sandbox rc = rc_sandbox rc' ->
    perms_with_inheritance rc idx !! (pkg, s) = perms_with_inheritance rc' idx !! (pkg, s).
Proof. exact isolation. Qed.
Print Assumptions C02_isolation.

Definition apis_only (apis : list str) : package_config :=
  PackageConfig false false [] apis false None None None sandbox_default None.

Definition ex_pkg : package_config :=
  PackageConfig true false [] [lit "fs"] false
    (Some (apis_only [lit "net"])) None
    (Some (FromConfig (Some (apis_only [lit "process"])) None)) sandbox_default None.

Definition ex_rc : raw_config :=
  RawConfig 3 false [] ∅ {[lit "foo" := ex_pkg]} sandbox_default sandbox_default.

Definition ex_idx : crate_index := [Package (lit "foo") [1; 0; 0] true true false].

Example C02_ex_build :
  pc_allow_apis <$> (perms_with_inheritance ex_rc ex_idx !! (lit "foo", Build))
    = Some [lit "fs"; lit "net"; lit "process"] /\
  pc_allow_apis <$> (perms_with_inheritance ex_rc ex_idx !! (lit "foo", Test))
    = Some [lit "fs"].
Proof. by vm_compute. Qed.

(** ** C03: sandbox inheritance *)

Theorem C03_sandbox :
  forall (rc : raw_config) (idx : crate_index) (p : package) (s : scope),
    p ∈ idx ->
    is_Some (perms_with_inheritance rc idx !! (pk_name p, s)) ->
    let sb := sandbox_config_for_package (perms_with_inheritance rc idx) (pk_name p, s) in
    let secs := sandbox_sections rc (pk_name p) s in
    sb_kind sb = first_set (sb_kind <$> secs) /\
    sb_allow_network sb = first_set (sb_allow_network <$> secs) /\
    (forall d, d ∈ sb_bind_writable sb <-> exists x, x ∈ secs /\ d ∈ sb_bind_writable x) /\
    (forall d, d ∈ sb_make_writable sb <-> exists x, x ∈ secs /\ d ∈ sb_make_writable x) /\
    (forall a, a ∈ sb_extra_args sb <-> exists x, x ∈ secs /\ a ∈ sb_extra_args x).
Proof. exact sandbox_on_chain. Qed.
Print Assumptions C03_sandbox.

Definition ex_sb_global : sandbox_config :=
  SandboxConfig (Some Bubblewrap) [] None [lit "/a"] [] [lit "FOO"].
Definition ex_sb_pkg : sandbox_config := SandboxConfig None [] (Some true) [lit "/b"] [] [].
Definition ex_sb_build : sandbox_config :=
  SandboxConfig (Some Disabled) [lit "--ro-bind"; lit "/x"; lit "/x"] None [] [] [].
Definition ex_rc_sb : raw_config :=
  RawConfig 3 false [] ∅
    {[lit "foo" := PackageConfig false false [] [] false
        (Some (PackageConfig false false [] [] false None None None ex_sb_build None))
        None None ex_sb_pkg None]} ex_sb_global sandbox_default.

Example C03_ex_build :
  let sb := sandbox_config_for_package (perms_with_inheritance ex_rc_sb ex_idx) (lit "foo", Build) in
  sb_kind sb = Some Disabled /\ sb_allow_network sb = Some true /\
  sb_bind_writable sb = [lit "/a"; lit "/b"].
Proof. by vm_compute. Qed.

(** A globally configured [pass_env] does not reach any package. *)
Theorem C46_pass_env_refuted :
  exists rc idx p s v,
    p ∈ idx /\ is_Some (perms_with_inheritance rc idx !! (pk_name p, s)) /\
    v ∈ sb_pass_env (rc_sandbox rc) /\
    v ∉ sb_pass_env (sandbox_config_for_package (perms_with_inheritance rc idx) (pk_name p, s)).
Proof.
  exists ex_rc_sb, ex_idx, (Package (lit "foo") [1; 0; 0] true true false), All, (lit "FOO").
  split; [left|]. split; [vm_compute; by eexists|]. split; [left|].
  vm_compute. by intros ?%elem_of_nil.
Qed.
Print Assumptions C46_pass_env_refuted.

(** Extra arguments are sorted and deduplicated, even if only one section has any,
    so an option can lose its operand. *)
Theorem C46_extra_args_refuted :
  exists rc idx p s sec,
    p ∈ idx /\ section rc (pk_name p) s = Some sec /\
    (forall x, x ∈ sandbox_sections rc (pk_name p) s ->
       x = pc_sandbox sec \/ sb_extra_args x = []) /\
    sb_extra_args (sandbox_config_for_package (perms_with_inheritance rc idx) (pk_name p, s))
      <> sb_extra_args (pc_sandbox sec).
Proof.
  exists ex_rc_sb, ex_idx, (Package (lit "foo") [1; 0; 0] true true false), Build.
  eexists. split; [left|]. split; [by vm_compute|]. split.
  - intros x Hx. 
    assert (Hs : sandbox_sections ex_rc_sb (lit "foo") Build
                 = [ex_sb_build; ex_sb_pkg; ex_sb_global]) by by vm_compute.
    cbn [pk_name] in Hx. rewrite Hs, !elem_of_cons, elem_of_nil in Hx.
    destruct Hx as [->|[->|[->|[]]]]; [by left|by right..].
  - by vm_compute.
Qed.
Print Assumptions C46_extra_args_refuted.

(** ** C04: validation *)

Theorem C04_validation :
  forall rc : raw_config, validate rc = [] <-> well_formed rc.
Proof. exact validate_spec. Qed.
Print Assumptions C04_validation.

(** A loaded configuration is well-formed, and loading never yields a rejection
    without a problem to show. *)
Theorem C04_loaded :
  forall built_ins exports idx root file c,
    load_config built_ins exports idx root file = Loaded c -> well_formed (cf_raw c).
Proof.
  intros b ex idx root file c H.
  destruct (load_config_inv _ _ _ _ _ _ H) as (r1 & r2 & _ & _ & _ & H4 & _).
  by apply validate_spec.
Qed.
Print Assumptions C04_loaded.

Definition ex_apis : gmap str api_config :=
  <[lit "fs" := ApiConfig [lit "std::fs"] [] []]>
  (<[lit "net" := ApiConfig [lit "std::net"] [] []]>
  {[lit "process" := ApiConfig [lit "std::process"] [] []]}).

Example C04_ex_ok :
  validate (RawConfig 3 false [] ex_apis {[lit "foo" := ex_pkg]} sandbox_default sandbox_default)
    = [] /\
  validate ex_rc <> [] /\
  validate (RawConfig 4 false [] ex_apis {[lit "foo" := ex_pkg]} sandbox_default sandbox_default)
    = [UnsupportedVersion 4] /\
  validate (RawConfig 1 false [] ex_apis {[lit "foo" := apis_only [lit "fs"; lit "fs"]]}
              sandbox_default sandbox_default) = [DuplicateAllowedApi (lit "fs")].
Proof. by vm_compute. Qed.

(** ** C05: absolute paths *)

(** In the sections [pkg.X], [pkg.X.build] and [pkg.X.test] every directory is
    absolute after loading, and is the configured one resolved against the root. *)
Theorem C05_own_sections :
  forall built_ins exports idx root file c pkg s sec,
    absolute root ->
    load_config built_ins exports idx (Some root) file = Loaded c ->
    s ∈ [All; Build; Test] ->
    section (cf_raw c) pkg s = Some sec ->
    sandbox_paths_absolute (pc_sandbox sec) /\
    exists sec0, section file pkg s = Some sec0 /\
      Forall2 (resolved root) (sb_bind_writable (pc_sandbox sec0)) (sb_bind_writable (pc_sandbox sec)) /\
      Forall2 (resolved root) (sb_make_writable (pc_sandbox sec0)) (sb_make_writable (pc_sandbox sec)).
Proof. exact loaded_own_sections. Qed.
Print Assumptions C05_own_sections.

Definition ex_rel : sandbox_config :=
  SandboxConfig (Some Bubblewrap) [] None [lit "out"] [] [].
Definition ex_rc_rel : raw_config :=
  RawConfig 3 false [] ∅
    {[lit "foo" := PackageConfig false false [] [] false None None
        (Some (FromConfig (Some (PackageConfig false false [] [] false None None None ex_rel None))
                 None)) ex_rel None]} sandbox_default sandbox_default.

Definition no_exports : str -> list nat -> option (gmap str api_config) := fun _ _ => None.

Definition raw_of (r : load_result) : raw_config :=
  match r with Loaded c => cf_raw c | _ => ex_rc end.
Definition ex_loaded : load_result :=
  load_config ∅ no_exports ex_idx (Some (lit "/w")) ex_rc_rel.

Example C05_ex_own :
  (sb_bind_writable ∘ pc_sandbox) <$> section (raw_of ex_loaded) (lit "foo") All
    = Some [lit "/w/out"].
Proof. by vm_compute. Qed.

(** The claim for every section fails: [from.build] sections keep relative paths,
    and they reach the effective configuration of the build script. *)
Theorem C05_from_sections_refuted :
  exists built_ins exports idx root file c pkg,
    absolute root /\
    load_config built_ins exports idx (Some root) file = Loaded c /\
    is_Some (cf_permissions c !! (pkg, Build)) /\
    ~ sandbox_paths_absolute (sandbox_config_for_package (cf_permissions c) (pkg, Build)).
Proof.
  exists ∅, no_exports, ex_idx, (lit "/w"), ex_rc_rel.
  assert (H : match load_config ∅ no_exports ex_idx (Some (lit "/w")) ex_rc_rel with
    | Loaded c => sb_bind_writable <$> (pc_sandbox <$> cf_permissions c !! (lit "foo", Build))
                  = Some [lit "/w/out"; lit "out"]
    | _ => False end) by by vm_compute.
  destruct (load_config _ _ _ _ _) as [c| |]; [|done..].
  exists c, (lit "foo"). split; [by eexists|]. split; [reflexivity|].
  unfold sandbox_config_for_package.
  destruct (cf_permissions c !! _) as [e|]; [|done]. split; [by eexists|].
  injection H as H. intros [HA _]. destruct (HA (lit "out")) as [r Hr]; [|done].
  rewrite H. right. left.
Qed.
Print Assumptions C05_from_sections_refuted.

(** The global [sandbox] section keeps relative paths as well. *)
Theorem C05_global_sandbox_refuted :
  exists built_ins exports idx root file c,
    absolute root /\
    load_config built_ins exports idx (Some root) file = Loaded c /\
    ~ sandbox_paths_absolute (rc_sandbox (cf_raw c)) /\
    ~ sandbox_paths_absolute (rc_rustc_sandbox (cf_raw c)).
Proof.
  exists ∅, no_exports, ex_idx, (lit "/w"), (RawConfig 3 false [] ∅ ∅ ex_rel sandbox_default).
  assert (H : match load_config ∅ no_exports ex_idx (Some (lit "/w"))
                      (RawConfig 3 false [] ∅ ∅ ex_rel sandbox_default) with
    | Loaded c => sb_bind_writable (rc_sandbox (cf_raw c)) = [lit "out"] /\
                  sb_bind_writable (rc_rustc_sandbox (cf_raw c)) = [lit "out"]
    | _ => False end) by by vm_compute.
  destruct (load_config _ _ _ _ _) as [c| |]; [|done..]. destruct H as [H1 H2].
  exists c. split; [by eexists|]. split; [reflexivity|]. split; intros [HA _].
  - destruct (HA (lit "out")) as [r Hr]; [rewrite H1; left|done].
  - destruct (HA (lit "out")) as [r Hr]; [rewrite H2; left|done].
Qed.
Print Assumptions C05_global_sandbox_refuted.

(** ** C06: version upgrades *)

(** What a loaded configuration grants, beyond its file version. *)
Definition same_behaviour_but_extern (c c' : config) : Prop :=
  cf_permissions c' = cf_permissions c /\
  cf_permissions_no_inheritance c' = cf_permissions_no_inheritance c /\
  rc_apis (cf_raw c') = rc_apis (cf_raw c) /\
  rc_sandbox (cf_raw c') = rc_sandbox (cf_raw c) /\
  rc_rustc_sandbox (cf_raw c') = rc_rustc_sandbox (cf_raw c) /\
  rc_explicit_build_scripts (cf_raw c') = rc_explicit_build_scripts (cf_raw c).

Definition extern_allowed (c : config) (pkg : str) (k : crate_kind) : bool :=
  extern_permitted (cf_permissions c) (rc_version (cf_raw c)) pkg k.

(** Upgrading from version 1 to 2 preserves everything. *)
Theorem C06_upgrade_1_to_2 :
  forall built_ins exports idx root file c,
    rc_version file = 1%Z ->
    load_config built_ins exports idx root file = Loaded c ->
    exists c', load_config built_ins exports idx root (preserve_edit 2 file) = Loaded c' /\
      same_behaviour_but_extern c c' /\
      forall pkg k, extern_allowed c' pkg k = extern_allowed c pkg k.
Proof.
  intros b ex idx root file c Hv H.
  eexists. split.
  - apply (load_preserve b ex idx root file c 2); [left| |]; done.
  - split; [done|]. intros pkg k. unfold extern_allowed, extern_permitted. cbn.
    destruct (load_config_inv _ _ _ _ _ _ H) as (r1 & r2 & H1 & H2 & H3 & _).
    assert (rc_version (cf_raw c) = 1%Z) as ->; [|done].
    by rewrite (loaded_version _ _ _ _ _ _ H).
Qed.
Print Assumptions C06_upgrade_1_to_2.

(** Upgrading from 2 to 3 preserves everything but the permission to use [extern]. *)
Theorem C06_upgrade_2_to_3_partial :
  forall built_ins exports idx root file c,
    rc_version file = 2%Z ->
    load_config built_ins exports idx root file = Loaded c ->
    exists c', load_config built_ins exports idx root (preserve_edit 3 file) = Loaded c' /\
      same_behaviour_but_extern c c' /\
      forall pkg k,
        extern_allowed c' pkg k = extern_allowed c pkg k <->
        forall e, cf_permissions c !! (pkg, crate_scope k) = Some e ->
          pc_allow_extern e = pc_allow_unsafe e.
Proof.
  intros b ex idx root file c Hv H.
  eexists. split.
  - apply (load_preserve b ex idx root file c 3); [right; left| |]; done.
  - split; [done|]. intros pkg k. rewrite <- crate_scope_eq. unfold extern_allowed, extern_permitted. cbn.
    rewrite (loaded_version _ _ _ _ _ _ H), Hv. cbn.
    destruct (cf_permissions c !! _) as [e|].
    + split; [by intros ? ? [= <-]|]. intros He. by apply He.
    + done.
Qed.
Print Assumptions C06_upgrade_2_to_3_partial.

(** The upgrade from 2 to 3 that is offered as preserving behaviour revokes
    the permission to use [extern]. *)
Theorem C06_upgrade_2_to_3_refuted :
  exists built_ins exports idx root file c c' pkg k,
    rc_version file = 2%Z /\
    load_config built_ins exports idx root file = Loaded c /\
    load_config built_ins exports idx root (preserve_edit 3 file) = Loaded c' /\
    extern_allowed c pkg k = true /\ extern_allowed c' pkg k = false.
Proof.
  exists ∅, no_exports, ex_idx, None,
    (RawConfig 2 false [] ∅
       {[lit "foo" := PackageConfig true false [] [] false None None None sandbox_default None]}
       sandbox_default sandbox_default).
  set (file := RawConfig 2 _ _ _ _ _ _).
  assert (H : match load_config ∅ no_exports ex_idx None file,
                    load_config ∅ no_exports ex_idx None (preserve_edit 3 file) with
    | Loaded c, Loaded c' => extern_allowed c (lit "foo") Primary = true /\
                             extern_allowed c' (lit "foo") Primary = false
    | _, _ => False end) by by vm_compute.
  destruct (load_config _ _ _ _ file) as [c| |]; [|done..].
  destruct (load_config _ _ _ _ (preserve_edit _ _)) as [c'| |]; [|done..].
  exists c, c', (lit "foo"), Primary. done.
Qed.
Print Assumptions C06_upgrade_2_to_3_refuted.

(** The upgrade offered while loading (checker.rs:534-540) is to the next version. *)
Definition offered_upgrade (v : Z) : option nat :=
  if Z.ltb v max_version then Some (Z.to_nat (v + 1)) else None.

(** Accept every offered upgrade. *)
Fixpoint accept_upgrades (fuel : nat) (file : raw_config) : raw_config :=
  match fuel with
  | 0 => file
  | S fuel => match offered_upgrade (rc_version file) with
              | Some n => accept_upgrades fuel (preserve_edit n file)
              | None => file
              end
  end.

Theorem C06_upgrades_reach_newest :
  forall file,
    (1 <= rc_version file <= 3)%Z ->
    rc_version (accept_upgrades 2 file) = 3%Z /\
    offered_upgrade (rc_version (accept_upgrades 2 file)) = None.
Proof.
  intros file Hv.
  assert (rc_version file = 1 \/ rc_version file = 2 \/ rc_version file = 3)%Z as HC by lia.
  destruct HC as [HC|[HC|HC]]; unfold accept_upgrades, offered_upgrade at 1 3; rewrite HC;
    cbn; rewrite ?HC; done.
Qed.
Print Assumptions C06_upgrades_reach_newest.

(** ** C07: imports *)

(** Built-in definitions: every API named in [import_std] gets exactly the built-in
    paths in addition to the configured ones, every other API is unchanged. *)
Theorem C07_import_std :
  forall built_ins file rc,
    parse_raw built_ins file = Ok rc ->
    (forall api, is_Some (rc_apis rc !! api) <->
       is_Some (rc_apis file !! api) \/ api ∈ rc_import_std file) /\
    (forall api path,
       (path ∈ ac_include (default api_config_default (rc_apis rc !! api)) <->
          path ∈ ac_include (default api_config_default (rc_apis file !! api)) \/
          exists b, api ∈ rc_import_std file /\ built_ins !! api = Some b /\ path ∈ ac_include b) /\
       (path ∈ ac_exclude (default api_config_default (rc_apis rc !! api)) <->
          path ∈ ac_exclude (default api_config_default (rc_apis file !! api)) \/
          exists b, api ∈ rc_import_std file /\ built_ins !! api = Some b /\ path ∈ ac_exclude b)).
Proof. exact parse_raw_apis. Qed.
Print Assumptions C07_import_std.

(** It fails exactly when an unknown API is named. *)
Theorem C07_import_std_errors :
  forall built_ins file,
    (exists e, parse_raw built_ins file = Err e) <->
    exists i, i ∈ rc_import_std file /\ built_ins !! i = None.
Proof. exact parse_raw_error. Qed.
Print Assumptions C07_import_std_errors.

(** Definitions imported from packages: exactly the requested ones, under their
    qualified names, and none overwrites an existing definition. *)
Theorem C07_crate_imports :
  forall idx exports rc rc',
    load_imports idx exports rc = Ok rc' ->
    (forall q d, rc_apis rc' !! q = Some d <->
       rc_apis rc !! q = Some d \/ import_source idx exports rc q d) /\
    (forall q d, import_source idx exports rc q d -> rc_apis rc !! q = None) /\
    (forall pkg pc imports, rc_packages rc !! pkg = Some pc -> pc_import pc = Some imports ->
       imports <> [] -> exists v, is_newest idx pkg v /\ is_Some (exports pkg v)).
Proof. exact load_imports_ok. Qed.
Print Assumptions C07_crate_imports.

(** Every failure has a reason: the package is missing, its exports cannot be read,
    or the qualified name is defined twice. *)
Theorem C07_crate_import_errors :
  forall idx exports rc e,
    load_imports idx exports rc = Err e ->
    (exists pkg pc i imports, rc_packages rc !! pkg = Some pc /\
       pc_import pc = Some (i :: imports) /\
       (((~ exists p, p ∈ idx /\ pk_name p = pkg) /\ e = ImportPackageNotFound pkg) \/
        exists v, is_newest idx pkg v /\ exports pkg v = None /\
          e = ExportsUnavailable pkg))
    \/
    (exists pkg api, e = ApiDefinedTwice pkg api /\
       (exists d, import_source idx exports rc (pkg ++ lit "::" ++ api) d) /\
       (is_Some (rc_apis rc !! (pkg ++ lit "::" ++ api)) \/
        exists pkg' api', pkg' <> pkg /\ pkg' ++ lit "::" ++ api' = pkg ++ lit "::" ++ api /\
          is_Some (rc_packages rc !! pkg'))).
Proof. exact load_imports_err. Qed.
Print Assumptions C07_crate_import_errors.

(** A requested import that the package does not export is silently accepted. *)
Theorem C47_misspelt_import_refuted :
  exists idx exports rc rc' pkg pc imports v exported api,
    rc_packages rc !! pkg = Some pc /\ pc_import pc = Some imports /\ api ∈ imports /\
    is_newest idx pkg v /\ exports pkg v = Some exported /\
    exported !! api = None /\
    load_imports idx exports rc = Ok rc' /\ rc_apis rc' !! (pkg ++ lit "::" ++ api) = None.
Proof.
  set (pc := PackageConfig false false [] [] false None None None sandbox_default
                        (Some [lit "fss"])).
  set (rc := RawConfig 3 false [] ∅ {[lit "foo" := pc]} sandbox_default sandbox_default).
  assert (H : match load_imports ex_idx (fun _ _ => Some ex_apis) rc with
              | Ok rc' => rc_apis rc' !! lit "foo::fss" = None
              | Err _ => False
              end) by by vm_compute.
  exists ex_idx, (fun _ _ => Some ex_apis), rc.
  destruct (load_imports _ _ _) as [rc'|]; [|done].
  exists rc', (lit "foo"), pc, [lit "fss"], [1; 0; 0], ex_apis, (lit "fss").
  split; [by vm_compute|]. split; [done|]. split; [left|].
  split; [apply newest_version_iff; by vm_compute|]. split; [done|]. split; [by vm_compute|].
  split; [done|exact H].
Qed.
Print Assumptions C47_misspelt_import_refuted.

Definition ex_import : raw_config :=
  RawConfig 3 false [lit "net"] {[lit "net" := ApiConfig [lit "mio"] [] []]}
    {[lit "foo" := PackageConfig false false [] [] false None None None sandbox_default
                     (Some [lit "fs"])]} sandbox_default sandbox_default.

Example C07_ex :
  match parse_raw ex_apis ex_import with
  | Ok rc =>
      match load_imports ex_idx (fun _ _ => Some ex_apis) rc with
      | Ok rc' =>
          rc_apis rc' !! lit "net" = Some (ApiConfig [lit "mio"; lit "std::net"] [] []) /\
          rc_apis rc' !! lit "foo::fs" = Some (ApiConfig [lit "std::fs"] [] []) /\
          rc_apis rc' !! lit "foo::net" = None
      | Err _ => False
      end
  | Err _ => False
  end.
Proof. by vm_compute. Qed.
