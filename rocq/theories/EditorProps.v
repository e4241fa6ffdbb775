(** C06 (documents), C36-C38, C79-C90: automatic edits of the configuration file. *)
From Verif Require Import Base BaseFacts TextModel ApiMapModel ConfigModel ConfigSpec ConfigProofs
  ConfigLoadProofs ProblemModel BuildScriptModel TomlModel TomlProofs EditorModel ReloadProofs EditorSpec
  EditorProofs EditorMoreProofs EditorApiProofs EditorApplyProofs EditorFixProofs ConfigProps.

(** ** A document for the examples *)

Definition ed_api (path : str) : item := Table [(lit "include", Array [Text path])].

Definition ed_doc (version : Z) (pkg : list (str * item)) : table :=
  [(lit "common", Table [(lit "version", Integer version)]);
   (lit "api", Table [(lit "fs", ed_api (lit "std::fs")); (lit "net", ed_api (lit "std::net"));
                      (lit "process", ed_api (lit "std::process"))]);
   (lit "pkg", Table pkg)].

(** [pkg.foo.allow_apis = ["fs", "process"]], [pkg.foo.build.allow_apis = ["net"]]. *)
Definition ed_foo : list (str * item) :=
  [(lit "foo", Table
     [(lit "allow_apis", Array [Text (lit "fs"); Text (lit "process")]);
      (lit "build", Table [(lit "allow_apis", Array [Text (lit "net")]);
                           (lit "sandbox", Table [(lit "kind", Text (lit "Bubblewrap"))])])])].

Definition ed_idx : crate_index := [Package (lit "foo") [1; 0; 0] true true true].
Definition ed_pkg : pkg_id := PkgId (lit "foo") [1; 0; 0].
Definition any_kind (_ : sandbox_kind) : bool := true.
Definition no_prefixes (_ : bool) (_ : list api_usage) : option (list str) := None.
Definition no_export (_ : nat) : api_config := api_config_default.
Definition nothing_exported (_ : str) (_ : list nat) : option (gmap str api_config) := None.

Definition loads_to (r : option load_result) : option config :=
  match r with Some (Loaded c) => Some c | _ => None end.

Definition ed_load (idx : crate_index) (d : table) : option load_result :=
  load_document ∅ nothing_exported idx (lit "/w") d.

Definition edited_doc (e : edit) (d : table) : table := default [] (apply_edit any_kind ∅ e d).

(** The configuration loaded from a document; anything else if loading fails. *)
Definition config_of (r : option load_result) : config :=
  match r with
  | Some (Loaded c) => c
  | _ => Config (RawConfig 0 false [] ∅ ∅ sandbox_default sandbox_default) ∅ ∅
  end.

Lemma config_of_loaded (r : option load_result) :
  match r with Some (Loaded _) => true | _ => false end = true -> r = Some (Loaded (config_of r)).
Proof. by destruct r as [[]|]. Qed.

Definition granted_apis (r : option load_result) (sel : perm_sel) : option (list str) :=
  c ← loads_to r; pc_allow_apis <$> cf_permissions c !! sel.

(** ** C36: allowing an API *)

(** Applying the edit and loading again gives the API to the chosen scope and to every scope that
    inherits from it, and changes nothing else. *)
Theorem C36_exact :
  forall (built_ins : gmap str api_config) (exports : str -> list nat -> option (gmap str api_config))
         (idx : crate_index) (root : str) (usable : sandbox_kind -> bool) (pkg : str) (s : scope)
         (api : str) (d d' : table) (c : config),
  load_document built_ins exports idx root d = Some (Loaded c) ->
  index_selector idx pkg s ->
  is_Some (rc_apis (cf_raw c) !! api) ->
  (forall e, cf_permissions c !! (pkg, s) = Some e -> api ∉ pc_allow_apis e) ->
  apply_edit usable built_ins (AllowApiUsage (pkg, s) api) d = Some d' ->
  exists c', load_document built_ins exports idx root d' = Some (Loaded c') /\
    changes_only c c' pkg s AApis (fun e e' => adds api (pc_allow_apis e) (pc_allow_apis e')).
Proof. exact allow_api_effect. Qed.
Print Assumptions C36_exact.

(** The fixes of this kind that are offered for a usage without permission are those for the scope of
    the usage and for the scopes from which it inherits. Each makes the usage permitted. *)
Theorem C36_fixes :
  forall (built_ins : gmap str api_config) (exports : str -> list nat -> option (gmap str api_config))
         (idx : crate_index) (root : str) (usable : sandbox_kind -> bool)
         (failed_in : nat -> sandbox_config) (exported : nat -> api_config)
         (prefixes : bool -> list api_usage -> option (list str)) (p : problem) (u : api_usages)
         (c : config),
  (p = PDisallowedApiUsage u \/ exists owner, p = POffTreeApiUsage u owner) ->
  (forall sel api, AllowApiUsage sel api ∈ fixes_for_problem failed_in exported prefixes p c <->
     api = au_api u /\ sel.1 = pi_name (au_pkg u) /\ sel.2 ∈ chain (au_scope u)) /\
  (forall sel api d d' e,
     AllowApiUsage sel api ∈ fixes_for_problem failed_in exported prefixes p c ->
     load_document built_ins exports idx root d = Some (Loaded c) ->
     index_selector idx (pi_name (au_pkg u)) (au_scope u) ->
     is_Some (rc_apis (cf_raw c) !! au_api u) ->
     cf_permissions c !! (pi_name (au_pkg u), au_scope u) = Some e -> au_api u ∉ pc_allow_apis e ->
     apply_edit usable built_ins (AllowApiUsage sel api) d = Some d' ->
     exists c', load_document built_ins exports idx root d' = Some (Loaded c') /\
       changes_only c c' (pi_name (au_pkg u)) sel.2 AApis
         (fun e e' => adds (au_api u) (pc_allow_apis e) (pc_allow_apis e')) /\
       exists e', cf_permissions c' !! (pi_name (au_pkg u), au_scope u) = Some e' /\
         au_api u ∈ pc_allow_apis e').
Proof.
  intros b ex idx root usable failed_in exported prefixes p u c Hp. split.
  - intros sel api. by apply allow_fix.
  - intros sel api d d' e Hf Hl Hi Ha He Hn Hap. by eapply allow_fix_effect.
Qed.
Print Assumptions C36_fixes.

Definition ed_usage (s : scope) (api : str) : api_usages := ApiUsages ed_pkg s api [].

(** Allowing [net] for the whole package: it is removed from the section of the build script, which
    still has it. *)
Example C36_ex :
  let d := ed_doc 3 ed_foo in
  let d' := edited_doc (AllowApiUsage (lit "foo", All) (lit "net")) d in
  granted_apis (ed_load ed_idx d) (lit "foo", Test) = Some [lit "fs"; lit "process"] /\
  AllowApiUsage (lit "foo", All) (lit "net")
    ∈ fixes_for_problem (fun _ => sandbox_default) no_export no_prefixes
        (PDisallowedApiUsage (ed_usage Test (lit "net"))) (config_of (ed_load ed_idx d)) /\
  is_Some (apply_edit any_kind ∅ (AllowApiUsage (lit "foo", All) (lit "net")) d) /\
  at_path [lit "pkg"; lit "foo"; lit "allow_apis"] d' =
    Some (Array [Text (lit "fs"); Text (lit "net"); Text (lit "process")]) /\
  at_path [lit "pkg"; lit "foo"; lit "build"; lit "allow_apis"] d' = None /\
  granted_apis (ed_load ed_idx d') (lit "foo", Test) = Some [lit "fs"; lit "net"; lit "process"] /\
  (fun l => bool_decide (lit "net" ∈ l)) <$> granted_apis (ed_load ed_idx d') (lit "foo", Build) = Some true.
Proof.
  cbn zeta. split; [by vm_compute|]. split.
  { apply (proj2 (allow_fix nothing_exported _ _ _ _ (ed_usage Test (lit "net")) _ _ _ (or_introl eq_refl))).
    split; [done|]. split; [done|]. right. right. left. }
  split; [vm_compute; by eexists|]. by vm_compute.
Qed.

(** ** C37: adding to an array *)

(** All existing entries stay, in their order; the values are there; nothing else is added; an array in
    order stays in order; values already in an array that is in order change nothing; and a second
    application never changes anything. Other keys of the table keep their values. *)
Theorem C37_add_to_array :
  forall (k : str) (values : list str) (t t' : table) (l : list str),
  field k [] texts_of t = Some l ->
  add_to_array k values t = Some t' ->
  (exists l', field k [] texts_of t' = Some l' /\
     l `sublist_of` l' /\
     (forall y, y ∈ l' <-> y ∈ values \/ y ∈ l) /\
     (in_order l -> in_order l') /\
     (in_order l -> (forall v, v ∈ values -> v ∈ l) -> l' = l)) /\
  add_to_array k values t' = Some t' /\
  (forall k', k' <> k -> get k' t' = get k' t).
Proof.
  intros k values t t' l Hl Ha. split; [|split].
  - destruct (add_to_array_facts k values t t' l Hl Ha) as (l' & Hl' & ->).
    eexists. split; [exact Hl'|]. apply inserts_facts.
  - by eapply add_to_array_twice.
  - intros k' Hk. by eapply add_to_array_frame.
Qed.
Print Assumptions C37_add_to_array.

Example C37_ex :
  let t := [(lit "x", Array [Text (lit "b"); Text (lit "d"); Text (lit "a")]); (lit "y", Flag true)] in
  add_to_array (lit "x") [lit "c"; lit "e"] t =
    Some [(lit "x", Array [Text (lit "b"); Text (lit "c"); Text (lit "d"); Text (lit "a"); Text (lit "e")]);
          (lit "y", Flag true)] /\
  (t' ← add_to_array (lit "x") [lit "c"; lit "e"] t; add_to_array (lit "x") [lit "c"; lit "e"] t') =
    add_to_array (lit "x") [lit "c"; lit "e"] t.
Proof. by vm_compute. Qed.

(** ** C80: a value that is already there *)

(** If the array is not in order, a value that it already has can be added once more; for the APIs of a
    package that makes the configuration invalid. *)
Theorem C80_already_there_refuted :
  exists (idx : crate_index) (d d' : table) (c : config) (pkg api : str),
    ed_load idx d = Some (Loaded c) /\ index_selector idx pkg All /\
    at_path [lit "pkg"; pkg; lit "allow_apis"] d = Some (Array [Text (lit "net"); Text api]) /\
    apply_edit any_kind ∅ (AllowApiUsage (pkg, All) api) d = Some d' /\
    at_path [lit "pkg"; pkg; lit "allow_apis"] d' = Some (Array [Text api; Text (lit "net"); Text api]) /\
    ed_load idx d' = Some (Invalid [DuplicateAllowedApi api]).
Proof.
  set (d := ed_doc 3 [(lit "foo", Table [(lit "allow_apis", Array [Text (lit "net"); Text (lit "fs")])])]).
  exists ed_idx, d, (edited_doc (AllowApiUsage (lit "foo", All) (lit "fs")) d), (config_of (ed_load ed_idx d)),
    (lit "foo"), (lit "fs").
  split; [apply config_of_loaded; by vm_compute|].
  split; [exists (Package (lit "foo") [1; 0; 0] true true true); split; [left|done]|].
  by vm_compute.
Qed.
Print Assumptions C80_already_there_refuted.

(** ** C38: failed build scripts *)

(** Each fix offered after a build script failed in a sandbox changes the settings under which it is
    run again as announced (the network is reachable, or there is no sandbox), and nothing else. *)
Theorem C38_build_script :
  forall (built_ins : gmap str api_config) (exports : str -> list nat -> option (gmap str api_config))
         (idx : crate_index) (root : str) (usable : sandbox_kind -> bool)
         (failed_in : nat -> sandbox_config) (exported : nat -> api_config)
         (prefixes : bool -> list api_usage -> option (list str)) (sel : crate_sel) (output : nat)
         (e : edit) (d d' : table) (c : config),
  load_document built_ins exports idx root d = Some (Loaded c) ->
  cs_kind sel = BuildScript ->
  index_selector idx (pi_name (cs_pkg sel)) Build ->
  failed_in output = sandbox_config_for_package (cf_permissions c) (pi_name (cs_pkg sel), Build) ->
  e ∈ fixes_for_problem failed_in exported prefixes (PExecutionFailed sel output) c ->
  apply_edit usable built_ins e d = Some d' ->
  exists c', load_document built_ins exports idx root d' = Some (Loaded c') /\
    changes_only c c' (pi_name (cs_pkg sel)) Build ASandbox (fun _ _ => True) /\
    let sb := failed_in output in
    let sb' := sandbox_config_for_package (cf_permissions c') (pi_name (cs_pkg sel), Build) in
    (sb_kind sb <> Some Disabled /\ sb_kind sb' = Some Disabled /\ sb_allow_network sb' = sb_allow_network sb \/
     sb_allow_network sb <> Some true /\ sb_allow_network sb' = Some true /\ sb_kind sb' = sb_kind sb) /\
    sb_extra_args sb' = sb_extra_args sb /\ sb_bind_writable sb' = sb_bind_writable sb /\
    sb_make_writable sb' = sb_make_writable sb /\ sb_pass_env sb' = sb_pass_env sb.
Proof. exact execution_fix_effect. Qed.
Print Assumptions C38_build_script.

Definition ed_sandbox (r : option load_result) (sel : perm_sel) : option sandbox_config :=
  c ← loads_to r; Some (sandbox_config_for_package (cf_permissions c) sel).

Example C38_ex :
  let d := ed_doc 3 ed_foo in
  let failed := fun _ : nat => default sandbox_default (ed_sandbox (ed_load ed_idx d) (lit "foo", Build)) in
  fixes_for_problem failed no_export no_prefixes (PExecutionFailed (CrateSel ed_pkg BuildScript) 0)
    (config_of (ed_load ed_idx d)) =
    [SandboxAllowNetwork (lit "foo", Build); DisableSandbox (lit "foo", Build)] /\
  sb_kind <$> ed_sandbox (ed_load ed_idx d) (lit "foo", Build) = Some (Some Bubblewrap) /\
  sb_kind <$> ed_sandbox (ed_load ed_idx (edited_doc (DisableSandbox (lit "foo", Build)) d)) (lit "foo", Build)
    = Some (Some Disabled) /\
  sb_allow_network <$>
    ed_sandbox (ed_load ed_idx (edited_doc (SandboxAllowNetwork (lit "foo", Build)) d)) (lit "foo", Build)
    = Some (Some true).
Proof. by vm_compute. Qed.

(** ** C79: failed tests *)

(** The fixes offered after a *test* failed in its sandbox edit the settings of the build script: the
    test is run again under the same settings. *)
Theorem C79_tests_refuted :
  exists (idx : crate_index) (d : table) (c : config) (sel : crate_sel) (failed_in : nat -> sandbox_config),
    ed_load idx d = Some (Loaded c) /\ cs_kind sel = TestCrate /\
    index_selector idx (pi_name (cs_pkg sel)) Test /\
    failed_in 0 = sandbox_config_for_package (cf_permissions c) (pi_name (cs_pkg sel), Test) /\
    sb_kind (failed_in 0) = Some Bubblewrap /\
    fixes_for_problem failed_in no_export no_prefixes (PExecutionFailed sel 0) c <> [] /\
    forall e, e ∈ fixes_for_problem failed_in no_export no_prefixes (PExecutionFailed sel 0) c ->
      exists d' c', apply_edit any_kind ∅ e d = Some d' /\ ed_load idx d' = Some (Loaded c') /\
        sandbox_config_for_package (cf_permissions c') (pi_name (cs_pkg sel), Test) = failed_in 0.
Proof.
  set (d := ed_doc 3 [(lit "foo", Table [(lit "test", Table [(lit "sandbox", Table [(lit "kind", Text (lit "Bubblewrap"))])])])]).
  set (sb := SandboxConfig (Some Bubblewrap) [] None [] [] []).
  exists ed_idx, d, (config_of (ed_load ed_idx d)), (CrateSel ed_pkg TestCrate), (fun _ => sb).
  split; [apply config_of_loaded; by vm_compute|]. split; [done|].
  split; [exists (Package (lit "foo") [1; 0; 0] true true true); split; [left|done]|].
  split; [by vm_compute|]. split; [done|]. split; [done|].
  intros e He. cbn in He.
  exists (edited_doc e d), (config_of (ed_load ed_idx (edited_doc e d))).
  apply elem_of_cons in He as [->| ->%elem_of_list_singleton].
  - split; [by vm_compute|]. split; [apply config_of_loaded; by vm_compute|]. by vm_compute.
  - split; [by vm_compute|]. split; [apply config_of_loaded; by vm_compute|]. by vm_compute.
Qed.
Print Assumptions C79_tests_refuted.

(** ** C81: the other restrictions *)

Theorem C81_unsafe :
  forall (built_ins : gmap str api_config) (exports : str -> list nat -> option (gmap str api_config))
         (idx : crate_index) (root : str) (usable : sandbox_kind -> bool)
         (failed_in : nat -> sandbox_config) (exported : nat -> api_config)
         (prefixes : bool -> list api_usage -> option (list str)) (sel : crate_sel) (locations : nat)
         (e : edit) (d d' : table) (c : config),
  load_document built_ins exports idx root d = Some (Loaded c) ->
  index_selector idx (pi_name (cs_pkg sel)) (crate_scope (cs_kind sel)) ->
  e ∈ fixes_for_problem failed_in exported prefixes (PDisallowedUnsafe sel locations) c ->
  apply_edit usable built_ins e d = Some d' ->
  exists c', load_document built_ins exports idx root d' = Some (Loaded c') /\
    changes_only c c' (pi_name (cs_pkg sel)) (crate_scope (cs_kind sel)) AUnsafe
      (fun _ e' => pc_allow_unsafe e' = true) /\
    unsafe_permitted (cf_permissions c') (pi_name (cs_pkg sel)) (cs_kind sel) = true.
Proof. exact unsafe_fix_effect. Qed.
Print Assumptions C81_unsafe.

Theorem C81_extern :
  forall (built_ins : gmap str api_config) (exports : str -> list nat -> option (gmap str api_config))
         (idx : crate_index) (root : str) (usable : sandbox_kind -> bool)
         (failed_in : nat -> sandbox_config) (exported : nat -> api_config)
         (prefixes : bool -> list api_usage -> option (list str)) (sel : crate_sel) (locations : nat)
         (e : edit) (d d' : table) (c : config),
  load_document built_ins exports idx root d = Some (Loaded c) ->
  index_selector idx (pi_name (cs_pkg sel)) (crate_scope (cs_kind sel)) ->
  e ∈ fixes_for_problem failed_in exported prefixes (PDisallowedExtern sel locations) c ->
  apply_edit usable built_ins e d = Some d' ->
  exists c', load_document built_ins exports idx root d' = Some (Loaded c') /\
    changes_only c c' (pi_name (cs_pkg sel)) (crate_scope (cs_kind sel)) AExtern
      (fun _ e' => pc_allow_extern e' = true) /\
    ((2 < rc_version (cf_raw c))%Z ->
     extern_permitted (cf_permissions c') (rc_version (cf_raw c')) (pi_name (cs_pkg sel)) (cs_kind sel) = true).
Proof. exact extern_fix_effect. Qed.
Print Assumptions C81_extern.

Theorem C81_proc_macro :
  forall (built_ins : gmap str api_config) (exports : str -> list nat -> option (gmap str api_config))
         (idx : crate_index) (root : str) (usable : sandbox_kind -> bool)
         (failed_in : nat -> sandbox_config) (exported : nat -> api_config)
         (prefixes : bool -> list api_usage -> option (list str)) (p : pkg_id)
         (e : edit) (d d' : table) (c : config),
  load_document built_ins exports idx root d = Some (Loaded c) ->
  index_selector idx (pi_name p) All ->
  e ∈ fixes_for_problem failed_in exported prefixes (PIsProcMacro p) c ->
  apply_edit usable built_ins e d = Some d' ->
  exists c', load_document built_ins exports idx root d' = Some (Loaded c') /\
    changes_only c c' (pi_name p) All AProcMacro (fun _ e' => pc_allow_proc_macro e' = true).
Proof. exact proc_macro_fix_effect. Qed.
Print Assumptions C81_proc_macro.

(** A reported build instruction is not reported again after any of the offered fixes, and nothing new
    is reported for the same output. *)
Theorem C81_instructions :
  forall (built_ins : gmap str api_config) (exports : str -> list nat -> option (gmap str api_config))
         (idx : crate_index) (root : str) (usable : sandbox_kind -> bool)
         (failed_in : nat -> sandbox_config) (exported : nat -> api_config)
         (prefixes : bool -> list api_usage -> option (list str)) (p : pkg_id) (i stdout : str)
         (e : edit) (d d' : table) (c : config),
  load_document built_ins exports idx root d = Some (Loaded c) ->
  index_selector idx (pi_name p) Build ->
  PDisallowedBuildInstruction p i ∈ br_problems (bs_build (cf_permissions c) p stdout) ->
  e ∈ fixes_for_problem failed_in exported prefixes (PDisallowedBuildInstruction p i) c ->
  apply_edit usable built_ins e d = Some d' ->
  exists c' rule, load_document built_ins exports idx root d' = Some (Loaded c') /\
    changes_only c c' (pi_name p) Build AInstructions
      (fun e e' => adds rule (pc_allow_build_instructions e) (pc_allow_build_instructions e')) /\
    PDisallowedBuildInstruction p i ∉ br_problems (bs_build (cf_permissions c') p stdout) /\
    br_problems (bs_build (cf_permissions c') p stdout) ⊆ br_problems (bs_build (cf_permissions c) p stdout).
Proof. exact instruction_fix_effect. Qed.
Print Assumptions C81_instructions.

Example C81_ex :
  let d := ed_doc 3 ed_foo in
  let c := config_of (ed_load ed_idx d) in
  let fixed := fun e => cf_permissions (config_of (ed_load ed_idx (edited_doc e d))) in
  let fixes := fun p => fixes_for_problem (fun _ => sandbox_default) no_export no_prefixes p c in
  let out := lit "cargo:rustc-link-search=/x" ++ [ascii_of_nat 10] in
  fixes (PDisallowedUnsafe (CrateSel ed_pkg Primary) 0) = [AllowUnsafe (lit "foo", All)] /\
  unsafe_permitted (cf_permissions c) (lit "foo") TestCrate = false /\
  unsafe_permitted (fixed (AllowUnsafe (lit "foo", All))) (lit "foo") TestCrate = true /\
  fixes (PDisallowedExtern (CrateSel ed_pkg BuildScript) 0) = [AllowExtern (lit "foo", Build)] /\
  extern_permitted (fixed (AllowExtern (lit "foo", Build))) 3 (lit "foo") BuildScript = true /\
  extern_permitted (fixed (AllowExtern (lit "foo", Build))) 3 (lit "foo") Primary = false /\
  fixes (PIsProcMacro ed_pkg) = [AllowProcMacro (lit "foo", All)] /\
  pc_allow_proc_macro <$> fixed (AllowProcMacro (lit "foo", All)) !! (lit "foo", All) = Some true /\
  br_problems (bs_build (cf_permissions c) ed_pkg out) =
    [PDisallowedBuildInstruction ed_pkg (lit "cargo:rustc-link-search=/x")] /\
  AllowBuildInstruction (lit "foo", Build) (lit "cargo:rustc-link-*")
    ∈ fixes (PDisallowedBuildInstruction ed_pkg (lit "cargo:rustc-link-search=/x")) /\
  br_problems (bs_build (fixed (AllowBuildInstruction (lit "foo", Build) (lit "cargo:rustc-link-*")))
                 ed_pkg out) = [].
Proof.
  cbn zeta. repeat (split; [by vm_compute|]). split; [|by vm_compute].
  vm_compute. right. left.
Qed.

(** ** C82: [extern] in old configurations *)

(** Up to version 2 of the configuration the only fix offered for an [extern] usage has no effect on
    what is reported. *)
Theorem C82_extern_refuted :
  exists (idx : crate_index) (d : table) (c : config) (sel : crate_sel),
    ed_load idx d = Some (Loaded c) /\
    index_selector idx (pi_name (cs_pkg sel)) (crate_scope (cs_kind sel)) /\
    extern_permitted (cf_permissions c) (rc_version (cf_raw c)) (pi_name (cs_pkg sel)) (cs_kind sel) = false /\
    forall e, e ∈ fixes_for_problem (fun _ => sandbox_default) no_export no_prefixes (PDisallowedExtern sel 0) c ->
      exists d' c', apply_edit any_kind ∅ e d = Some d' /\ ed_load idx d' = Some (Loaded c') /\
        extern_permitted (cf_permissions c') (rc_version (cf_raw c')) (pi_name (cs_pkg sel)) (cs_kind sel) = false.
Proof.
  set (d := ed_doc 2 ed_foo).
  exists ed_idx, d, (config_of (ed_load ed_idx d)), (CrateSel ed_pkg Primary).
  split; [apply config_of_loaded; by vm_compute|].
  split; [exists (Package (lit "foo") [1; 0; 0] true true true); split; [left|done]|].
  split; [by vm_compute|]. intros e ->%elem_of_list_singleton.
  exists (edited_doc (AllowExtern (lit "foo", All)) d),
    (config_of (ed_load ed_idx (edited_doc (AllowExtern (lit "foo", All)) d))).
  split; [by vm_compute|]. split; [apply config_of_loaded; by vm_compute|]. by vm_compute.
Qed.
Print Assumptions C82_extern_refuted.

(** ** C83, C84: edits can be applied *)

(** If a file that can be decoded has no inline tables, every edit can be applied to it, except for
    sandboxes that do not work on this machine and built-in APIs that do not exist. *)
Theorem C84_edits_apply :
  forall (usable : sandbox_kind -> bool) (built_ins : gmap str api_config) (e : edit) (d : table)
         (rc : raw_config),
  decode d = Some rc -> no_inline_tables d ->
  (forall k, e = SelectSandbox k -> usable k = true) ->
  (forall api, e = InlineStdApi api -> is_Some (built_ins !! api)) ->
  is_Some (apply_edit usable built_ins e d).
Proof. exact edits_apply. Qed.
Print Assumptions C84_edits_apply.

Lemma no_inline_cons (k : str) (i : item) (t : table) :
  good_item i -> no_inline_tables t -> no_inline_tables ((k, i) :: t).
Proof.
  intros Hi Ht [|k' path] w; [done|]. rewrite at_path_step. cbn [get]. destruct (str_eqb k' k).
  - destruct path; by destruct i.
  - rewrite <- at_path_step. apply Ht.
Qed.

Example C84_ex :
  is_Some (decode (ed_doc 3 ed_foo)) /\ no_inline_tables (ed_doc 3 ed_foo) /\
  is_Some (apply_edit any_kind ∅ (DisableSandbox (lit "bar", FromTest)) (ed_doc 3 ed_foo)).
Proof.
  split; [vm_compute; by eexists|]. split; [|vm_compute; by eexists].
  repeat first [apply no_inline_nil|apply no_inline_cons|exact I].
Qed.

(** A file in which a package is written as an inline table, [foo = { allow_apis = ["fs"] }] in the
    section [pkg], can be loaded, but no fix that concerns the package can be applied. *)
Theorem C83_inline_refuted :
  exists (idx : crate_index) (d : table) (c : config) (u : api_usages) (e : package_config),
    ed_load idx d = Some (Loaded c) /\
    index_selector idx (pi_name (au_pkg u)) (au_scope u) /\ is_Some (rc_apis (cf_raw c) !! au_api u) /\
    cf_permissions c !! (pi_name (au_pkg u), au_scope u) = Some e /\ au_api u ∉ pc_allow_apis e /\
    fixes_for_problem (fun _ => sandbox_default) no_export no_prefixes (PDisallowedApiUsage u) c <> [] /\
    forall e, e ∈ fixes_for_problem (fun _ => sandbox_default) no_export no_prefixes (PDisallowedApiUsage u) c ->
      apply_edit any_kind ∅ e d = None.
Proof.
  set (d := ed_doc 3 [(lit "foo", Inline [(lit "allow_apis", Array [Text (lit "fs")])])]).
  exists ed_idx, d, (config_of (ed_load ed_idx d)), (ed_usage Test (lit "net")),
    (default package_default (cf_permissions (config_of (ed_load ed_idx d)) !! (lit "foo", Test))).
  split; [apply config_of_loaded; by vm_compute|].
  split; [exists (Package (lit "foo") [1; 0; 0] true true true); split; [left|done]|].
  split; [by vm_compute; eexists|].
  assert (H : bool_decide (is_Some (cf_permissions (config_of (ed_load ed_idx d)) !! (lit "foo", Test))) = true)
    by by vm_compute.
  apply bool_decide_eq_true in H as [e He].
  split; [by rewrite He|].
  split; [apply (bool_decide_unpack _); by vm_compute|]. split; [by vm_compute|].
  intros e0 He0. unfold fixes_for_problem in He0. apply elem_of_app in He0 as [He0|He0].
  - apply elem_of_list_fmap in He0 as (s & -> & Hs). apply with_parents_chain in Hs.
    cbn [au_scope ed_usage chain] in Hs. rewrite !elem_of_cons, elem_of_nil in Hs.
    destruct Hs as [->|[->|[->|[]]]]; by vm_compute.
  - exfalso. revert He0. unfold exclude_fixes.
    destruct (rc_apis (cf_raw (config_of (ed_load ed_idx d))) !! au_api (ed_usage Test (lit "net"))); by intros ?%elem_of_nil.
Qed.
Print Assumptions C83_inline_refuted.

(** ** C85, C90: the definitions of APIs *)

(** If the definition does not come from another package, allowing more paths, excluding paths and
    ignoring a package change that definition as they say and nothing else. *)
Theorem C90_definitions :
  forall (built_ins : gmap str api_config) (exports : str -> list nat -> option (gmap str api_config))
         (idx : crate_index) (root : str) (usable : sandbox_kind -> bool) (api path : str) (d d' : table)
         (c : config),
  load_document built_ins exports idx root d = Some (Loaded c) ->
  (forall rc x, decode d = Some rc -> ~ import_source idx exports rc api x) ->
  (apply_edit usable built_ins (ExtendApi api path) d = Some d' ->
   exists c', load_document built_ins exports idx root d' = Some (Loaded c') /\
     changes_api c c' api (one_more_include path)) /\
  (apply_edit usable built_ins (ExcludeFromApi api path) d = Some d' ->
   exists c', load_document built_ins exports idx root d' = Some (Loaded c') /\
     changes_api c c' api (one_more_exclude path)) /\
  (apply_edit usable built_ins (NoDetectApi api path) d = Some d' ->
   exists c', load_document built_ins exports idx root d' = Some (Loaded c') /\
     changes_api c c' api (one_more_ignored path)).
Proof.
  intros b ex idx root usable api path d d' c Hl Hno. split; [|split]; intros Ha.
  - by eapply extend_effect.
  - by eapply exclude_effect.
  - by eapply no_detect_effect.
Qed.
Print Assumptions C90_definitions.

Definition ed_def (r : option load_result) (api : str) : option api_config :=
  c ← loads_to r; rc_apis (cf_raw c) !! api.

Example C90_ex :
  let d := ed_doc 3 ed_foo in
  ed_def (ed_load ed_idx (edited_doc (ExtendApi (lit "net") (lit "foo::net")) d)) (lit "net") =
    Some (ApiConfig [lit "foo::net"; lit "std::net"] [] []) /\
  ed_def (ed_load ed_idx (edited_doc (ExcludeFromApi (lit "net") (lit "std::net::IpAddr")) d)) (lit "net") =
    Some (ApiConfig [lit "std::net"] [lit "std::net::IpAddr"] []) /\
  ed_def (ed_load ed_idx (edited_doc (NoDetectApi (lit "net") (lit "foo")) d)) (lit "net") =
    Some (ApiConfig [lit "std::net"] [] [lit "foo"]).
Proof. by vm_compute. Qed.

(** An API that is imported from a package: the fix that excludes a path creates a section for it in
    this file, and the file cannot be loaded any more. *)
Definition ed_exports (pkg : str) (v : list nat) : option (gmap str api_config) :=
  if str_eqb pkg (lit "foo") then Some {[lit "net" := ApiConfig [lit "foo::net"] [] []]} else None.

Theorem C85_imported_refuted :
  exists (idx : crate_index) (d : table) (c : config) (p : problem) (e : edit) (d' : table)
         (prefixes : bool -> list api_usage -> option (list str)),
    load_document ∅ ed_exports idx (lit "/w") d = Some (Loaded c) /\
    (exists u, p = PDisallowedApiUsage u /\ is_Some (rc_apis (cf_raw c) !! au_api u)) /\
    e ∈ fixes_for_problem (fun _ => sandbox_default) no_export prefixes p c /\
    apply_edit any_kind ∅ e d = Some d' /\
    load_document ∅ ed_exports idx (lit "/w") d' = Some (LoadError (ApiDefinedTwice (lit "foo") (lit "net"))).
Proof.
  set (d := ed_doc 3 [(lit "foo", Table [(lit "import", Array [Text (lit "net")])])]).
  set (c := config_of (load_document ∅ ed_exports ed_idx (lit "/w") d)).
  set (e := ExcludeFromApi (lit "foo::net") (lit "foo::net::parse")).
  exists ed_idx, d, c, (PDisallowedApiUsage (ed_usage All (lit "foo::net"))), e, (edited_doc e d),
    (fun _ _ => Some [lit "foo::net::parse"]).
  split; [apply config_of_loaded; by vm_compute|].
  split; [eexists; split; [done|]; by vm_compute; eexists|].
  split; [|by vm_compute].
  apply elem_of_app. right. 
  assert (H : exclude_fixes c (lit "foo::net") [lit "foo::net::parse"] = [e]) by by vm_compute.
  cbn [au_api ed_usage au_usages default from_option id]. rewrite H. left.
Qed.
Print Assumptions C85_imported_refuted.

(** ** C86: removing what is not used *)

(** Removing APIs that a section allows but does not need: its own list has none of them afterwards,
    nothing is granted that was not granted before, and no other grant goes. *)
Theorem C86_remove_apis :
  forall (built_ins : gmap str api_config) (exports : str -> list nat -> option (gmap str api_config))
         (idx : crate_index) (root : str) (usable : sandbox_kind -> bool) (pkg : str) (s : scope)
         (apis : list str) (d d' : table) (c : config),
  load_document built_ins exports idx root d = Some (Loaded c) ->
  (exists p, p ∈ idx /\ pk_name p = pkg) ->
  apply_edit usable built_ins (RemoveUnusedAllowApis (pkg, s) apis) d = Some d' ->
  exists c', load_document built_ins exports idx root d' = Some (Loaded c') /\
    changes_only c c' pkg s AApis (fun e e' =>
      (forall x, x ∈ pc_allow_apis e' -> x ∈ pc_allow_apis e) /\
      (forall x, x ∉ apis -> x ∈ pc_allow_apis e -> x ∈ pc_allow_apis e')) /\
    (forall e, cf_permissions_no_inheritance c' !! (pkg, s) = Some e ->
       forall x, x ∈ apis -> x ∉ pc_allow_apis e).
Proof. exact remove_apis_effect. Qed.
Print Assumptions C86_remove_apis.

(** Removing the section of a selector that does not exist changes nothing for the selectors that do. *)
Theorem C86_remove_section :
  forall (built_ins : gmap str api_config) (exports : str -> list nat -> option (gmap str api_config))
         (idx : crate_index) (root : str) (usable : sandbox_kind -> bool) (pkg : str) (s : scope)
         (d d' : table) (c : config),
  load_document built_ins exports idx root d = Some (Loaded c) ->
  ~ index_selector idx pkg s ->
  apply_edit usable built_ins (RemoveUnusedPkgConfig (pkg, s)) d = Some d' ->
  exists c', load_document built_ins exports idx root d' = Some (Loaded c') /\
    same_settings c c' /\
    (forall sel, index_selector idx sel.1 sel.2 -> cf_permissions c' !! sel = cf_permissions c !! sel) /\
    (forall sel, cf_permissions_no_inheritance c' !! sel =
       if decide (sel.1 = pkg /\ (s = All \/ sel.2 = s)) then None
       else cf_permissions_no_inheritance c !! sel).
Proof. exact remove_section_effect. Qed.
Print Assumptions C86_remove_section.

Example C86_ex :
  let d := ed_doc 3 (ed_foo ++ [(lit "gone", Table [(lit "allow_unsafe", Flag true)])]) in
  let d1 := edited_doc (RemoveUnusedAllowApis (lit "foo", All) [lit "fs"; lit "process"]) d in
  let d2 := edited_doc (RemoveUnusedPkgConfig (lit "gone", All)) d1 in
  granted_apis (ed_load ed_idx d) (lit "foo", Test) = Some [lit "fs"; lit "process"] /\
  granted_apis (ed_load ed_idx d1) (lit "foo", Test) = Some [] /\
  at_path [lit "pkg"; lit "foo"; lit "allow_apis"] d1 = None /\
  at_path [lit "pkg"; lit "gone"] d2 = None /\
  granted_apis (ed_load ed_idx d2) (lit "foo", Build) = Some [lit "net"].
Proof. by vm_compute. Qed.

(** ** C87: APIs that packages export *)

(** Importing an API that is offered by the newest version of a package defines it under its qualified
    name as that package does, and changes nothing else; the package does not offer anything again,
    and what other packages offer stays the same. *)
Theorem C87_import :
  forall (built_ins : gmap str api_config) (exports : str -> list nat -> option (gmap str api_config))
         (idx : crate_index) (root : str) (usable : sandbox_kind -> bool) (pkg api : str) (v : list nat)
         (def : api_config) (d d' : table) (c : config),
  load_document built_ins exports idx root d = Some (Loaded c) ->
  (PkgId pkg v, api, def) ∈ unused_imports exports idx (cf_raw c) -> is_newest idx pkg v ->
  rc_apis (cf_raw c) !! (pkg ++ lit "::" ++ api) = None ->
  apply_edit usable built_ins (ImportApi pkg api) d = Some d' ->
  exists c', load_document built_ins exports idx root d' = Some (Loaded c') /\
    changes_api c c' (pkg ++ lit "::" ++ api) (fun _ x' => x' = def) /\
    unused_imports exports idx (cf_raw c') =
      filter (fun e : pkg_id * str * api_config => pi_name e.1.1 <> pkg) (unused_imports exports idx (cf_raw c)).
Proof. exact import_fix_effect. Qed.
Print Assumptions C87_import.

(** Ignoring what a package exports changes nothing but what is offered. *)
Theorem C87_ignore :
  forall (built_ins : gmap str api_config) (exports : str -> list nat -> option (gmap str api_config))
         (idx : crate_index) (root : str) (usable : sandbox_kind -> bool) (pkg : str) (d d' : table)
         (c : config),
  load_document built_ins exports idx root d = Some (Loaded c) ->
  (exists p, p ∈ idx /\ pk_name p = pkg) ->
  apply_edit usable built_ins (IgnoreApi pkg) d = Some d' ->
  exists c', load_document built_ins exports idx root d' = Some (Loaded c') /\
    changes_nothing c c' /\
    unused_imports exports idx (cf_raw c') =
      filter (fun e : pkg_id * str * api_config => pi_name e.1.1 <> pkg) (unused_imports exports idx (cf_raw c)).
Proof. exact ignore_effect. Qed.
Print Assumptions C87_ignore.

(** Inlining merges the exported definition into the API of the same name, and nothing of the package
    is offered again. *)
Theorem C87_inline :
  forall (built_ins : gmap str api_config) (exports : str -> list nat -> option (gmap str api_config))
         (idx : crate_index) (root : str) (usable : sandbox_kind -> bool) (pkg api : str)
         (def : api_config) (d d' : table) (c : config),
  load_document built_ins exports idx root d = Some (Loaded c) ->
  (exists p, p ∈ idx /\ pk_name p = pkg) ->
  (forall rc x, decode d = Some rc -> ~ import_source idx exports rc api x) ->
  apply_edit usable built_ins (InlineApi pkg api def) d = Some d' ->
  exists c', load_document built_ins exports idx root d' = Some (Loaded c') /\
    changes_api c c' api (includes_definition def) /\
    forall e, e ∈ unused_imports exports idx (cf_raw c') -> pi_name e.1.1 <> pkg.
Proof.
  intros b ex idx root usable pkg api def d d' c Hl Hp Hno Ha. cbn [apply_edit] in Ha.
  destruct (inline_api api def d) as [d1|] eqn:E1; [|done]. cbn [mbind option_bind] in Ha.
  destruct (inline_api_effect b ex idx root api def d d1 c Hl Hno E1) as (c1 & Hl1 & H1).
  destruct (ignore_effect b ex idx root usable pkg d1 d' c1 Hl1 Hp Ha) as (c' & Hl' & [H2 H3] & H4).
  exists c'. split; [done|]. split.
  - destruct H1 as (V & X & S & R & G & O & x' & Hx & P). destruct H2 as (V' & X' & A' & S' & R').
    repeat split; [congruence..| | |].
    + intros sel. specialize (G sel). specialize (H3 sel).
      destruct (cf_permissions c !! sel) as [e|], (cf_permissions c1 !! sel) as [e1|],
        (cf_permissions c' !! sel) as [e'|]; try done.
      intros a. specialize (G a). specialize (H3 a). destruct a; cbn [agree] in *; congruence.
    + intros k Hk. rewrite A'. by apply O.
    + exists x'. by rewrite A'.
  - intros e He. rewrite H4 in He. by apply elem_of_list_filter in He as [? _].
Qed.
Print Assumptions C87_inline.

Definition ed_load_exports (d : table) : option load_result := load_document ∅ ed_exports ed_idx (lit "/w") d.

Example C87_ex :
  let d := ed_doc 3 ed_foo in
  let def := ApiConfig [lit "foo::net"] [] [] in
  let offered := fun d => c ← loads_to (ed_load_exports d); Some (unused_imports ed_exports ed_idx (cf_raw c)) in
  offered d = Some [(ed_pkg, lit "net", def)] /\
  offered (edited_doc (ImportApi (lit "foo") (lit "net")) d) = Some [] /\
  ed_def (ed_load_exports (edited_doc (ImportApi (lit "foo") (lit "net")) d)) (lit "foo::net") = Some def /\
  offered (edited_doc (IgnoreApi (lit "foo")) d) = Some [] /\
  offered (edited_doc (InlineApi (lit "foo") (lit "net") def) d) = Some [] /\
  ed_def (ed_load_exports (edited_doc (InlineApi (lit "foo") (lit "net") def) d)) (lit "net") =
    Some (ApiConfig [lit "foo::net"; lit "std::net"] [] []).
Proof. by vm_compute. Qed.

(** ** C89: two versions of a package *)

(** An API exported only by an older version of a package is offered too, but importing it takes the
    newest version: nothing is defined, and the API is not offered again. *)
Definition ed_old_exports (pkg : str) (v : list nat) : option (gmap str api_config) :=
  if decide (v = [1; 0; 0]) then Some {[lit "net" := ApiConfig [lit "foo::net"] [] []]} else Some ∅.

Theorem C89_older_version_refuted :
  exists (idx : crate_index) (d d' : table) (c c' : config) (pkg api : str) (v : list nat) (def : api_config),
    load_document ∅ ed_old_exports idx (lit "/w") d = Some (Loaded c) /\
    (PkgId pkg v, api, def) ∈ unused_imports ed_old_exports idx (cf_raw c) /\
    apply_edit any_kind ∅ (ImportApi pkg api) d = Some d' /\
    load_document ∅ ed_old_exports idx (lit "/w") d' = Some (Loaded c') /\
    rc_apis (cf_raw c') !! (pkg ++ lit "::" ++ api) = None /\
    unused_imports ed_old_exports idx (cf_raw c') = [].
Proof.
  set (idx := [Package (lit "foo") [1; 0; 0] false false false; Package (lit "foo") [2; 0; 0] false false false]).
  set (d := ed_doc 3 []). set (d' := edited_doc (ImportApi (lit "foo") (lit "net")) d).
  set (ld := load_document ∅ ed_old_exports idx (lit "/w")).
  exists idx, d, d', (config_of (ld d)), (config_of (ld d')), (lit "foo"), (lit "net"), [1; 0; 0],
    (ApiConfig [lit "foo::net"] [] []).
  split; [apply config_of_loaded; by vm_compute|].
  split.
  { assert (H : unused_imports ed_old_exports idx (cf_raw (config_of (ld d))) =
      [(PkgId (lit "foo") [1; 0; 0], lit "net", ApiConfig [lit "foo::net"] [] [])]) by by vm_compute.
    rewrite H. left. }
  split; [by vm_compute|]. split; [apply config_of_loaded; by vm_compute|]. by vm_compute.
Qed.
Print Assumptions C89_older_version_refuted.

(** ** C88: built-in APIs *)

(** Importing a built-in API and copying its definition into the file give the same definition. *)
Theorem C88_built_in :
  forall (built_ins : gmap str api_config) (exports : str -> list nat -> option (gmap str api_config))
         (idx : crate_index) (root : str) (usable : sandbox_kind -> bool) (api : str) (def : api_config)
         (d d1 d2 : table) (rc : raw_config) (c : config),
  decode d = Some rc -> load_document built_ins exports idx root d = Some (Loaded c) ->
  (forall x, ~ import_source idx exports rc api x) -> api ∉ rc_import_std rc ->
  built_ins !! api = Some def ->
  apply_edit usable built_ins (ImportStdApi api) d = Some d1 ->
  apply_edit usable built_ins (InlineStdApi api) d = Some d2 ->
  exists c1 c2,
    load_document built_ins exports idx root d1 = Some (Loaded c1) /\
    load_document built_ins exports idx root d2 = Some (Loaded c2) /\
    changes_api c c1 api (includes_definition def) /\ changes_api c c2 api (includes_definition def).
Proof.
  intros b ex idx root usable api def d d1 d2 rc c Hd Hl Hno Hn Hb H1 H2.
  pose proof Hl as (rc' & Hd' & Hl')%load_document_inv.
  assert (rc' = rc) as -> by congruence.
  destruct (import_std_effect b ex idx root usable api def d d1 rc c Hd Hl' Hno Hn Hb H1) as (c1 & L1 & E1).
  cbn [apply_edit] in H2. rewrite Hb in H2.
  destruct (inline_api_effect b ex idx root api def d d2 c Hl) as (c2 & L2 & E2); [|done|eauto 10].
  intros rc' x Hrc. assert (rc' = rc) as -> by congruence. apply Hno.
Qed.
Print Assumptions C88_built_in.

Definition ed_built_ins : gmap str api_config :=
  {[lit "env" := ApiConfig [lit "std::env"] [lit "std::env::VarError"] []]}.

Example C88_ex :
  let d := ed_doc 3 ed_foo in
  let after := fun e => d' ← apply_edit any_kind ed_built_ins e d;
    ed_def (load_document ed_built_ins nothing_exported ed_idx (lit "/w") d') (lit "env") in
  after (ImportStdApi (lit "env")) = Some (ApiConfig [lit "std::env"] [lit "std::env::VarError"] []) /\
  after (InlineStdApi (lit "env")) = after (ImportStdApi (lit "env")).
Proof. by vm_compute. Qed.

(** ** C06 for documents *)

(** The upgrade that is offered as preserving behaviour, applied to the file, does what C06 says about
    the configuration. *)
Theorem C06_document :
  forall (built_ins : gmap str api_config) (exports : str -> list nat -> option (gmap str api_config))
         (idx : crate_index) (root : str) (usable : sandbox_kind -> bool) (d d' : table) (c : config),
  load_document built_ins exports idx root d = Some (Loaded c) ->
  (rc_version (cf_raw c) = 1%Z ->
   apply_edit usable built_ins (UpdateConfigVersionPreserveBehaviour 2) d = Some d' ->
   exists c', load_document built_ins exports idx root d' = Some (Loaded c') /\
     rc_version (cf_raw c') = 2%Z /\ same_behaviour_but_extern c c' /\
     forall pkg k, extern_allowed c' pkg k = extern_allowed c pkg k) /\
  (rc_version (cf_raw c) = 2%Z ->
   apply_edit usable built_ins (UpdateConfigVersionPreserveBehaviour 3) d = Some d' ->
   exists c', load_document built_ins exports idx root d' = Some (Loaded c') /\
     rc_version (cf_raw c') = 3%Z /\ same_behaviour_but_extern c c').
Proof.
  intros b ex idx root usable d d' c Hl.
  pose proof Hl as (rc & Hd & Hlc)%load_document_inv.
  split; intros Hv Ha; rewrite (loaded_version _ _ _ _ _ _ Hlc) in Hv;
    pose proof (decode_preserve _ d d' rc usable b Hd Ha) as Hd'.
  - destruct (C06_upgrade_1_to_2 b ex idx (Some root) rc c Hv Hlc) as (c' & Hl' & H1 & H2).
    exists c'. split; [unfold load_document; by rewrite Hd'; cbn; rewrite Hl'|].
    split; [by rewrite (loaded_version _ _ _ _ _ _ Hl')|]. done.
  - destruct (C06_upgrade_2_to_3_partial b ex idx (Some root) rc c Hv Hlc) as (c' & Hl' & H1 & _).
    exists c'. split; [unfold load_document; by rewrite Hd'; cbn; rewrite Hl'|].
    split; [by rewrite (loaded_version _ _ _ _ _ _ Hl')|]. done.
Qed.
Print Assumptions C06_document.

Example C06_document_ex :
  let d := ed_doc 1 ed_foo in
  let d' := edited_doc (UpdateConfigVersionPreserveBehaviour 2) d in
  at_path [lit "common"; lit "version"] d' = Some (Integer 2) /\
  at_path [lit "rustc"; lit "sandbox"; lit "kind"] d' = Some (Text (lit "Disabled")) /\
  is_Some (loads_to (ed_load ed_idx d')).
Proof. cbn zeta. split; [by vm_compute|]. split; [by vm_compute|]. by vm_compute; eexists. Qed.
