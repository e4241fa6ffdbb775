(** C190-C193: the titles of fixes. *)
From stdpp Require Import pretty sorting.
From Verif Require Import Base BaseFacts TextModel ApiMapModel ConfigModel ConfigSpec ConfigLoadProofs ProblemModel
  BuildScriptModel TomlModel EditorModel CheckerModel CheckerSpec ReportModel ReportSpec ReportProofs
  ReportHeadProofs TitleModel TitleSpec TitleProofs EditorProps FrontProps.

(** ** C190: in a menu *)

(** Fixes offered for one problem that have the same title are the same; whatever the names are. *)
Theorem C190_menu :
  forall (version_text : list nat -> str) (unique : pkg_id -> bool) (failed_in : nat -> sandbox_config)
         (exported : nat -> api_config) (prefixes : bool -> list api_usage -> option (list str))
         (p : problem) (c : config) (e f : edit),
  e ∈ fixes_for_problem failed_in exported prefixes p c ->
  f ∈ fixes_for_problem failed_in exported prefixes p c ->
  title version_text unique p e = title version_text unique p f -> e = f.
Proof.
  intros vt un fi ex pr p c e f He Hf. apply (menu_titles vt un ex); by eapply offered_form.
Qed.
Print Assumptions C190_menu.

(** ** C191: alone *)

(** Whatever the problems are, with plain names the title of a fix says which edit it is; for removals and
    copied definitions the problem has to be looked at, too. *)
Theorem C191_alone :
  forall (version_text : list nat -> str) (unique : pkg_id -> bool) (failed_in : nat -> sandbox_config)
         (exported : nat -> api_config) (prefixes : bool -> list api_usage -> option (list str))
         (p q : problem) (c d : config) (e f : edit),
  (forall v, plain_version (version_text v)) ->
  e ∈ fixes_for_problem failed_in exported prefixes p c ->
  f ∈ fixes_for_problem failed_in exported prefixes q d ->
  about_plain p -> about_plain q -> named_plainly e -> named_plainly f ->
  title version_text unique p e = title version_text unique q f ->
  e = f \/ needs_problem e f.
Proof.
  intros vt un fi ex pr p q c d e f Hv He Hf. apply (alone vt un Hv ex ex); by eapply offered_form.
Qed.
Print Assumptions C191_alone.

Definition tt_version (v : list nat) : str := join (lit ".") (map (fun n => number (N.of_nat n)) v).
Definition tt_titles (unique : bool) (p : problem) (c : config) : list str :=
  map (title tt_version (fun _ => unique) p)
    (fixes_for_problem (fun _ => sandbox_default) no_export no_prefixes p c).

Example C190_ex :
  let c := EditorProps.config_of (ed_load ed_idx (ed_doc 3 [])) in
  tt_titles true (PDisallowedApiUsage (ApiUsages ed_pkg Test (lit "net") [])) c =
    [lit "Allow `foo` to use `net` API when building its own tests";
     lit "Allow `foo` to use `net` API when building tests";
     lit "Allow `foo` to use `net` API"] /\
  tt_titles true (PDisallowedBuildInstruction ed_pkg (lit "cargo:rustc-link-search=/x")) c =
    [lit "Allow build script for `foo.build` to emit instruction `cargo:rustc-link-search=*`";
     lit "Allow build script for `foo.build` to emit instruction `cargo:rustc-link-*`";
     lit "Allow build script for `foo.build` to emit instruction `cargo:rustc-*`";
     lit "Allow build script for `foo.build` to emit instruction `cargo:*`"] /\
  tt_titles false (PAvailableApi ed_pkg (lit "run") 0) c =
    [lit "Import API `run` from package `foo`"; lit "Inline API `run` from package `foo[1.0.0]`";
     lit "Ignore API `run` provided by package `foo[1.0.0]`"] /\
  tt_titles true (PNewConfigVersionAvailable 3) c =
    [lit "Update config to version 3"; lit "Update config to version 3 while preserving old behaviour"].
Proof. by vm_compute. Qed.

Lemma tt_plain (v : list nat) : plain_version (tt_version v).
Proof.
  unfold tt_version, plain_version. assert (Hn : forall n : N, Forall (fun c => plain_char c = true \/ c = "."%char) (number n)).
  { intros n. apply Forall_forall. intros c Hc. left. apply number_digits in Hc.
    revert c Hc. apply Forall_forall. apply (bool_decide_unpack _). vm_compute. exact I. }
  induction v as [|n v IH]; [constructor|]. destruct v as [|m v]; [exact (Hn _)|].
  change (join (lit ".") (map (fun n => number (N.of_nat n)) (n :: m :: v)))
    with (number (N.of_nat n) ++ "."%char :: join (lit ".") (map (fun n => number (N.of_nat n)) (m :: v))).
  apply Forall_app. split; [apply Hn|]. constructor; [by right|exact IH].
Qed.

(** The hypotheses of C191 hold for a use of [net] in a test, also for the title that two problems share. *)
Example C191_ex :
  let p := PDisallowedApiUsage (ApiUsages ed_pkg Test (lit "net") []) in
  let q := POffTreeApiUsage (ApiUsages ed_pkg FromTest (lit "net") []) ed_pkg in
  let e := AllowApiUsage (lit "foo", FromTest) (lit "net") in
  let c := EditorProps.config_of (ed_load ed_idx (ed_doc 3 [])) in
  (forall v, plain_version (tt_version v)) /\ about_plain p /\ about_plain q /\ named_plainly e /\
  e ∈ fixes_for_problem (fun _ => sandbox_default) no_export no_prefixes p c /\
  e ∈ fixes_for_problem (fun _ => sandbox_default) no_export no_prefixes q c /\
  title tt_version (fun _ => false) p e = title tt_version (fun _ => false) q e /\
  title tt_version (fun _ => false) q e = lit "Allow `foo[1.0.0]` to use `net` API when building tests".
Proof.
  cbn zeta. split; [exact tt_plain|].
  assert (Hf : plain (lit "foo")) by (apply (bool_decide_unpack _); vm_compute; exact I).
  assert (Hn : plain (lit "net")) by (apply (bool_decide_unpack _); vm_compute; exact I).
  split; [by split|]. split; [by split|]. split; [by split|].
  split; [right; left|]. split; [left|]. split; by vm_compute.
Qed.

(** ** C192: versions in titles (refuted)

    A title that names a version of a package should be about that version. Permissions are granted by name:
    the uses by another version are no longer reported either. *)
Definition tt_other : pkg_id := PkgId (lit "foo") [2; 0; 0].
Definition tt_idx : crate_index :=
  [Package (lit "foo") [1; 0; 0] true true true; Package (lit "foo") [2; 0; 0] true true true].
Definition tt_env : environment :=
  Environment tt_idx (fun _ => Some ∅) (fun _ => None) (fun _ => None) (fun _ => false).
Definition tt_use : api_usage := ApiUsage [lit "std"; lit "net"; lit "bind"] None 0.
Definition tt_reported (p : pkg_id) (d : table) : option (list problem) :=
  (api_used tt_env (checker_run tt_env [OpLoad (EditorProps.config_of (ed_load tt_idx d))])
     (ApiUsages p All (lit "net") [tt_use])).2.

Theorem C192_version_refuted :
  exists (p q : pkg_id) (u : api_usages) (e : edit) (d d' : table),
    let problem := PDisallowedApiUsage u in
    let unique := fun x : pkg_id => bool_decide (pi_name x <> lit "foo") in
    au_pkg u = p /\ p <> q /\
    e ∈ fixes_for_problem (fun _ => sandbox_default) no_export no_prefixes problem
          (EditorProps.config_of (ed_load tt_idx d)) /\
    title tt_version unique problem e = lit "Allow `foo[1.0.0]` to use `net` API" /\
    apply_edit any_kind ∅ e d = Some d' /\
    tt_reported p d = Some [PDisallowedApiUsage (ApiUsages p All (lit "net") [tt_use])] /\
    tt_reported q d = Some [PDisallowedApiUsage (ApiUsages q All (lit "net") [tt_use])] /\
    tt_reported p d' = Some [] /\
    tt_reported q d' = Some [].
Proof.
  exists ed_pkg, tt_other, (ApiUsages ed_pkg All (lit "net") [tt_use]), (AllowApiUsage (lit "foo", All) (lit "net")),
    (ed_doc 3 []), (edited_doc (AllowApiUsage (lit "foo", All) (lit "net")) (ed_doc 3 [])).
  cbn zeta. split; [done|]. split; [apply (bool_decide_unpack _); vm_compute; exact I|]. split; [left|].
  split; [by vm_compute|]. split; [by vm_compute|]. by vm_compute.
Qed.
Print Assumptions C192_version_refuted.

(** ** C193: ignoring one API (refuted)

    Ignoring an API that a package provides should leave the others on offer. The file then has a list of
    imports for the package, and nothing of it is offered any more. *)
Definition tt_exports (pkg : str) (_ : list nat) : option (gmap str api_config) :=
  if bool_decide (pkg = lit "foo")
  then Some (list_to_map [(lit "run", fr_api); (lit "dial", ApiConfig [lit "foo::dial"] [] [])]) else None.
Definition tt_offers (d : table) : option (list (pkg_id * str)) :=
  match load_document ∅ tt_exports ed_idx (lit "/w") d with
  | Some (Loaded c) => Some (map fst (unused_imports tt_exports ed_idx (cf_raw c)))
  | _ => None
  end.

Theorem C193_ignore_refuted :
  exists (pkg : pkg_id) (api other : str) (e : edit) (d d' : table) (l : list (pkg_id * str)),
    api <> other /\
    tt_offers d = Some l /\ (pkg, api) ∈ l /\ (pkg, other) ∈ l /\
    e ∈ fixes_for_problem (fun _ => sandbox_default) no_export no_prefixes (PAvailableApi pkg api 0)
          (EditorProps.config_of (ed_load ed_idx d)) /\
    title tt_version (fun _ => true) (PAvailableApi pkg api 0) e = lit "Ignore API `run` provided by package `foo`" /\
    api = lit "run" /\
    apply_edit any_kind ∅ e d = Some d' /\ tt_offers d' = Some [].
Proof.
  exists ed_pkg, (lit "run"), (lit "dial"), (IgnoreApi (lit "foo")), (ed_doc 3 []),
    (edited_doc (IgnoreApi (lit "foo")) (ed_doc 3 [])), (default [] (tt_offers (ed_doc 3 []))).
  split; [apply (bool_decide_unpack _); vm_compute; exact I|]. split; [by vm_compute|].
  split; [apply (bool_decide_unpack _); vm_compute; exact I|].
  split; [apply (bool_decide_unpack _); vm_compute; exact I|].
  split; [right; right; left|]. split; [by vm_compute|]. split; [done|]. split; by vm_compute.
Qed.
Print Assumptions C193_ignore_refuted.
