(** Specifications for the checker. *)
From Verif Require Import Base ApiMapModel ConfigModel ConfigSpec ProblemModel CheckerModel.

(** ** C08 *)

(** The effective permissions of a configuration grant [api] to [sel]. *)
Definition permitted (c : config) (sel : perm_sel) (api : str) : Prop :=
  exists e, cf_permissions c !! sel = Some e /\ api ∈ pc_allow_apis e.

(** The usage [u] by package [pkg] reaches a name of [owner], and the dependencies
    of [pkg] are known and do not include that crate. *)
Definition reaches_off_tree (env : environment) (pkg : pkg_id) (u : api_usage)
    (owner : pkg_id) : Prop :=
  exists deps first rest,
    en_transitive_deps env pkg = Some deps /\ us_to_name u = first :: rest /\
    first ∉ deps /\ en_lib_owner env first = Some owner.

(** The source file [path] is known to belong to package [p]: rustc said so, or else
    it is not a file of the Rust distribution and lies in the directory of [p]. *)
Definition source_of (env : environment) (ck : checker) (path : str) (p : pkg_id) : Prop :=
  match ck_paths ck !! path with
  | Some ids => p ∈ ids
  | None => en_in_rust_std env path = false /\ en_package_for_path env path = Some p
  end.

Definition source_unknown (env : environment) (ck : checker) (path : str) : Prop :=
  ck_paths ck !! path = None /\ en_in_rust_std env path = false /\
  en_package_for_path env path = None.

(** The crate of a package is called like the package, with underscores for dashes. *)
Definition crate_of (p : pkg_id) (crate : str) : Prop :=
  Forall2 (fun c d => c = "-"%char /\ d = "_"%char \/ c <> "-"%char /\ d = c) (pi_name p) crate.

(** The name reached belongs to the crate in whose source the enclosing function or
    variable is defined. *)
Definition own_code (env : environment) (ck : checker) (u : api_usage) : Prop :=
  exists path p crate rest,
    us_outer u = Some path /\ source_of env ck path p /\ crate_of p crate /\
    us_to_name u = crate :: rest.

(** Off-tree usages that the tool may leave out. *)
Definition excused (env : environment) (ck : checker) (pkg : pkg_id) (u : api_usage) : Prop :=
  (exists owner, reaches_off_tree env pkg u owner) /\ own_code env ck u.

(** The usages a problem shows. *)
Definition shown (p : problem) : list api_usage :=
  match p with
  | PDisallowedApiUsage u => au_usages u
  | POffTreeApiUsage u _ => au_usages u
  | _ => []
  end.

(** ** C09, C10 *)

(** A run of the checker, as far as permissions are concerned: configuration loads,
    reported usages, and rustc telling which source files a crate has. *)
Inductive checker_op :=
| OpLoad (c : config) | OpUse (u : api_usages) | OpPaths (info : rustc_output).

Definition checker_step (env : environment) (ck : checker) (op : checker_op) : checker :=
  match op with
  | OpLoad c => update_config ck c
  | OpUse u => (api_used env ck u).1
  | OpPaths info => record_crate_paths ck info
  end.

Definition checker_run (env : environment) (ops : list checker_op) : checker :=
  foldl (checker_step env) checker_init ops.

(** A configuration as the loader produces it for the index (config.rs:191-200). *)
Definition made_for (idx : crate_index) (c : config) : Prop :=
  cf_permissions c = perms_with_inheritance (cf_raw c) idx /\
  cf_permissions_no_inheritance c = perms_from_config (cf_raw c).

(** Some configuration loaded during the run grants [api] to [sel]. *)
Definition granted (ops : list checker_op) (sel : perm_sel) (api : str) : Prop :=
  exists c, OpLoad c ∈ ops /\ permitted c sel api.

(** The file grants [api] in the section [sel] itself. *)
Definition section_grants (c : config) (sel : perm_sel) (api : str) : Prop :=
  exists sec, section (cf_raw c) sel.1 sel.2 = Some sec /\ api ∈ pc_allow_apis sec.

(** Some permitted usage among [ops] draws on the section [sel]: it is by a selector
    of the same package that inherits from [sel]. *)
Definition used_through (c : config) (ops : list checker_op) (sel : perm_sel) (api : str)
    : Prop :=
  exists u, OpUse u ∈ ops /\ au_api u = api /\ pi_name (au_pkg u) = sel.1 /\
    sel.2 ∈ chain (au_scope u) /\ permitted c (pi_name (au_pkg u), au_scope u) api.

(** ** C12 *)

Definition links (es : list event) : list link_info :=
  omap (fun e => match e with ELinker li => Some li | _ => None end) es.

(** Invocations that a completion has disposed of: analysed without problems, or
    their analysis failed with an error. *)
Definition settled (os : list outcome_of) : list link_info :=
  omap (fun o => match o with
                 | OComplete (Some li) _ (Some []) => Some li
                 | OComplete (Some li) _ None => Some li
                 | _ => None
                 end) os.

Definition after (env : environment) (scan : scanner) (requests : nat -> rustc_output)
    (es : list event) : system := (sys_run env scan requests sys_init es).1.

Definition outcomes (env : environment) (scan : scanner) (requests : nat -> rustc_output)
    (es : list event) : list outcome_of := (sys_run env scan requests sys_init es).2.

Definition apis_in_force (s : system) : gmap str api_config :=
  rc_apis (cf_raw (ck_config (sy_checker s))).

(** Some configuration loaded among [es] grants [api] to [sel]. *)
Definition granted_by (es : list event) (sel : perm_sel) (api : str) : Prop :=
  exists c, ELoad c ∈ es /\ permitted c sel api.

(** After [es], all usages of the batch are permitted or need not be reported. *)
Definition batch_fine (env : environment) (scan : scanner) (requests : nat -> rustc_output)
    (es : list event) (u : api_usages) : Prop :=
  granted_by es (pi_name (au_pkg u), au_scope u) (au_api u) \/
  forall x, x ∈ au_usages u ->
    excused env (sy_checker (after env scan requests es)) (au_pkg u) x.
