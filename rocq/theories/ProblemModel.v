(** Problems and the types they are made of.
    Sources: /repo/src/problem.rs, /repo/src/crate_index.rs:37-60,
    /repo/src/checker.rs:84-97. *)
From Verif Require Import Base ApiMapModel ConfigModel.

(** [PackageId] (crate_index.rs:37-45). [name_is_unique] is a function of the index
    and only used for display and for the environment of subprocesses; it is left
    out. *)
Record pkg_id := PkgId { pi_name : str; pi_version : list nat }.

Global Instance pkg_id_eq_dec : EqDecision pkg_id.
Proof. solve_decision. Defined.

(** [CrateSel] (crate_index.rs:47-52). *)
Record crate_sel := CrateSel { cs_pkg : pkg_id; cs_kind : crate_kind }.

Global Instance crate_sel_eq_dec : EqDecision crate_sel.
Proof. solve_decision. Defined.

(** [ApiUsage] (checker.rs:84-97). Only the name that was reached and the file of
    the outer location take part in decisions; all other fields are one opaque
    value. *)
Record api_usage := ApiUsage {
  us_to_name : list str;
  us_outer : option str;
  us_rest : nat }.

Global Instance api_usage_eq_dec : EqDecision api_usage.
Proof. solve_decision. Defined.

(** [ApiUsages] (problem.rs:58-64). *)
Record api_usages := ApiUsages {
  au_pkg : pkg_id;
  au_scope : scope;
  au_api : str;
  au_usages : list api_usage }.

Global Instance api_usages_eq_dec : EqDecision api_usages.
Proof. solve_decision. Defined.

(** [ApiUsages::with_usages], [ApiUsages::perm_sel] (problem.rs:478-489). *)
Definition with_usages (a : api_usages) (l : list api_usage) : api_usages :=
  ApiUsages (au_pkg a) (au_scope a) (au_api a) l.
Definition usages_perm_sel (a : api_usages) : perm_sel := (pi_name (au_pkg a), au_scope a).

(** [Problem] (problem.rs:29-50). Payloads that no modelled code inspects are
    opaque numbers. *)
Inductive problem :=
| PMessage (text : str)
| PMissingConfiguration (path : str)
| PUsesBuildScript (p : pkg_id)
| PDisallowedUnsafe (c : crate_sel) (locations : nat)
| PDisallowedExtern (c : crate_sel) (locations : nat)
| PIsProcMacro (p : pkg_id)
| PDisallowedApiUsage (u : api_usages)
| POffTreeApiUsage (u : api_usages) (referenced : pkg_id)
| PExecutionFailed (c : crate_sel) (output : nat)
| PDisallowedBuildInstruction (p : pkg_id) (instruction : str)
| PUnusedPackageConfig (sel : perm_sel)
| PUnusedAllowApi (sel : perm_sel) (apis : list str)
| PSelectSandbox
| PImportStdApi (api : str)
| PAvailableApi (p : pkg_id) (api : str) (config : nat)
| PPossibleExportedApi (p : pkg_id) (api : str) (symbol : str)
| PUnusedSandboxConfiguration (sel : perm_sel)
| PNewConfigVersionAvailable (v : Z).

Global Instance problem_eq_dec : EqDecision problem.
Proof. solve_decision. Defined.

(** [Severity] and [Problem::severity] (problem.rs:154-174). *)
Inductive severity := Warning | Error.

Global Instance severity_eq_dec : EqDecision severity.
Proof. solve_decision. Defined.

Definition problem_severity (p : problem) : severity :=
  match p with
  | PUnusedAllowApi _ _ | PUnusedPackageConfig _ | PPossibleExportedApi _ _ _
  | PNewConfigVersionAvailable _ | PAvailableApi _ _ _ => Warning
  | _ => Error
  end.

(** [should_send_retry_to_subprocess] (problem.rs:129-133, 177-184). *)
Definition send_retry (p : problem) : bool :=
  match p with
  | PExecutionFailed _ _ | PDisallowedUnsafe _ _ | PDisallowedExtern _ _ => true
  | _ => false
  end.
Definition all_send_retry (ps : list problem) : bool := forallb send_retry ps.

(** [deduplication_key] (problem.rs:188-204). *)
Definition dedup_key (p : problem) : problem :=
  match p with
  | PDisallowedApiUsage u => PDisallowedApiUsage (with_usages u [])
  | PPossibleExportedApi pkg api _ => PPossibleExportedApi pkg api []
  | _ => p
  end.

(** [Problem::merge] and [ApiUsages::merge] (problem.rs:206-212, 471-476); [None]
    is the panic of line 473. *)
Definition merge_problem (self other : problem) : option problem :=
  match self, other with
  | PDisallowedApiUsage a, PDisallowedApiUsage b =>
      if bool_decide (au_pkg a = au_pkg b /\ au_api a = au_api b /\ au_scope a = au_scope b)
      then Some (PDisallowedApiUsage (with_usages a (au_usages a ++ au_usages b)))
      else None
  | _, _ => Some self
  end.
