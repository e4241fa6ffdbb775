(** What the title of a fix should tell. *)
From Verif Require Import Base ConfigModel ProblemModel EditorModel ReportModel ReportSpec TitleModel.

(** Texts that can be quoted in backticks. *)
Definition quotable (s : str) : Prop := "`"%char ∉ s.

(** Names in a fix are those of packages and APIs; paths and instructions can be quoted. *)
Definition named_plainly (e : edit) : Prop :=
  match e with
  | CreateCustomConfig | CreateRecommendedConfig | SelectSandbox _ | UpdateConfigVersion _
  | UpdateConfigVersionPreserveBehaviour _ => True
  | ImportStdApi api | InlineStdApi api | IgnoreStdApi api => plain api
  | ImportApi pkg api | InlineApi pkg api _ | NoDetectApi api pkg => plain pkg /\ plain api
  | IgnoreApi pkg => plain pkg
  | ExtendApi api path | ExcludeFromApi api path => plain api /\ quotable path
  | AllowApiUsage sel api => plain sel.1 /\ plain api
  | AllowBuildInstruction sel i => plain sel.1 /\ quotable i
  | RemoveUnusedAllowApis sel _ | RemoveUnusedPkgConfig sel | AllowProcMacro sel | DisableSandbox sel
  | AllowUnsafe sel | AllowExtern sel | SandboxAllowNetwork sel => plain sel.1
  end.

(** The names of the package and the API that a problem is about. *)
Definition about_plain (p : problem) : Prop :=
  match p with
  | PAvailableApi p api _ => plain (pi_name p) /\ plain api
  | PDisallowedApiUsage u | POffTreeApiUsage u _ => plain (pi_name (au_pkg u)) /\ plain (au_api u)
  | _ => True
  end.

(** Fixes that say what they do only together with the problem: what is removed as unused is said by the
    problem, and the definition that is copied from a package is that of the version named. *)
Inductive needs_problem : edit -> edit -> Prop :=
| np_apis s t l m : needs_problem (RemoveUnusedAllowApis s l) (RemoveUnusedAllowApis t m)
| np_section s t : needs_problem (RemoveUnusedPkgConfig s) (RemoveUnusedPkgConfig t)
| np_inline pkg api c d : needs_problem (InlineApi pkg api c) (InlineApi pkg api d).
