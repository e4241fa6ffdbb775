(** What the summary should say. *)
From Verif Require Import Base ApiMapModel ConfigModel SummaryModel.

(** Permission [perm] (as written in the summary) is granted in a section. *)
Inductive grants (c : package_config) : str -> Prop :=
| gr_proc_macro : pc_allow_proc_macro c = true -> grants c (lit "proc_macro")
| gr_unsafe : pc_allow_unsafe c = true -> grants c (lit "unsafe")
| gr_extern : pc_allow_extern c = true -> grants c (lit "extern")
| gr_api api : api ∈ pc_allow_apis c -> grants c api.

(** ... to a package, for its own code or for its build script. *)
Inductive granted (perms : permissions) (name : str) : str -> Prop :=
| gd_all c perm : perms !! (name, All) = Some c -> grants c perm -> granted perms name perm
| gd_build c perm :
    perms !! (name, Build) = Some c -> grants c perm -> granted perms name (perm ++ lit "[build]").

(** A package that may be a procedural macro and may do something else, too. *)
Definition impure_proc_macro (perms : permissions) (name : str) : Prop :=
  (exists c sc, (sc = All \/ sc = Build) /\ perms !! (name, sc) = Some c /\ pc_allow_proc_macro c = true) /\
  (exists c, perms !! (name, All) = Some c /\
     (pc_allow_unsafe c = true \/ pc_allow_extern c = true \/ pc_allow_apis c <> [])).

(** Names that cannot be confused with the other permissions. *)
Definition plain_api (api : str) : Prop :=
  (forall x, api <> lit "proc_macro" ++ x) /\ (forall x, api <> x ++ lit "[build]").

(** Which sections are asked for. *)
Definition nothing_selected (o : summary_options) : Prop :=
  so_full o = false /\ so_by_package o = false /\ so_by_permission o = false /\
  so_impure_proc_macros o = false /\ so_counts o = false.
Definition wanted (o : summary_options) (field : summary_options -> bool) : Prop :=
  field o = true \/ so_full o = true \/ nothing_selected o.
