(** Specifications for automatic edits, in terms of what the configuration permits before and after
    the file was edited and loaded again. *)
From Verif Require Import Base ApiMapModel ConfigModel ConfigSpec TomlModel.

(** The parts of what a selector is granted. *)
Inductive aspect := AUnsafe | AExtern | AProcMacro | AInstructions | AApis | ASandbox.

Definition agree (a : aspect) (e e' : package_config) : Prop :=
  match a with
  | AUnsafe => pc_allow_unsafe e' = pc_allow_unsafe e
  | AExtern => pc_allow_extern e' = pc_allow_extern e
  | AProcMacro => pc_allow_proc_macro e' = pc_allow_proc_macro e
  | AInstructions => pc_allow_build_instructions e' = pc_allow_build_instructions e
  | AApis => pc_allow_apis e' = pc_allow_apis e
  | ASandbox => pc_sandbox e' = pc_sandbox e
  end.

(** The settings that do not belong to a package. *)
Definition same_settings (c c' : config) : Prop :=
  rc_version (cf_raw c') = rc_version (cf_raw c) /\
  rc_explicit_build_scripts (cf_raw c') = rc_explicit_build_scripts (cf_raw c) /\
  rc_apis (cf_raw c') = rc_apis (cf_raw c) /\
  rc_sandbox (cf_raw c') = rc_sandbox (cf_raw c) /\
  rc_rustc_sandbox (cf_raw c') = rc_rustc_sandbox (cf_raw c).

(** Both configurations have the same selectors; what they grant differs at most in the part [a], and
    there only for the selectors to which the section [s] of the package [pkg] applies, where [P]
    relates what was granted before to what is granted now. *)
Definition changes_only (c c' : config) (pkg : str) (s : scope) (a : aspect)
    (P : package_config -> package_config -> Prop) : Prop :=
  same_settings c c' /\
  forall sel,
    match cf_permissions c !! sel, cf_permissions c' !! sel with
    | None, None => True
    | Some e, Some e' =>
        (forall b, b <> a -> agree b e e') /\
        (sel.1 = pkg /\ s ∈ chain sel.2 -> P e e') /\
        (~ (sel.1 = pkg /\ s ∈ chain sel.2) -> agree a e e')
    | _, _ => False
    end.

(** Everything is granted as before. *)
Definition same_grants (c c' : config) : Prop :=
  forall sel,
    match cf_permissions c !! sel, cf_permissions c' !! sel with
    | None, None => True
    | Some e, Some e' => forall b, agree b e e'
    | _, _ => False
    end.

(** Nothing changes. *)
Definition changes_nothing (c c' : config) : Prop := same_settings c c' /\ same_grants c c'.

(** One more element. *)
Definition adds (x : str) (l l' : list str) : Prop := forall y, y ∈ l' <-> y = x \/ y ∈ l.

(** In order, without duplicates. *)
Fixpoint bytes_lt (a b : str) : Prop :=
  match a, b with
  | _, [] => False
  | [], _ :: _ => True
  | x :: a, y :: b =>
      (N_of_ascii x < N_of_ascii y)%N \/ (x = y /\ bytes_lt a b)
  end.
Definition in_order (l : list str) : Prop :=
  forall i j x y, i < j -> l !! i = Some x -> l !! j = Some y -> bytes_lt x y.

(** Only the definition of one API changes, as [P] says; an API that is not defined counts as empty. *)
Definition changes_api (c c' : config) (api : str) (P : api_config -> api_config -> Prop) : Prop :=
  rc_version (cf_raw c') = rc_version (cf_raw c) /\
  rc_explicit_build_scripts (cf_raw c') = rc_explicit_build_scripts (cf_raw c) /\
  rc_sandbox (cf_raw c') = rc_sandbox (cf_raw c) /\
  rc_rustc_sandbox (cf_raw c') = rc_rustc_sandbox (cf_raw c) /\
  same_grants c c' /\
  (forall k, k <> api -> rc_apis (cf_raw c') !! k = rc_apis (cf_raw c) !! k) /\
  exists x', rc_apis (cf_raw c') !! api = Some x' /\
    P (default api_config_default (rc_apis (cf_raw c) !! api)) x'.

(** What becomes of a definition: another one is merged into it, or it has one more path. *)
Definition includes_definition (def : api_config) (x x' : api_config) : Prop :=
  (forall p, p ∈ ac_include x' <-> p ∈ ac_include x \/ p ∈ ac_include def) /\
  (forall p, p ∈ ac_exclude x' <-> p ∈ ac_exclude x \/ p ∈ ac_exclude def) /\
  ac_no_auto_detect x' = ac_no_auto_detect x.

Definition one_more_include (path : str) (x x' : api_config) : Prop :=
  adds path (ac_include x) (ac_include x') /\ ac_exclude x' = ac_exclude x /\
  ac_no_auto_detect x' = ac_no_auto_detect x.
Definition one_more_exclude (path : str) (x x' : api_config) : Prop :=
  ac_include x' = ac_include x /\ adds path (ac_exclude x) (ac_exclude x') /\
  ac_no_auto_detect x' = ac_no_auto_detect x.
Definition one_more_ignored (pkg : str) (x x' : api_config) : Prop :=
  ac_include x' = ac_include x /\ ac_exclude x' = ac_exclude x /\
  adds pkg (ac_no_auto_detect x) (ac_no_auto_detect x').

(** What a document has at a path. *)
Fixpoint at_path (path : list str) (t : table) : option item :=
  match path with
  | [] => None
  | [k] => get k t
  | k :: path =>
      match get k t with
      | Some (Table u) | Some (Inline u) => at_path path u
      | _ => None
      end
  end.

(** No table is written inline. *)
Definition no_inline_tables (d : table) : Prop := forall path t, at_path path d <> Some (Inline t).
