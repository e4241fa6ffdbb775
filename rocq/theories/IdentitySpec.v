(** Which variables a build script sets for the compilation of its package. *)
From Verif Require Import Base TextModel ApiMapModel ConfigModel ProblemModel BuildScriptModel BuildScriptSpec SandboxModel
  SubprocessModel.

(** The line tells cargo to set a variable; cargo first removes white space around the line (at the end it would only
    shorten the value, which is left out). *)
Definition sets (line name value : str) : Prop :=
  "="%char ∉ name /\
  (skip_blanks line = lit "cargo:rustc-env=" ++ name ++ lit "=" ++ value \/
   skip_blanks line = lit "cargo::rustc-env=" ++ name ++ lit "=" ++ value).

Definition unset (lines : list str) (name : str) : Prop :=
  forall line value, line ∈ lines -> ~ sets line name value.

(** How cargo starts rustc for the package of a build script that printed these lines: with the variables it always
    sets, [given]; those that the build script sets come last and so replace them (cargo's [add_custom_flags]; not part
    of /repo). *)
Definition started (given : host) (lines : list str) (h : host) : Prop :=
  forall name,
    (unset lines name -> env_var h name = env_var given name) /\
    (forall before line after value, lines = before ++ line :: after -> sets line name value -> unset after name ->
       env_var h name = Some value).

(** The variables that say for whom and how a wrapper works. *)
Definition trusted_variables : list str :=
  [lit "CARGO_PKG_NAME"; lit "CARGO_PKG_VERSION"; lit "CARGO_CRATE_NAME"; lit "CACKLE_CRATE_KIND";
   lit "CACKLE_MULTIPLE_VERSION_PKG_NAMES"; lit "CACKLE_CONFIG_PATH"; lit "CACKLE_SOCKET_PATH";
   lit "CACKLE_RUSTC_PATH"; lit "CACKLE_TARGET_DIR"; lit "CACKLE_BUILD_PROFILE"; lit "CACKLE_MANIFEST_DIR";
   lit "CACKLE_ORIG_LINKER"].

(** The rules let the build script set none of these variables. *)
Definition leaves_alone (rules : list str) (names : list str) : Prop :=
  forall rule name line value, rule ∈ rules -> name ∈ names -> sets line name value -> ~ permits rule line.

(** The output of the build script is accepted. *)
Definition approved (ps : permissions) (pkg : pkg_id) (stdout : str) : Prop :=
  forall output, fst (execution_complete ps 0 (CrateSel pkg BuildScript) output stdout) = [].

(** No line starts with a blank (for those see C52). *)
Definition no_blanks (lines : list str) : Prop := forall line, line ∈ lines -> skip_blanks line = line.

(** The crate a request speaks of. *)
Definition request_sel (r : request) : crate_sel :=
  match r with
  | RustcComplete sel _ | UsesUnsafe sel _ | UsesExtern sel _ | BinComplete sel _ _ _ => sel
  end.

(** The package has no setting besides rules for its build script. *)
Definition only_rules (ps : permissions) (pkg : pkg_id) (rules : list str) : Prop :=
  ps !! (pi_name pkg, Build) = Some (PackageConfig false false rules [] false None None None sandbox_default None) /\
  forall scope, scope <> Build -> ps !! (pi_name pkg, scope) = None.

(** The package may only do with its build script what this one rule permits. The rule is one of those that are offered
    when the build script sets a harmless variable. What the build script printed then was accepted. *)
Definition could_become (ps : permissions) (pkg : pkg_id) (given h : host) : Prop :=
  exists rule offered stdout lines,
    only_rules ps pkg [rule] /\
    suggested_rules (lit "cargo:rustc-env=BUILD_DATE=today") = Some offered /\ rule ∈ offered /\
    approved ps pkg stdout /\ lines_of stdout lines /\ no_blanks lines /\ started given lines h.
