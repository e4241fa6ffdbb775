(** For whom, by which rules and with which compiler a crate is compiled. *)
From Verif Require Import Base TextModel ConfigModel ProblemModel SandboxModel SubprocessModel.

(** Cargo starts the wrapper for this package and this crate, whose version reads like this. The main process always
    sets the list of packages that are there in several versions; the kind is only set for the linker. *)
Definition started_for (parse_version : str -> option (list nat)) (h : host) (pkg : pkg_id) (crate : str) : Prop :=
  env_var h (lit "CARGO_PKG_NAME") = Some (pi_name pkg) /\
  (exists text, env_var h (lit "CARGO_PKG_VERSION") = Some text /\ parse_version text = Some (pi_version pkg)) /\
  env_var h (lit "CARGO_CRATE_NAME") = Some crate /\
  env_var h (lit "CACKLE_CRATE_KIND") = None /\
  (exists names, env_var h (lit "CACKLE_MULTIPLE_VERSION_PKG_NAMES") = Some names).

(** What the crate is: a test if rustc is asked for one, otherwise a build script by its name, otherwise the code of
    the package itself. *)
Inductive compiled_as (crate : str) (argv : list str) : crate_kind -> Prop :=
| as_test : lit "--test" ∈ argv -> compiled_as crate argv TestCrate
| as_build_script : lit "--test" ∉ argv -> lit "build_script_" `prefix_of` crate -> compiled_as crate argv BuildScript
| as_primary : lit "--test" ∉ argv -> ~ lit "build_script_" `prefix_of` crate -> compiled_as crate argv Primary.
