(** What the help of a fix promises. *)
From Verif Require Import Base ConfigModel ConfigSpec ProblemModel CheckerSpec CollectModel CollectSpec.

(** In which binaries the text says that a package may use an API. The first argument of the meaning is
    the binary that contains the code, the second one is the package to which the code belongs. *)
Inductive says (pkg api : str) : str -> (crate_sel -> pkg_id -> Prop) -> Prop :=
| says_any :
    says pkg api (lit "Allow `" ++ pkg ++ lit "` to use `" ++ api ++ lit "` API in any binary")
      (fun _ _ => True)
| says_own_script :
    says pkg api (lit "Allow `" ++ pkg ++ lit "` to use `" ++ api ++ lit "` API, but only in its own build script")
      (fun binary p => cs_kind binary = BuildScript /\ cs_pkg binary = p)
| says_own_tests :
    says pkg api (lit "Allow `" ++ pkg ++ lit "` to use `" ++ api ++ lit "` API, but only in its own tests")
      (fun binary p => cs_kind binary = TestCrate /\ cs_pkg binary = p)
| says_scripts :
    says pkg api (lit "Allow `" ++ pkg ++ lit "` to use `" ++ api ++ lit "` API, but only from build scripts")
      (fun binary p => cs_kind binary = BuildScript)
| says_tests :
    says pkg api (lit "Allow `" ++ pkg ++ lit "` to use `" ++ api ++ lit "` API, but only from tests")
      (fun binary p => cs_kind binary = TestCrate).

(** Under configuration [c] the package [p] may use [api] in the binary. *)
Definition may_use (c : config) (binary : crate_sel) (p : pkg_id) (api : str) : Prop :=
  exists s, scope_in binary p s /\ permitted c (pi_name p, s) api.

(** Everything but the definitions of the APIs in [changed] is the same. *)
Definition same_but_definitions (changed : list str) (c c' : config) : Prop :=
  rc_version (cf_raw c') = rc_version (cf_raw c) /\
  rc_explicit_build_scripts (cf_raw c') = rc_explicit_build_scripts (cf_raw c) /\
  rc_sandbox (cf_raw c') = rc_sandbox (cf_raw c) /\
  rc_rustc_sandbox (cf_raw c') = rc_rustc_sandbox (cf_raw c) /\
  cf_permissions c' = cf_permissions c /\
  forall api, api ∉ changed -> rc_apis (cf_raw c') !! api = rc_apis (cf_raw c) !! api.
