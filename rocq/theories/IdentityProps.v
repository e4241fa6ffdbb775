(** What a build script can do to the compilation of its package through the environment. *)
From Verif Require Import Base BaseFacts TextSpec Utf8Proofs TextModel TextFacts ApiMapModel ConfigModel ProblemModel StoreModel
  BuildScriptModel BuildScriptSpec BuildScriptProofs ScannerModel DepsModel IndexModel LaunchModel SandboxModel
  SubprocessModel SubprocessSpec SubprocessProps IdentityModel IdentitySpec IdentityProofs.
From Verif Require SandboxSpec SandboxProps.

(** ** C230 *)

(** If the rules of a package let its build script set none of the trusted variables, then after output that was
    accepted the wrapper of rustc, the linker and every other process started in their place work for the same crate, with the same configuration, the
    same compiler, the same directories and the same linker as if the build script had printed nothing. *)
Theorem C230_unchanged (ps : permissions) (pkg : pkg_id) (rules : list str) (stdout : str) (lines : list str)
    (given h : host) :
  approved ps pkg stdout -> lines_of stdout lines -> no_blanks lines -> rules_in_force ps pkg rules ->
  leaves_alone rules trusted_variables -> started given lines h ->
  (forall parse_version lexer parse exe direct argv around,
     rustc_wrapper parse_version lexer parse exe h direct argv around
     = rustc_wrapper parse_version lexer parse exe given direct argv around) /\
  (forall (parse_version : str -> option (list nat)) argv,
     main_role parse_version (env_var h) argv = main_role parse_version (env_var given) argv) /\
  (forall argv vars, rustc_inputs_from_env h argv vars = rustc_inputs_from_env given argv vars) /\
  real_linker (env_var h) = real_linker (env_var given).
Proof.
  intros Ha Hl Hn Hr Ht Hs. pose proof (approved_agree ps pkg rules stdout lines given h Ha Hl Hn Hr Ht Hs) as H.
  split_and!; intros; [by apply agree_wrapper|by apply agree_role|by apply agree_inputs|by apply agree_linker].
Qed.
Print Assumptions C230_unchanged.

(** *** Helpers for the examples *)

Lemma app_eq_sep (n n' v v' : str) :
  "="%char ∉ n -> "="%char ∉ n' -> n ++ lit "=" ++ v = n' ++ lit "=" ++ v' -> n = n' /\ v = v'.
Proof.
  revert n'. induction n as [|c n IH]; intros [|c' n'] H1 H2 E.
  - cbn in E. injection E as E. done.
  - cbn in E. injection E as E _. destruct H2. rewrite <- E. left.
  - cbn in E. injection E as E _. destruct H1. rewrite E. left.
  - cbn in E. injection E as -> E. destruct (IH n') as [-> ->]; [..|done|done].
    + intros H. apply H1. by right.
    + intros H. apply H2. by right.
Qed.

Definition set_line (n v : str) : str := lit "cargo:rustc-env=" ++ n ++ lit "=" ++ v.
Definition with_var (h : host) (n v : str) : host :=
  Host ((n, v) :: filter (fun e => e.1 <> n) (h_env h)) (h_exists h) (h_is_dir h) (h_create h).

Lemma set_line_sets n v name value :
  "="%char ∉ n -> sets (set_line n v) name value <-> name = n /\ value = v.
Proof.
  intros Hn. unfold sets, set_line. change (skip_blanks (lit "cargo:rustc-env=" ++ n ++ lit "=" ++ v))
    with (lit "cargo:rustc-env=" ++ n ++ lit "=" ++ v). split.
  - intros [Hname [E|E]]; [|discriminate E]. apply app_inv_head in E. by apply app_eq_sep in E as [-> ->].
  - intros [-> ->]. split; [done|by left].
Qed.

Lemma with_var_env h n v name :
  utf8_valid v = true -> env_var (with_var h n v) name = if decide (name = n) then Some v else env_var h name.
Proof.
  intros Hv. unfold env_var. cbn [with_var h_env find fst]. destruct (decide (name = n)) as [->|Hne].
  - rewrite (proj2 (str_eqb_spec n n) eq_refl). cbn [snd]. by rewrite Hv.
  - destruct (str_eqb n name) eqn:E; [apply str_eqb_spec in E; by subst|].
    enough (find (fun e : str * str => str_eqb e.1 name) (filter (fun e => e.1 <> n) (h_env h))
      = find (fun e : str * str => str_eqb e.1 name) (h_env h)) as -> by done.
    induction (h_env h) as [|e l IH]; [done|]. rewrite filter_cons. destruct (decide (e.1 <> n)) as [H|H].
    + cbn [find]. by rewrite IH.
    + cbn [find]. rewrite IH. destruct (str_eqb e.1 name) eqn:E2; [|done].
      apply str_eqb_spec in E2. destruct H. intros H. subst. done.
Qed.

Lemma started_one h n v : "="%char ∉ n -> utf8_valid v = true -> started h [set_line n v] (with_var h n v).
Proof.
  intros Hn Hv name. split.
  - intros Hu. rewrite with_var_env by done. destruct (decide (name = n)) as [->|]; [|done].
    exfalso. apply (Hu (set_line n v) v); [left|]. by apply set_line_sets.
  - intros [|b before] line after value E Hs _.
    + injection E as <- <-. apply set_line_sets in Hs as [-> ->]; [|done]. rewrite with_var_env by done.
      by rewrite decide_True.
    + injection E as _ E. by destruct before.
Qed.

Lemma line_one n v : nl ∉ set_line n v -> lines_of (set_line n v) [set_line n v].
Proof. intros H. by apply lines_unterminated. Qed.

(** A rule for one variable leaves the trusted ones alone. *)
Lemma one_variable n :
  "="%char ∉ n -> n ∉ trusted_variables -> leaves_alone [set_line n (lit "*")] trusted_variables.
Proof.
  intros Hn Ht rule name line value Hr Hname Hs Hp. apply elem_of_list_singleton in Hr as ->.
  destruct Hp as [(p & E & rest & ->)|[H _]].
  - assert (p = set_line n []) as ->.
    { apply (app_inv_tail (lit "*")). rewrite <- E. unfold set_line. rewrite <- !app_assoc. done. }
    assert (set_line n [] ++ rest = set_line n rest) as E2 by (unfold set_line; by rewrite <- !app_assoc).
    rewrite E2 in Hs. apply set_line_sets in Hs as [-> _]; [|done]. done.
  - apply (H (set_line n [])). unfold set_line. rewrite <- !app_assoc. done.
Qed.

Example C230_ex :
  let ps : permissions := {[ (lit "foo", Build) :=
    PackageConfig false false [lit "cargo:rustc-env=BUILD_DATE=*"] [] false None None None sandbox_default None ]} in
  let pkg := PkgId (lit "foo") [1; 0; 0] in
  let given := Host [(lit "CARGO_PKG_NAME", lit "foo")] (fun _ => true) (fun _ => true) (fun _ => true) in
  let stdout := lit "cargo:rustc-env=BUILD_DATE=today" in
  exists h, approved ps pkg stdout /\ lines_of stdout [stdout] /\ no_blanks [stdout] /\
    rules_in_force ps pkg [lit "cargo:rustc-env=BUILD_DATE=*"] /\
    leaves_alone [lit "cargo:rustc-env=BUILD_DATE=*"] trusted_variables /\ started given [stdout] h /\
    env_var h (lit "BUILD_DATE") = Some (lit "today") /\ env_var given (lit "BUILD_DATE") = None.
Proof.
  intros ps pkg given stdout. exists (with_var given (lit "BUILD_DATE") (lit "today")).
  split; [intros output; by vm_compute|].
  split; [apply lines_unterminated; [done|apply (bool_decide_unpack _); vm_compute; exact I]|].
  split; [intros line H; by apply elem_of_list_singleton in H as ->|].
  split; [left; eexists; split; [by vm_compute|done]|].
  split; [apply (one_variable (lit "BUILD_DATE")); apply (bool_decide_unpack _); vm_compute; exact I|].
  split; [apply (started_one given (lit "BUILD_DATE") (lit "today")); [apply (bool_decide_unpack _); vm_compute; exact I|by vm_compute]|].
  split; by vm_compute.
Qed.

(** The package [evil] may only set variables with its build script: the rule is one that is offered for a harmless
    instruction. The package [good] may use unsafe code. *)
Definition id_evil : pkg_id := PkgId (lit "evil") [1; 0; 0].
Definition id_good : pkg_id := PkgId (lit "good") [1; 0; 0].
Definition id_rule : str := lit "cargo:rustc-env=*".
Definition id_free : package_config :=
  PackageConfig true true [] [] false None None None sandbox_default None.
Definition id_ps : permissions :=
  {[ (lit "evil", Build) := PackageConfig false false [id_rule] [] false None None None sandbox_default None; (lit "good", All) := id_free ]}.
Definition id_own : permissions := {[ (lit "evil", All) := id_free ]}.

Definition id_env : list (str * str) :=
  [(lit "CARGO_PKG_NAME", lit "evil"); (lit "CARGO_PKG_VERSION", lit "1.0.0"); (lit "CARGO_CRATE_NAME", lit "evil");
   (lit "CACKLE_MULTIPLE_VERSION_PKG_NAMES", []); (lit "CACKLE_CONFIG_PATH", lit "/tmp/x/flattened_cackle.toml");
   (lit "CACKLE_SOCKET_PATH", lit "/tmp/x/comms/cackle.socket"); (lit "CACKLE_RUSTC_PATH", lit "/opt/rustc");
   (lit "CACKLE_TARGET_DIR", lit "/w/target"); (lit "CACKLE_BUILD_PROFILE", lit "cackle");
   (lit "CACKLE_MANIFEST_DIR", lit "/w"); (lit "HOME", lit "/home/u"); (lit "CARGO_MANIFEST_DIR", lit "/w/evil")].
Definition id_given : host := Host id_env (fun _ => true) (fun _ => true) (fun _ => true).
Definition id_version (s : str) : option (list nat) := if str_eqb s (lit "1.0.0") then Some [1; 0; 0] else None.

Definition id_config (path : str) : option (permissions * Z) :=
  if str_eqb path (lit "/tmp/x/flattened_cackle.toml") then Some (id_ps, 3%Z)
  else if str_eqb path (lit "/w/target/evil/out/own") then Some (id_own, 3%Z) else None.
Definition id_read (path : str) : option str :=
  if str_eqb path (lit "/t/evil.d") then Some (lit "src/lib.rs:" ++ [nl])
  else if str_eqb path (lit "/w/src/lib.rs") then Some (lit "unsafe") else None.
Definition id_around : surroundings :=
  Surroundings id_config (fun _ _ _ => []) (fun _ => ex_rustc) id_read ex_canonicalize
    (fun r => match r with UsesUnsafe _ _ => Some GiveUp | _ => Some Continue end).
Definition id_argv : list str :=
  [lit "cackle"; lit "rustc"; lit "--crate-name"; lit "evil"; lit "--emit=dep-info"; lit "--out-dir"; lit "/t"].
Definition id_run (h : host) : list event * ending :=
  rustc_wrapper id_version whole ex_parse (lit "/opt/cargo-acl") h (fun _ => None) id_argv [id_around].

Lemma id_approved n v :
  nl ∉ set_line n v -> utf8_valid (set_line n v) = true -> approved id_ps id_evil (set_line n v).
Proof.
  intros Hn Hu output. unfold execution_complete. cbn [Z.eqb cs_kind cs_pkg fst]. unfold bs_build. rewrite Hu.
  rewrite <- (lines_of_fun _ _ (line_one n v Hn)).
  assert (allowed_instructions id_ps id_evil = [id_rule]) as -> by (vm_compute; reflexivity).
  cbn [foldl]. unfold report_line, check_directive. cbn [br_problems app].
  assert (existsb (rule_matches (set_line n v)) [id_rule] = true) as ->.
  { cbn [existsb]. rewrite orb_false_r. apply rule_matches_spec. left. exists (lit "cargo:rustc-env=").
    split; [done|]. eexists. reflexivity. }
  by repeat case_match.
Qed.

Lemma id_only : only_rules id_ps id_evil [id_rule].
Proof.
  split; [by vm_compute|]. intros [] H; try done; by vm_compute.
Qed.

Lemma id_offered : exists rules, suggested_rules (lit "cargo:rustc-env=BUILD_DATE=today") = Some rules /\ id_rule ∈ rules.
Proof. eexists. split; [by vm_compute|]. by apply (bool_decide_unpack _); vm_compute. Qed.

(** Without tricks the use of unsafe is reported. *)
Example id_honest :
  exists c, id_run id_given
    = ([Ran c; Asked (UsesUnsafe (CrateSel id_evil Primary) [(lit "/w/src/lib.rs", 3, 5)])], Exits (-1) [] []).
Proof. eexists. by vm_compute. Qed.

Lemma id_could n v :
  "="%char ∉ n -> utf8_valid v = true -> nl ∉ set_line n v -> utf8_valid (set_line n v) = true ->
  could_become id_ps id_evil id_given (with_var id_given n v).
Proof.
  intros Hn Hv Hl Hu. destruct id_offered as (rules & Hr & Hin).
  exists id_rule, rules, (set_line n v), [set_line n v].
  split; [exact id_only|]. split; [done|]. split; [done|]. split; [by apply id_approved|].
  split; [by apply line_one|]. split; [|by apply started_one].
  intros line H. apply elem_of_list_singleton in H as ->. done.
Qed.

Ltac id_could := apply id_could; first [apply (bool_decide_unpack _); vm_compute; exact I | vm_compute; reflexivity].

(** ** C231 *)

(** Refuted: a build script that may set variables can make the compilation of its package count as that of another
    one. Unsafe code is then accepted although only the other package may use it, and what the main process hears about
    the crate's files names the other package. *)
Theorem C231_identity_refuted :
  exists (ps : permissions) (evil good : pkg_id) (given h : host) (path : str) pv lexer parse exe direct argv a
         ran_given places code ran out err,
    pi_name evil <> pi_name good /\ could_become ps evil given h /\
    env_var given (lit "CACKLE_CONFIG_PATH") = Some path /\ wo_config a path = Some (ps, 3%Z) /\
    ~ may_use_unsafe ps (CrateSel evil Primary) /\
    rustc_wrapper pv lexer parse exe given direct argv [a]
      = ([Ran ran_given; Asked (UsesUnsafe (CrateSel evil Primary) places)], Exits code [] []) /\
    rustc_wrapper pv lexer parse exe h direct argv [a]
      = ([Ran ran; Asked (RustcComplete (CrateSel good Primary) [lit "/w/src/lib.rs"])], Exits 0 out err) /\
    wo_read a (lit "/w/src/lib.rs") = Some (lit "unsafe") /\ lexer_ok lexer.
Proof.
  destruct id_honest as (c & Hc).
  eexists id_ps, id_evil, id_good, id_given, (with_var id_given (lit "CARGO_PKG_NAME") (lit "good")), _,
    id_version, whole, ex_parse, (lit "/opt/cargo-acl"), (fun _ => None), id_argv, id_around, c, _, _, _, _, _.
  split; [done|]. split; [id_could|]. split; [by vm_compute|]. split; [by vm_compute|].
  split; [intros (cfg & H & _); vm_compute in H; discriminate H|]. split; [exact Hc|]. split; [by vm_compute|].
  split; [by vm_compute|exact whole_ok].
Qed.
Print Assumptions C231_identity_refuted.

(** ** C232 *)

(** Refuted: such a build script can also give the wrapper a configuration of its own. *)
Theorem C232_configuration_refuted :
  exists (ps : permissions) (evil : pkg_id) (given h : host) (path : str) pv lexer parse exe direct argv a
         ran_given places code ran files out err,
    could_become ps evil given h /\
    env_var given (lit "CACKLE_CONFIG_PATH") = Some path /\ wo_config a path = Some (ps, 3%Z) /\
    ~ may_use_unsafe ps (CrateSel evil Primary) /\
    rustc_wrapper pv lexer parse exe given direct argv [a]
      = ([Ran ran_given; Asked (UsesUnsafe (CrateSel evil Primary) places)], Exits code [] []) /\
    rustc_wrapper pv lexer parse exe h direct argv [a]
      = ([Ran ran; Asked (RustcComplete (CrateSel evil Primary) files)], Exits 0 out err).
Proof.
  destruct id_honest as (c & Hc).
  eexists id_ps, id_evil, id_given, (with_var id_given (lit "CACKLE_CONFIG_PATH") (lit "/w/target/evil/out/own")), _,
    id_version, whole, ex_parse, (lit "/opt/cargo-acl"), (fun _ => None), id_argv, id_around, c, _, _, _, _, _, _.
  split; [id_could|]. split; [by vm_compute|]. split; [by vm_compute|].
  split; [intros (cfg & H & _); vm_compute in H; discriminate H|]. split; [exact Hc|]. by vm_compute.
Qed.
Print Assumptions C232_configuration_refuted.

(** ** C233 *)

(** Refuted: such a build script can also choose the program that is run as rustc. *)
Theorem C233_compiler_refuted :
  exists (ps : permissions) (evil : pkg_id) (given h : host) pv lexer parse exe direct argv a c c' more more' e e',
    could_become ps evil given h /\
    rustc_wrapper pv lexer parse exe given direct argv [a] = (Ran c :: more, e) /\
    cm_program c = lit "/opt/rustc" /\
    rustc_wrapper pv lexer parse exe h direct argv [a] = (Ran c' :: more', e') /\
    cm_program c' = lit "/w/target/evil/out/prog".
Proof.
  eexists id_ps, id_evil, id_given, (with_var id_given (lit "CACKLE_RUSTC_PATH") (lit "/w/target/evil/out/prog")),
    id_version, whole, ex_parse, (lit "/opt/cargo-acl"), (fun _ => None), id_argv, id_around, _, _, _, _, _, _.
  split; [id_could|]. split; [by vm_compute|]. split; [by vm_compute|]. split; [by vm_compute|]. by vm_compute.
Qed.
Print Assumptions C233_compiler_refuted.

(** ** C234 *)

Definition id_sandbox : sandbox_config := SandboxConfig (Some Bubblewrap) [] None [] [] [].
Definition id_key : list str := [lit "home"; lit "u"; lit ".ssh"; lit "authorized_keys"].

(** Refuted: such a build script can also have a directory of the user made writable in the sandbox in which rustc and
    the procedural macros run. *)
Theorem C234_sandbox_refuted :
  exists (ps : permissions) (evil : pkg_id) (given h : host) (present : list str -> bool) (config : sandbox_config)
         argv vars exe inputs inputs' args args' w w',
    could_become ps evil given h /\
    sb_extra_args config = [] /\ sb_bind_writable config = [] /\ sb_make_writable config = [] /\
    rustc_inputs_from_env given argv vars = Some inputs /\ for_rustc given config inputs exe = Some (Some args) /\
    SandboxSpec.host_ok given present /\
    SandboxSpec.runs_in given present args [] (lit "/opt/rustc") [] w /\
    SandboxSpec.look w id_key = SandboxSpec.Private /\
    rustc_inputs_from_env h argv vars = Some inputs' /\ for_rustc h config inputs' exe = Some (Some args') /\
    SandboxSpec.host_ok h present /\
    SandboxSpec.runs_in h present args' [] (lit "/opt/rustc") [] w' /\
    SandboxSpec.look w' id_key = SandboxSpec.HostFile id_key true.
Proof.
  eexists id_ps, id_evil, id_given, (with_var id_given (lit "CACKLE_TARGET_DIR") (lit "/home/u")), (fun _ => true), id_sandbox,
    id_argv, (fun _ _ => []), (lit "/opt/cargo-acl"), _, _, _, _, _, _.
  split; [id_could|]. split; [done|]. split; [done|]. split; [done|].
  split; [by vm_compute|]. split; [by vm_compute|].
  split; [split; [done|]; split; [done|]; split; [done|]; apply (bool_decide_unpack _); vm_compute; exact I|].
  split; [unfold SandboxSpec.runs_in; vm_compute; reflexivity|]. split; [by vm_compute|].
  split; [by vm_compute|]. split; [by vm_compute|].
  split; [split; [done|]; split; [done|]; split; [done|]; apply (bool_decide_unpack _); vm_compute; exact I|].
  split; [unfold SandboxSpec.runs_in; vm_compute; reflexivity|]. by vm_compute.
Qed.
Print Assumptions C234_sandbox_refuted.
