(** Build script output: C22, C23, C24, C52, C53. *)
From Verif Require Import Base BaseFacts TextSpec Utf8Proofs TextModel TextFacts ApiMapModel ConfigModel ProblemModel
  BuildScriptModel BuildScriptSpec BuildScriptProofs.

(** ** C22: which lines are reported *)

(** For a build script that succeeds: exactly the rejected lines, in output order. *)
Theorem C22_exact :
  forall (ps : permissions) (pkg : pkg_id) (allow : list str) (output : nat) (stdout : str)
         (ls : list str),
  is_utf8 stdout -> lines_of stdout ls -> rules_in_force ps pkg allow ->
  exists bad,
    gathered (fun line b => rejected allow line /\ b = line) ls bad /\
    fst (execution_complete ps 0 (CrateSel pkg BuildScript) output stdout)
    = map (PDisallowedBuildInstruction pkg) bad.
Proof.
  intros ps pkg allow output stdout ls Hv%utf8_valid_spec Hls Hr.
  destruct (bs_build_valid ps pkg allow stdout ls Hv Hls Hr) as (bad & vars & Hb & _ & Hp & _).
  by exists bad.
Qed.
Print Assumptions C22_exact.

(** Every text has exactly one list of lines, so [C22_exact] speaks about every output. *)
Theorem C22_lines_unique :
  forall stdout : str, exists ls, lines_of stdout ls /\ forall ls', lines_of stdout ls' -> ls' = ls.
Proof.
  intros stdout. exists (str_lines stdout). split; [apply lines_of_total|apply lines_of_fun].
Qed.
Print Assumptions C22_lines_unique.

(** The other cases: output that is not text is an error, a failed program is reported as
    such, and the output of programs that are not build scripts is not restricted. *)
Theorem C22_other_outcomes :
  forall (ps : permissions) (code : Z) (sel : crate_sel) (output : nat) (stdout : str),
  (code = 0%Z -> cs_kind sel = BuildScript -> ~ is_utf8 stdout ->
     exists message, fst (execution_complete ps code sel output stdout) = [PMessage message]) /\
  (code <> 0%Z -> fst (execution_complete ps code sel output stdout) = [PExecutionFailed sel output]) /\
  (code = 0%Z -> cs_kind sel <> BuildScript -> fst (execution_complete ps code sel output stdout) = []).
Proof.
  intros ps code sel output stdout. unfold execution_complete. split; [|split].
  - intros -> Hk Hv%utf8_invalid_spec. cbn. rewrite Hk. unfold bs_build. rewrite Hv. cbn. eauto.
  - intros Hc. apply Z.eqb_neq in Hc. by rewrite Hc.
  - intros -> Hk. cbn. by destruct (cs_kind sel).
Qed.
Print Assumptions C22_other_outcomes.

Definition foo : pkg_id := PkgId (lit "foo") [1; 0; 0].
Definition text (ls : list str) : str := join [nl] ls.
Definition rules_only (rules : list str) : package_config :=
  PackageConfig false false rules [] false None None None sandbox_default None.

Definition foo_permissions : permissions :=
  {[ (lit "foo", Build) := rules_only [lit "cargo:rustc-link-lib=*"; lit "cargo:x=y"] ]}.

Example C22_ex :
  let out := text [lit "hello"; lit "cargo:rerun-if-changed=a"; lit "cargo:rustc-link-lib=z";
                   lit "cargo:rustc-link-arg=-s"; lit "cargo:x=y"; lit "cargo:x=yy"] in
  utf8_valid out = true /\
  fst (execution_complete foo_permissions 0 (CrateSel foo BuildScript) 7 out)
  = [PDisallowedBuildInstruction foo (lit "cargo:rustc-link-arg=-s");
     PDisallowedBuildInstruction foo (lit "cargo:x=yy")].
Proof. by vm_compute. Qed.

(** ** C23: suggested rules *)

(** For every reported instruction rules are suggested (there is no panic): one for each
    prefix that ends with a separator, longest first, ending with [cargo:*]. *)
Theorem C23_suggestions :
  forall (ps : permissions) (pkg : pkg_id) (stdout instruction : str),
  PDisallowedBuildInstruction pkg instruction ∈ br_problems (bs_build ps pkg stdout) ->
  exists rules, suggested_rules instruction = Some rules /\
    (forall r, r ∈ rules <->
       exists p, r = p ++ lit "*" /\ p `prefix_of` instruction /\ at_separator p) /\
    StronglySorted (fun a b : str => length b < length a) rules /\
    last rules = Some (lit "cargo:*").
Proof. exact suggestions_spec. Qed.
Print Assumptions C23_suggestions.

(** With any of the suggestions in force the instruction is no longer reported, and
    nothing else starts to be reported. *)
Theorem C23_fix_works :
  forall (ps : permissions) (pkg : pkg_id) (stdout instruction : str) (rules : list str)
         (rule : str) (ps' : permissions) (allow allow' : list str),
  PDisallowedBuildInstruction pkg instruction ∈ br_problems (bs_build ps pkg stdout) ->
  suggested_rules instruction = Some rules -> rule ∈ rules ->
  rules_in_force ps pkg allow -> rules_in_force ps' pkg allow' ->
  rule ∈ allow' -> allow ⊆ allow' ->
  PDisallowedBuildInstruction pkg instruction ∉ br_problems (bs_build ps' pkg stdout) /\
  br_problems (bs_build ps' pkg stdout) ⊆ br_problems (bs_build ps pkg stdout).
Proof. exact fix_works. Qed.
Print Assumptions C23_fix_works.

Example C23_ex :
  let out := text [lit "cargo:rustc-link-search=all=/a-b"] in
  PDisallowedBuildInstruction foo (lit "cargo:rustc-link-search=all=/a-b")
    ∈ br_problems (bs_build foo_permissions foo out) /\
  suggested_rules (lit "cargo:rustc-link-search=all=/a-b")
  = Some [lit "cargo:rustc-link-search=all=*"; lit "cargo:rustc-link-search=*";
          lit "cargo:rustc-link-*"; lit "cargo:rustc-*"; lit "cargo:*"].
Proof. split; [vm_compute; left|by vm_compute]. Qed.

(** ** C24: variables set by build scripts *)

(** After any runs of build scripts and tests, compiling a package finds exactly the
    non-empty names set by the latest successful run of its own build script in the same
    profile. No package name contains [[], which cargo does not allow. *)
Theorem C24_recorded_variables :
  forall (idx : crate_index) (ps : permissions) (runs : list run) (profile : str) (p : pkg_id),
  (forall k, k ∈ idx -> "["%char ∉ pk_name k) ->
  (forall r, r ∈ runs -> known idx (cs_pkg (r.1.1.2))) -> known idx p ->
  match latest_success runs profile p with
  | Some stdout =>
      (is_utf8 stdout ->
        exists ls vars, lines_of stdout ls /\ gathered sets_variable ls vars /\
          read_env_vars idx (foldl (record_run idx ps) ∅ runs) profile p
          = filter (fun v => v <> []) vars) /\
      (~ is_utf8 stdout -> read_env_vars idx (foldl (record_run idx ps) ∅ runs) profile p = [])
  | None => read_env_vars idx (foldl (record_run idx ps) ∅ runs) profile p = []
  end.
Proof.
  intros idx ps runs profile p H1 H2 H3. pose proof (recorded_runs_spec idx ps runs profile p H1 H2 H3) as H.
  destruct (latest_success runs profile p) as [stdout|]; [|exact H].
  destruct (utf8_valid stdout) eqn:E.
  - split; [by intros _|]. intros Hn. destruct Hn. by apply utf8_valid_spec.
  - split; [|by intros _]. intros Hu%utf8_valid_spec. by rewrite Hu in E.
Qed.
Print Assumptions C24_recorded_variables.

Definition two_foos : crate_index :=
  [Package (lit "foo") [1; 0; 0] true false false; Package (lit "foo") [2; 0; 0] true false false;
   Package (lit "bar") [1; 0; 0] true false false].
Definition foo2 : pkg_id := PkgId (lit "foo") [2; 0; 0].
Definition ex_runs : list run :=
  [(lit "debug", CrateSel foo BuildScript, 0%Z, text [lit "cargo:rustc-env=OLD=1"]);
   (lit "debug", CrateSel foo BuildScript, 0%Z,
      text [lit "cargo:rustc-env=A=1"; lit "x"; lit "cargo:rustc-env=B=2=3"; lit "cargo:rustc-env=C"]);
   (lit "debug", CrateSel foo2 BuildScript, 0%Z, text [lit "cargo:rustc-env=V2=1"]);
   (lit "release", CrateSel foo BuildScript, 0%Z, text [lit "cargo:rustc-env=R=1"]);
   (lit "debug", CrateSel foo BuildScript, 1%Z, text [lit "cargo:rustc-env=FAILED=1"]);
   (lit "debug", CrateSel foo TestCrate, 0%Z, text [lit "cargo:rustc-env=TEST=1"])].

Example C24_ex :
  known two_foos foo /\ known two_foos foo2 /\
  (latest_success ex_runs (lit "debug") foo <> None) /\
  read_env_vars two_foos (foldl (record_run two_foos ∅) ∅ ex_runs) (lit "debug") foo
  = [lit "A"; lit "B"] /\
  read_env_vars two_foos (foldl (record_run two_foos ∅) ∅ ex_runs) (lit "debug") foo2
  = [lit "V2"].
Proof.
  split; [eexists; split; [left|done]|]. split; [eexists; split; [right; left|done]|].
  by vm_compute.
Qed.

(** ** C52: every line that cargo takes for a directive is checked *)

(** Refuted: cargo removes white space around a line before it looks for a directive,
    the check does not, so a leading space gets any instruction past it. *)
Theorem C52_all_directives_checked_refuted :
  exists (stdout line : str) (ls : list str),
    is_utf8 stdout /\ lines_of stdout ls /\ line ∈ ls /\
    directive_for_cargo line /\
    ~ harmless (skip_blanks line) /\
    forall (ps : permissions) (pkg : pkg_id) (output : nat),
      fst (execution_complete ps 0 (CrateSel pkg BuildScript) output stdout) = [].
Proof.
  exists (lit " cargo:rustc-link-arg=-s"), (lit " cargo:rustc-link-arg=-s"),
    [lit " cargo:rustc-link-arg=-s"].
  split; [by apply utf8_valid_spec|]. split; [|split; [left|split; [|split]]].
  - apply lines_unterminated; [done|]. intros H%has_char_spec. done.
  - by apply starts_with_spec.
  - rewrite <- always_permitted_spec. done.
  - intros ps pkg output. done.
Qed.
Print Assumptions C52_all_directives_checked_refuted.

(** ** C53: every variable a build script can set is recorded *)

(** Refuted: a variable set with cargo's newer [cargo::] spelling is not recorded, even if
    the instruction is permitted. *)
Theorem C53_both_spellings_recorded_refuted :
  exists (ps : permissions) (pkg : pkg_id) (stdout var : str),
    sets_variable_for_cargo stdout var /\ lines_of stdout [stdout] /\
    br_problems (bs_build ps pkg stdout) = [] /\
    var ∉ br_env (bs_build ps pkg stdout).
Proof.
  exists ({[ (lit "foo", Build) := rules_only [lit "cargo:*"] ]}),
    foo, (lit "cargo::rustc-env=A=1"), (lit "A").
  split; [|split; [|split]].
  - exists (lit "1"). split; [intros H%has_char_spec; done|by right].
  - apply lines_unterminated; [done|]. intros H%has_char_spec. done.
  - by vm_compute.
  - rewrite <- mem_str_spec. by vm_compute.
Qed.
Print Assumptions C53_both_spellings_recorded_refuted.
