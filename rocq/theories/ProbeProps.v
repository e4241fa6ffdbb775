(** The surroundings as cackle finds them. *)
From Coq Require Import NArith.
From Verif Require Import Base BaseFacts TextModel TextSpec Utf8Proofs ApiMapModel ConfigModel TomlModel ProblemModel EditorModel
  DepsModel DwarfModel DwarfSpec DwarfProps CollectProofs SubprocessModel FrontModel FrontSpec FrontProofs FrontProps ProbeModel ProbeSpec ProbeProofs.

(** ** C209: the sandbox that is configured *)

(** The initial configuration switches the sandbox on exactly if bwrap works. *)
Theorem C209_initial :
  forall (bwrap again : option proc_output) (last enter : str) (rest : list str) (names : list str),
  (worked bwrap -> again <> None) ->
  names_in last names -> NoDup names -> selection [] names ->
  exists d, missing_configuration (verify_kind again) (available_kind bwrap) (last :: enter :: rest) = Created d rest /\
    forall exports idx root, exists c, load_document built_ins exports idx root d = Some (Loaded c) /\
      (sb_kind (rc_sandbox (cf_raw c)) = Some Bubblewrap <-> worked bwrap) /\
      (sb_kind (rc_sandbox (cf_raw c)) = Some Disabled <-> ~ worked bwrap).
Proof.
  intros bwrap again last enter rest names Hag Hn Hnd Hsel.
  assert (Hw := has_bwrap_spec bwrap).
  destruct (C175_initial_configuration (verify_kind again) (available_kind bwrap) [] last enter rest [] names) as (d & Hd & Hl).
  - unfold available_kind, verify_kind. destruct (has_bwrap bwrap); [|done].
    destruct again; [by rewrite andb_comm|]. by destruct Hag; [apply Hw|].
  - constructor.
  - done.
  - done.
  - by cbn.
  - exists d. split; [exact Hd|]. intros exports idx root. destruct (Hl exports idx root) as (c & Hc & _ & Hk & _).
    exists c. split; [done|]. rewrite Hk. unfold available_kind.
    destruct (has_bwrap bwrap); split; split; try done; [intros _; by apply Hw|intros X; destruct X; by apply Hw|intros X%Hw; done|].
    intros _ X%Hw. done.
Qed.
Print Assumptions C209_initial.

(** If bwrap cannot be run at all, the sandbox cannot be switched on by a fix: the file stays as it is. *)
Theorem C209_refused :
  forall (built_ins : gmap str api_config) (d : table),
  apply_edit (verify_kind None) built_ins (SelectSandbox Bubblewrap) d = None /\
  apply_edit (verify_kind None) built_ins (SelectSandbox Disabled) d =
    apply_edit (fun _ => true) built_ins (SelectSandbox Disabled) d.
Proof. done. Qed.
Print Assumptions C209_refused.

Definition pr_ok (out : str) : option proc_output := Some (ProcOutput (Some 0%Z) out []).
Definition pr_failed : option proc_output := Some (ProcOutput (Some 1%Z) [] (lit "error")).

Example C209_ex :
  worked (pr_ok (lit "bubblewrap 0.8.0")) /\ ~ worked pr_failed /\
  missing_configuration (verify_kind (pr_ok [])) (available_kind (pr_ok [])) [lit "fs"; []] =
    Created [(lit "common", Table [(lit "version", Integer 3); (lit "import_std", Array [Text (lit "fs")])]);
             (lit "sandbox", Table [(lit "kind", Text (lit "Bubblewrap"))])] [] /\
  missing_configuration (verify_kind pr_failed) (available_kind pr_failed) [lit "fs"; []] =
    Created [(lit "common", Table [(lit "version", Integer 3); (lit "import_std", Array [Text (lit "fs")])]);
             (lit "sandbox", Table [(lit "kind", Text (lit "Disabled"))])] [].
Proof.
  split; [by eexists _, _|]. split; [by intros (o & e & H)|]. split; vm_compute; reflexivity.
Qed.

(** ** C210: a sandbox that does not work *)

(** A bwrap that fails, for instance because it may not make namespaces, is accepted by the fix that switches the sandbox
    on. *)
Theorem C210_refuted :
  exists (bwrap : option proc_output) (d : table),
    bwrap <> None /\ ~ worked bwrap /\
    apply_edit (verify_kind bwrap) built_ins (SelectSandbox Bubblewrap) [(lit "common", Table [(lit "version", Integer 3)])] = Some d /\
    get (lit "sandbox") d = Some (Table [(lit "kind", Text (lit "Bubblewrap"))]).
Proof.
  exists pr_failed, [(lit "common", Table [(lit "version", Integer 3)]); (lit "sandbox", Table [(lit "kind", Text (lit "Bubblewrap"))])].
  split; [done|]. split; [by intros (o & e & H)|]. split; vm_compute; reflexivity.
Qed.
Print Assumptions C210_refuted.

(** ** C211: the compiler and the sysroot are what the programs answer *)

(** The build uses the compiler that rustup names, if rustup can be run, exits with success and answers with text, and
    otherwise the one that is found by the name [rustc]. *)
Theorem C211_compiler :
  forall (rustup : str -> option proc_output) (exists_path : str -> bool) (cwd path : str),
  rustc_for_build rustup exists_path cwd = Some path <->
  answered (rustup cwd) path /\ exists_path path = true \/
  path = lit "rustc" /\ forall out, printed (rustup cwd) out -> ~ is_utf8 out.
Proof.
  intros rustup exists_path cwd path. unfold rustc_for_build, rustup_rustc_path, answered, printed.
  destruct (rustup cwd) as [[code out err]|].
  - destruct (success _) eqn:Es; cbn [negb].
    + apply success_spec in Es. cbn [po_code] in Es. subst code. cbn [po_stdout].
      destruct (utf8_valid out) eqn:Ev; cbn [negb].
      * pose proof (proj1 (utf8_valid_spec out) Ev) as Hu. split.
        -- destruct (exists_path (trim out)) eqn:Ee; [|done]. intros [= <-]. left. split; [|done].
           exists out. split; [by eexists|]. split; [done|by apply trim_spec].
        -- intros [[(o & (e & [= <- _]) & _ & Ht%trim_spec) He]|[_ H]].
           ++ subst path. by rewrite He.
           ++ destruct (H out); [by eexists|done].
      * pose proof (proj1 (utf8_invalid_spec out) Ev) as Hu. split.
        -- intros [= <-]. right. split; [done|]. by intros o (e & [= <- _]).
        -- intros [[(o & (e & [= <- _]) & X & _) _]|[-> _]]; done.
    + assert (Hc : code <> Some 0%Z) by (intros ->; done). split.
      * intros [= <-]. right. split; [done|]. intros o (e & [= X _ _]). done.
      * intros [[(o & (e & [= X _ _]) & _) _]|[-> _]]; done.
  - split.
    + intros [= <-]. right. split; [done|]. by intros o (e & H).
    + intros [[(o & (e & H) & _) _]|[-> _]]; done.
Qed.
Print Assumptions C211_compiler.

(** The sysroot is the answer of rustc in the analysed directory. *)
Theorem C211_sysroot :
  forall (rustc : str -> option proc_output) (root sysroot : str),
  answered (rustc root) sysroot -> determine_sysroot rustc root = Some sysroot.
Proof.
  intros rustc root sysroot (out & (err & E) & Hu%utf8_valid_spec & Ht%trim_spec).
  unfold determine_sysroot. rewrite E. cbn [po_stdout]. by rewrite Hu, Ht.
Qed.
Print Assumptions C211_sysroot.

Definition pr_rustup (dir : str) : option proc_output :=
  if str_eqb dir (lit "/w") then pr_ok (lit "/r/nightly/bin/rustc" ++ [nl]) else pr_ok (lit "/r/stable/bin/rustc" ++ [nl]).

Example C211_ex :
  answered (pr_rustup (lit "/w")) (lit "/r/nightly/bin/rustc") /\
  rustc_for_build pr_rustup (fun _ => true) (lit "/w") = Some (lit "/r/nightly/bin/rustc") /\
  rustc_for_build (fun _ => pr_failed) (fun _ => true) (lit "/w") = Some (lit "rustc") /\
  determine_sysroot (fun _ => pr_ok (lit "/r/nightly" ++ [nl])) (lit "/w") = Some (lit "/r/nightly").
Proof.
  split; [|split_and!; by vm_compute].
  exists (lit "/r/nightly/bin/rustc" ++ [nl]). split; [by eexists|]. split; [apply utf8_valid_spec; by vm_compute|].
  apply trim_spec. by vm_compute.
Qed.

(** ** C212: the toolchain of the analysed project *)

(** With an override of the toolchain in the analysed directory, and cackle started elsewhere (with a path as an option),
    the build does not use the compiler that rustup has for the project. *)
Theorem C212_refuted :
  exists (rustup : str -> option proc_output) (exists_path : str -> bool) (cwd root ours theirs : str),
    answered (rustup root) theirs /\ exists_path theirs = true /\
    rustc_for_build rustup exists_path cwd = Some ours /\ ours <> theirs.
Proof.
  exists pr_rustup, (fun _ => true), (lit "/home"), (lit "/w"), (lit "/r/stable/bin/rustc"), (lit "/r/nightly/bin/rustc").
  split; [apply C211_ex|]. split; [done|]. split; [by vm_compute|].
  apply (bool_decide_unpack _); vm_compute; exact I.
Qed.
Print Assumptions C212_refuted.

(** ** C213: an answer of rustup that is of no use *)

(** If rustup names a file that does not exist, cackle does not fall back but panics. *)
Theorem C213_refuted :
  exists (rustup : str -> option proc_output) (exists_path : str -> bool) (cwd path : str),
    answered (rustup cwd) path /\ exists_path path = false /\ rustc_for_build rustup exists_path cwd = None.
Proof.
  exists pr_rustup, (fun _ => false), (lit "/w"), (lit "/r/nightly/bin/rustc").
  split; [apply C211_ex|]. split; [done|]. by vm_compute.
Qed.
Print Assumptions C213_refuted.

(** ** C214: only the standard library is left out *)

(** If [rustc --print sysroot] fails, the sysroot is the empty path, and every path begins with that: the debug
    information of every unit is skipped, whatever is compiled. *)
Theorem C214_refuted :
  exists (rustc : str -> option proc_output) (root sysroot : str),
    ~ worked (rustc root) /\ determine_sysroot rustc root = Some sysroot /\
    forall units : list dw_unit, (forall u, u ∈ units -> exists dir, compdir_of u = lit "/" ++ dir) ->
      from_dwarf (in_rust_std sysroot) units = Some (Artifacts ∅ []).
Proof.
  exists (fun _ => pr_failed), (lit "/w"), []. split; [by intros (o & e & H)|]. split; [by vm_compute|].
  intros units Hu. unfold from_dwarf, scan_units.
  assert (E : CollectModel.flat_mapM (fun u => if in_rust_std [] (compdir_of u) then Some [] else scan_unit units u) units = Some []).
  { assert (Hin : forall u, u ∈ units -> in_rust_std [] (compdir_of u) = true).
    { intros u Hin. destruct (Hu u Hin) as [dir ->]. unfold in_rust_std. rewrite (proj2 (starts_with_spec _ _)) by (by exists dir).
      cbn [andb]. rewrite !orb_true_iff. right. unfold path_starts_with. apply bool_decide_eq_true.
      apply prefix_nil. }
    destruct (CollectProofs.flat_mapM_is_Some (fun u => if in_rust_std [] (compdir_of u) then Some [] else scan_unit units u) units)
      as [r Hr]; [intros u X; rewrite (Hin u X); by eexists|].
    rewrite Hr. destruct r as [|y r]; [done|]. exfalso.
    destruct (proj1 (proj2 (CollectProofs.flat_mapM_elem _ _ _ Hr) y)) as (u & ys & X & Y & Z); [left|].
    cbv beta in Y. rewrite (Hin u X) in Y. injection Y as <-. by apply elem_of_nil in Z. }
  by rewrite E.
Qed.
Print Assumptions C214_refuted.

(** The calls of a program are found with its sysroot, and none of them with the empty one. *)
Example C214_ex :
  (exists a, from_dwarf (in_rust_std (lit "/root/.rustup/toolchains/stable")) (map encode ex_units) = Some a /\
     ar_inlined a <> [] /\ ar_symbols a !! main_symbol <> None) /\
  from_dwarf (in_rust_std []) (map encode ex_units) = Some (Artifacts ∅ []).
Proof.
  split; [|by vm_compute].
  destruct (from_dwarf (in_rust_std (lit "/root/.rustup/toolchains/stable")) (map encode ex_units)) as [a|] eqn:E;
    vm_compute in E; [|done].
  injection E as <-. eexists. split; [reflexivity|]. split; [done|]. by vm_compute.
Qed.
