(** Calls of the linker with response files. *)
From Verif Require Import Base BaseFacts TextModel TextFacts ConfigModel ProblemModel BuildScriptSpec DepsModel DepsSpec DepsProofs
  DepsProps IndexModel LaunchModel ResponseSpec.

(** ** C235 *)

(** Whatever the response files contain: a call in place of the linker whose own arguments do not name the output is an
    error, and nothing is linked. *)
Theorem C235_rejected {V : Type} (pv : str -> option V) (env : str -> option str) (socket : str) (argv : list str) :
  env (lit "CACKLE_SOCKET_PATH") = Some socket -> socket <> [] ->
  (forall before out after, argv <> before ++ lit "-o" :: out :: after) ->
  head (drop 1 argv) <> Some (lit "proxy-bin") ->
  (forall a, head (drop 1 argv) = Some a -> file_name a <> Some (lit "rustc")) ->
  main_role pv env argv = BadCall.
Proof.
  intros Hs Hne Ho Hb Hr. apply (proj2 (C65_output argv)) in Ho. unfold main_role, wrapped_role. rewrite Hs. cbn [default].
  destruct socket as [|c socket]; [done|].
  destruct (head (drop 1 argv)) as [a|] eqn:Ea.
  - destruct (str_eqb a (lit "proxy-bin")) eqn:E; [apply str_eqb_spec in E; congruence|].
    unfold is_path_to_rustc. specialize (Hr a eq_refl). destruct (file_name a) as [n|].
    + destruct (str_eqb n (lit "rustc")) eqn:E2; [apply str_eqb_spec in E2; congruence|].
      rewrite Ho. by repeat case_match.
    + rewrite Ho. by repeat case_match.
  - cbn [is_path_to_rustc]. rewrite Ho. by repeat case_match.
Qed.
Print Assumptions C235_rejected.

Definition rs_files (path : str) : option str :=
  if str_eqb path (lit "/tmp/rustc1/linker-arguments")
  then Some (lit "/t/evil.o" ++ nl :: lit "-o" ++ nl :: lit "/t/prog") else None.
Definition rs_env (name : str) : option str :=
  if str_eqb name (lit "CACKLE_SOCKET_PATH") then Some (lit "/tmp/s")
  else if str_eqb name (lit "CARGO_PKG_NAME") then Some (lit "foo")
  else if str_eqb name (lit "CARGO_PKG_VERSION") then Some (lit "1.0.0")
  else if str_eqb name (lit "CACKLE_MULTIPLE_VERSION_PKG_NAMES") then Some [] else None.
Definition rs_argv : list str := [lit "/opt/cargo-acl"; lit "@/tmp/rustc1/linker-arguments"].

Example C235_ex :
  (forall before out after, rs_argv <> before ++ lit "-o" :: out :: after) /\
  head (drop 1 rs_argv) <> Some (lit "proxy-bin") /\
  (forall a, head (drop 1 rs_argv) = Some a -> file_name a <> Some (lit "rustc")).
Proof.
  split; [apply (proj2 (C65_output rs_argv)); by vm_compute|]. split; [done|].
  intros a [= <-]. vm_compute. intros H. discriminate H.
Qed.

(** ** C236 *)

(** Refuted: a link that is complete, but given to the linker in a response file, as rustc does when the arguments are
    too long for one command, is refused. *)
Theorem C236_long_commands_refuted :
  exists (read : str -> option str) (env : str -> option str) (pv : str -> option (list nat)) (self : str) (argv full : list str)
         (info : link_info),
    expands read argv full /\ length argv = 1 /\
    main_role pv env (self :: full) = ProxyLinker (lit "foo", [1; 0; 0], true) Primary info full /\
    main_role pv env (self :: argv) = BadCall.
Proof.
  eexists rs_files, rs_env, (fun _ => Some [1; 0; 0]), (lit "/opt/cargo-acl"), (drop 1 rs_argv), _, _.
  split; [apply (expands_file rs_files (lit "/tmp/rustc1/linker-arguments")); [by vm_compute|constructor]|].
  split; [done|]. split; by vm_compute.
Qed.
Print Assumptions C236_long_commands_refuted.

(** ** C237 *)

(** Refuted: an object that the linker reads because a response file names it is not among those that are recorded for
    the call. *)
Theorem C237_objects_refuted :
  exists (read : str -> option str) (args full : list str) (object : str) (info : link_info),
    expands read args full /\ object ∈ full /\ object_path object /\
    link_info_from_args (lit "cc" :: args) = Some info /\ object ∉ li_objects info.
Proof.
  exists (fun p => if str_eqb p (lit "/t/list") then Some (lit "/t/evil.o") else None),
    [lit "@/t/list"; lit "/t/main.o"; lit "-o"; lit "/t/prog"], [lit "/t/evil.o"; lit "/t/main.o"; lit "-o"; lit "/t/prog"],
    (lit "/t/evil.o"), (LinkInfo [lit "/t/main.o"] (lit "/t/prog") false).
  split.
  { apply (expands_file _ (lit "/t/list") (lit "/t/evil.o") _ [lit "/t/main.o"; lit "-o"; lit "/t/prog"]);
      [by vm_compute|]. repeat (apply expands_plain; [done|]). constructor. }
  split; [left|]. split.
  { exists (lit "/t/"), (lit "evil"), (lit "o"). split; [done|]. split; [right; by exists (lit "/t")|].
    split; [done|]. split; [apply (bool_decide_unpack _); by vm_compute|by right]. }
  split; [by vm_compute|]. apply (bool_decide_unpack _); vm_compute; exact I.
Qed.
Print Assumptions C237_objects_refuted.
