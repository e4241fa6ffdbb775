(** Property C252. *)
From Verif Require Import Base BaseFacts TextModel TextFacts ConfigModel ProblemModel StoreModel ScannerModel ScannerSpec DepsModel IndexModel
  SandboxModel SubprocessModel SubprocessSpec SubprocessProofs SubprocessProps IdentityModel IdentitySpec IdentityProps
  WrapperSpec WrapperProofs.

(** ** C252 *)

(** Everything the wrapper reports is about the crate that cargo compiles. *)
Theorem C252_reports (pv : str -> option (list nat)) (lexer : str -> list lexed) (parse : str -> option message)
    (exe : str) (h : host) (direct : command -> option proc_output) (argv : list str) (worlds : list surroundings)
    (pkg : pkg_id) (crate : str) (evs : list event) (e : ending) (r : request) :
  lexer_ok lexer -> started_for pv h pkg crate ->
  rustc_wrapper pv lexer parse exe h direct argv worlds = (evs, e) -> Asked r ∈ evs ->
  exists kind, compiled_as crate argv kind /\ request_sel r = CrateSel pkg kind.
Proof.
  intros Hok Hs. unfold rustc_wrapper. pose proof Hs as (Hn & _). rewrite Hn.
  destruct (wrapper_sel_for pv h pkg crate argv Hs) as (kind & Hk & ->). intros H Hin. exists kind. split; [done|].
  by apply (proxy_faithful _ _ _ _ _ _ _ _ _ _ Hok H) in Hin.
Qed.
Print Assumptions C252_reports.

(** Only the compiler cargo would have used is run, and only with a configuration: that of the file the main process
    wrote, as it is at that time. What it does not permit to the crate the compiler is told to forbid. *)
Theorem C252_compiler (pv : str -> option (list nat)) (lexer : str -> list lexed) (parse : str -> option message)
    (exe : str) (h : host) (direct : command -> option proc_output) (argv : list str) (worlds : list surroundings)
    (pkg : pkg_id) (crate : str) (evs : list event) (e : ending) (c : command) :
  lexer_ok lexer -> started_for pv h pkg crate ->
  rustc_wrapper pv lexer parse exe h direct argv worlds = (evs, e) -> Ran c ∈ evs ->
  env_var h (lit "CACKLE_RUSTC_PATH") = Some (cm_program c) /\
  exists kind w path ps version, compiled_as crate argv kind /\ w ∈ worlds /\
    env_var h (lit "CACKLE_CONFIG_PATH") = Some path /\ wo_config w path = Some (ps, version) /\
    (lit "CACKLE_CRATE_KIND", to_token kind) ∈ cm_env c /\
    (may_use_unsafe ps (CrateSel pkg kind) \/ lit "-Funsafe-code" ∈ cm_args c) /\
    (may_use_extern ps version (CrateSel pkg kind) \/ lit "-Fmissing-unsafe-on-extern" ∈ cm_args c).
Proof.
  intros Hok Hs. unfold rustc_wrapper. pose proof Hs as (Hn & _). rewrite Hn.
  destruct (wrapper_sel_for pv h pkg crate argv Hs) as (kind & Hk & ->). intros H Hin.
  apply (proxy_faithful _ _ _ _ _ _ _ _ _ _ Hok H) in Hin as (Hp & Ht & a & ps & version & Ha & Hc & H1 & H2).
  apply elem_of_list_fmap in Ha as (w & -> & Hw).
  destruct (attempt_of_config _ _ _ _ _ _ Hc) as (path & rustc & inputs & Ep & Er & _ & Ew & _).
  split; [by rewrite Hp, Er|]. exists kind, w, path, ps, version. done.
Qed.
Print Assumptions C252_compiler.

(** If the compilation succeeds, then by the configuration in that file, as it is in the last attempt, the crate may use
    unsafe code and [extern] or its source files do not. *)
Theorem C252_success (pv : str -> option (list nat)) (lexer : str -> list lexed) (parse : str -> option message)
    (exe : str) (h : host) (direct : command -> option proc_output) (argv : list str) (worlds : list surroundings)
    (pkg : pkg_id) (crate : str) (evs : list event) (out err : str) :
  lexer_ok lexer -> started_for pv h pkg crate ->
  rustc_wrapper pv lexer parse exe h direct argv worlds = (evs, Exits 0 out err) ->
  exists kind w path ps version files, compiled_as crate argv kind /\ w ∈ worlds /\
    env_var h (lit "CACKLE_CONFIG_PATH") = Some path /\ wo_config w path = Some (ps, version) /\
    source_files (wo_read w) (wo_canonicalize w) argv = Some files /\
    wo_answer w (RustcComplete (CrateSel pkg kind) files) = Some Continue /\
    (may_use_unsafe ps (CrateSel pkg kind) \/
     forall f, f ∈ files -> exists bytes, wo_read w f = Some bytes /\ not_used unsafe_use lexer bytes) /\
    (may_use_extern ps version (CrateSel pkg kind) \/
     forall f, f ∈ files -> exists bytes, wo_read w f = Some bytes /\ not_used extern_use lexer bytes).
Proof.
  intros Hok Hs. unfold rustc_wrapper. pose proof Hs as (Hn & _). rewrite Hn.
  destruct (wrapper_sel_for pv h pkg crate argv Hs) as (kind & Hk & ->). intros H.
  destruct (C34_success _ _ _ _ _ _ _ _ _ _ Hok H) as (before & a & after & evs0 & ps & version & c & files & Ea & Hc & _ & _ & _ & Hf & Hans & H1 & H2).
  assert (Ha : a ∈ map (attempt_of h (CrateSel pkg kind) argv) worlds) by (rewrite Ea, elem_of_app; right; left).
  apply elem_of_list_fmap in Ha as (w & -> & Hw).
  destruct (attempt_of_config _ _ _ _ _ _ Hc) as (path & rustc & inputs & Ep & Er & _ & Ew & E).
  rewrite E in Hf, Hans, H1, H2. cbn [at_read at_canonicalize at_answer] in *.
  exists kind, w, path, ps, version, files. split_and!; try done.
  - destruct H1 as [H1|[_ H1]]; auto.
  - destruct H2 as [H2|[_ H2]]; auto.
Qed.
Print Assumptions C252_success.

(** Configurations in other files make no difference. *)
Theorem C252_config (pv : str -> option (list nat)) (lexer : str -> list lexed) (parse : str -> option message)
    (exe : str) (h : host) (direct : command -> option proc_output) (argv : list str) (worlds : list surroundings)
    (config : surroundings -> str -> option (permissions * Z)) :
  env_var h (lit "CARGO_PKG_NAME") <> None ->
  (forall path w, env_var h (lit "CACKLE_CONFIG_PATH") = Some path -> w ∈ worlds -> wo_config w path = config w path) ->
  rustc_wrapper pv lexer parse exe h direct argv worlds
  = rustc_wrapper pv lexer parse exe h direct argv
      (map (fun w => Surroundings (config w) (wo_vars w) (wo_rustc w) (wo_read w) (wo_canonicalize w) (wo_answer w)) worlds).
Proof.
  intros Hn Hc. unfold rustc_wrapper. destruct (env_var h (lit "CARGO_PKG_NAME")) as [name|]; [|done].
  destruct (wrapper_sel pv h argv) as [sel|]; [|done]. f_equal. rewrite map_map. apply map_ext_in. intros w Hw.
  apply elem_of_list_In in Hw. unfold attempt_of. cbn [wo_vars wo_config wo_rustc wo_read wo_canonicalize wo_answer].
  destruct (env_var h (lit "CACKLE_CONFIG_PATH")) as [path|]; [|done]. by rewrite (Hc path w eq_refl Hw).
Qed.
Print Assumptions C252_config.

(** The package [evil] (see IdentityProps.v) may not use unsafe code: the compiler is told so and its use of it is
    reported. The package [good] may. *)
Definition wr_good : host := with_var id_given (lit "CARGO_PKG_NAME") (lit "good").

Example C252_ex :
  lexer_ok whole /\ started_for id_version id_given id_evil (lit "evil") /\ started_for id_version wr_good id_good (lit "evil") /\
  compiled_as (lit "evil") id_argv Primary /\
  (exists c places, fst (id_run id_given) = [Ran c; Asked (UsesUnsafe (CrateSel id_evil Primary) places)] /\
     cm_program c = lit "/opt/rustc" /\ mem_str (lit "-Funsafe-code") (cm_args c) = true) /\
  (exists c files out err,
     id_run wr_good = ([Ran c; Asked (RustcComplete (CrateSel id_good Primary) files)], Exits 0 out err) /\
     mem_str (lit "-Funsafe-code") (cm_args c) = false).
Proof.
  split; [exact whole_ok|].
  split; [split_and!; try (by vm_compute); [exists (lit "1.0.0"); by vm_compute|exists []; by vm_compute]|].
  split; [split_and!; try (by vm_compute); [exists (lit "1.0.0"); by vm_compute|exists []; by vm_compute]|].
  split; [apply as_primary; apply (bool_decide_unpack _); vm_compute; exact I|].
  split; [eexists _, _; split_and!; by vm_compute|]. eexists _, _, _, _. split; by vm_compute.
Qed.

Example C252_ex_kinds :
  compiled_as (lit "evil") [lit "cackle"; lit "rustc"; lit "--test"] TestCrate /\
  compiled_as (lit "build_script_build") id_argv BuildScript.
Proof.
  split; [apply as_test; right; right; left|apply as_build_script; apply (bool_decide_unpack _); vm_compute; exact I].
Qed.
