(** Starting cargo, the wrappers of rustc, the linker and the programs that are built, serving requests. *)
From Verif Require Import Base BaseFacts TextSpec Utf8Proofs TextModel TextFacts ConfigModel ProblemModel StoreModel DepsModel DepsSpec DepsProofs
  IndexModel IndexProofs IndexProps IoModel IoProofs LaunchModel LaunchSpec LaunchProofs.

(** ** C152: after linking *)

(** An executable that was linked is moved to a path of its own, which is reported; the script takes its place
    and all other files are left alone. *)
Theorem C152_executable (exe : str) (linker : list str -> gmap str str -> option (Z * gmap str str))
    (kind : crate_kind) (info : link_info) (args : list str) (files after : gmap str str) (program : str) :
  names_file (li_output info) -> is_utf8 exe -> is_utf8 (orig_bin_path (li_output info)) ->
  linker args files = Some (0%Z, after) -> li_shared info = false -> after !! li_output info = Some program ->
  exists (files' : gmap str str) (told : link_info),
    proxy_linker exe linker kind info args files = Some (0%Z, files', told) /\
    with_orig (li_output info) (li_output told) /\ li_output told <> li_output info /\
    files' !! li_output told = Some program /\
    is_Some (files' !! li_output info) /\
    (forall path, path <> li_output info -> path <> li_output told -> files' !! path = after !! path) /\
    li_objects told = li_objects info /\ li_shared told = false.
Proof.
  intros Hn U1%utf8_valid_spec U2%utf8_valid_spec Hl Hs Hp. pose proof (orig_bin_path_spec _ Hn) as Ho. pose proof (with_orig_ne _ _ Ho) as Hne.
  eexists _, _. split.
  { unfold proxy_linker, setup_bin_wrapper. rewrite Hl, Hs, Hp, U1, U2. reflexivity. }
  cbn [li_output li_objects li_shared]. split_and!; [done|done| | | |done|done].
  - rewrite lookup_insert_ne by done. by rewrite lookup_insert.
  - rewrite lookup_insert. by eexists.
  - intros path H1 H2. by rewrite !lookup_insert_ne.
Qed.
Print Assumptions C152_executable.

(** No two programs are moved to the same path. *)
Theorem C152_apart (a b new : str) : with_orig a new -> with_orig b new -> a = b.
Proof. apply with_orig_inj. Qed.
Print Assumptions C152_apart.

(** If the linker failed or made a library then nothing is moved, and the report is what the arguments say. *)
Theorem C152_other (exe : str) (linker : list str -> gmap str str -> option (Z * gmap str str))
    (kind : crate_kind) (info : link_info) (args : list str) (files after : gmap str str) (code : Z) :
  linker args files = Some (code, after) -> code <> 0%Z \/ li_shared info = true ->
  proxy_linker exe linker kind info args files = Some (code, after, info).
Proof.
  intros Hl H. unfold proxy_linker. rewrite Hl.
  destruct H as [H| ->]; [|by rewrite andb_false_r]. apply Z.eqb_neq in H. by rewrite H.
Qed.
Print Assumptions C152_other.

(** The exit code is that of the linker. *)
Theorem C152_code (exe : str) (linker : list str -> gmap str str -> option (Z * gmap str str))
    (kind : crate_kind) (info : link_info) (args : list str) (files files' : gmap str str) (code : Z) (told : link_info) :
  proxy_linker exe linker kind info args files = Some (code, files', told) ->
  exists after, linker args files = Some (code, after).
Proof.
  unfold proxy_linker. destruct (linker args files) as [[c after]|]; [|done]. intros H. exists after.
  destruct (Z.eqb c 0 && negb (li_shared info)); [destruct (setup_bin_wrapper exe kind info after) as [[? ?]|]|];
    (injection H as -> _ _ || done); done.
Qed.
Print Assumptions C152_code.

Definition lp_exe : str := lit "/opt/cargo-acl".
Definition lp_out : str := lit "/w/target/cackle/build/foo-1.2/prog.exe".
Definition lp_info : link_info := LinkInfo [lit "a.o"] lp_out false.
Definition lp_linker (args : list str) (files : gmap str str) : option (Z * gmap str str) :=
  Some (0%Z, <[lp_out := lit "ELF"]> files).

Example C152_ex :
  names_file lp_out /\ with_orig lp_out (lit "/w/target/cackle/build/foo-1.2/prog.orig.exe") /\
  match proxy_linker lp_exe lp_linker TestCrate lp_info [] ∅ with
  | Some (code, files, told) =>
      code = 0%Z /\ li_output told = lit "/w/target/cackle/build/foo-1.2/prog.orig.exe" /\
      files !! li_output told = Some (lit "ELF") /\
      files !! lp_out = Some (wrapper_script lp_exe (lit "test") (li_output told))
  | None => False
  end.
Proof.
  split; [|split].
  - intros dir name Hd Hn E.
    assert (E' : dir ++ name = lit "/w/target/cackle/build/foo-1.2/" ++ lit "prog.exe") by (rewrite <- E; by vm_compute).
    apply dir_name_unique in E' as [-> ->]; [|done| |done|].
    + split_and!; apply (bool_decide_unpack _); vm_compute; exact I.
    + right. by exists (lit "/w/target/cackle/build/foo-1.2").
    + apply (bool_decide_unpack _); vm_compute; exact I.
  - exists (lit "/w/target/cackle/build/foo-1.2/"), (lit "prog"). split; [right; by exists (lit "/w/target/cackle/build/foo-1.2")|].
    split; [done|]. split; [apply (bool_decide_unpack _); vm_compute; exact I|]. right. exists (lit "exe").
    split_and!; try (by vm_compute); apply (bool_decide_unpack _); vm_compute; exact I.
  - vm_compute. by split_and!.
Qed.

(** ** C153: running what was linked *)

(** The script is left where the program was. Whatever the arguments: if our program is there, the script
    hands over to it, and it stands in for the linked program, under the kind of crate for which it was
    linked; outside of a build it runs the linked program. If our program is not there (in a sandbox), the script runs
    the linked program. *)
Theorem C153_run {V : Type} (parse_version : str -> option V) (exe : str)
    (linker : list str -> gmap str str -> option (Z * gmap str str)) (kind : crate_kind) (info told : link_info)
    (args : list str) (files files' after : gmap str str) (script : str) :
  names_file (li_output info) -> quotable exe -> quotable (li_output info) ->
  linker args files = Some (0%Z, after) -> li_shared info = false ->
  proxy_linker exe linker kind info args files = Some (0%Z, files', told) ->
  files' !! li_output info = Some script ->
  forall (executable : str -> bool) (vars : str -> str) (given : list str),
    (executable exe = false -> run_script executable vars script given = Some (li_output told :: given)) /\
    (executable exe = true -> exists rest, run_script executable vars script given = Some (exe :: rest) /\
       (forall (env : str -> option str) (pkg : package_id V) (x : ascii) (s : str),
          env (lit "CACKLE_SOCKET_PATH") = Some (x :: s) ->
          id_from_env parse_version env = Some pkg -> kind_from_env env <> None ->
          main_role parse_version env (exe :: rest) = ProxyBinary pkg kind (li_output told) given) /\
       (forall env : str -> option str,
          env (lit "CACKLE_SOCKET_PATH") = None \/ env (lit "CACKLE_SOCKET_PATH") = Some [] ->
          main_role parse_version env (exe :: rest) = RunDirectly (li_output told) given)).
Proof.
  intros Hn Q1 Q2 Hl Hs Hp Hf executable vars given. pose proof (orig_bin_path_spec _ Hn) as Ho.
  pose proof (with_orig_quotable _ _ Ho Q2) as Q3. pose proof (with_orig_ne _ _ Ho) as Hne.
  unfold proxy_linker, setup_bin_wrapper in Hp. rewrite Hl, Hs in Hp. cbn [Z.eqb andb negb] in Hp.
  destruct (after !! li_output info) as [program|]; [|done].
  destruct (utf8_valid exe && utf8_valid (orig_bin_path (li_output info))); [|done].
  injection Hp as <- <-. rewrite lookup_insert in Hf. injection Hf as <-. cbn [li_output].
  rewrite run_script_spec by done. split; intros ->; [done|].
  eexists. split; [reflexivity|].
  assert (Eb : str_eqb (lit "proxy-bin") (lit "proxy-bin") = true) by by vm_compute.
  split.
  - intros env pkg x s H1 H2 H3. unfold main_role, wrapped_role. rewrite H1. cbn [default from_option id drop head].
    rewrite Eb, H2, token_round. by destruct (kind_from_env env).
  - intros env H. unfold main_role, wrapped_role.
    destruct H as [-> | ->]; cbn [default from_option id drop lookup list_lookup]; by rewrite Eb.
Qed.
Print Assumptions C153_run.

Example C153_ex :
  quotable lp_exe /\ quotable lp_out /\
  (exists files told, proxy_linker lp_exe lp_linker TestCrate lp_info [] ∅ = Some (0%Z, files, told) /\
     is_Some (files !! lp_out)) /\
  run_script (fun _ => true) (fun _ => []) (wrapper_script lp_exe (lit "test") (orig_bin_path lp_out)) [lit "a b"; lit "$x"] =
    Some [lp_exe; lit "proxy-bin"; lit "test"; lit "/w/target/cackle/build/foo-1.2/prog.orig.exe"; lit "a b"; lit "$x"].
Proof.
  assert (Q : forall s, Forall (fun c => ~ unquotable c) s -> quotable s).
  { intros s H c Hc. rewrite Forall_forall in H. by apply H. }
  split; [apply Q; unfold unquotable; apply (bool_decide_unpack _); vm_compute; exact I|].
  split; [apply Q; unfold unquotable; apply (bool_decide_unpack _); vm_compute; exact I|].
  split; [|by vm_compute].
  eexists _, _. split; [reflexivity|]. rewrite lookup_insert. by eexists.
Qed.

(** ** C154: whose place is taken *)

(** In a process that inherits the variables of the build: called as the wrapper of rustc, rustc is wrapped. *)
Theorem C154_rustc {V : Type} (parse_version : str -> option V) (dir tmpdir target_dir exe rustc names : str)
    (a : launch_args) (c : build_config) (env : str -> option str) (d : str) (rest : list str) :
  inherits (build_call dir tmpdir target_dir exe rustc names a c) env -> dir_part d ->
  env (lit "RUSTC_WRAPPER") = Some exe /\
  main_role parse_version env (exe :: (d ++ lit "rustc") :: rest) = ProxyRustc.
Proof.
  intros Hi Hd. split.
  { apply Hi. unfold build_call. cbn [cc_env]. apply elem_of_app. right. do 5 right. left. }
  destruct (socket_set _ _ _ _ _ _ _ _ _ Hi) as (x & s & Es).
  unfold main_role, wrapped_role. rewrite Es. cbn [default from_option id drop head].
  rewrite rustc_path by done.
  assert (E : str_eqb (d ++ lit "rustc") (lit "proxy-bin") = false).
  { apply bool_decide_eq_false. intros E. apply (f_equal last) in E. rewrite last_app_cons in E || idtac.
    change (lit "rustc") with (lit "rust" ++ ["c"%char]) in E. rewrite app_assoc, last_snoc in E. vm_compute in E. discriminate. }
  by rewrite E.
Qed.
Print Assumptions C154_rustc.

(** No process of the build takes itself for a call by the user, whatever its arguments. It does not run
    a program without the main process either. *)
Theorem C154_never_top {V : Type} (parse_version : str -> option V) (dir tmpdir target_dir exe rustc names : str)
    (a : launch_args) (c : build_config) (env : str -> option str) (argv : list str) :
  inherits (build_call dir tmpdir target_dir exe rustc names a c) env ->
  main_role parse_version env argv <> NoWrapper /\
  (forall bin args, main_role parse_version env argv <> RunDirectly bin args).
Proof.
  intros Hi. destruct (socket_set _ _ _ _ _ _ _ _ _ Hi) as (x & s & Es).
  unfold main_role, wrapped_role. rewrite Es. cbn [default from_option id].
  repeat match goal with
  | |- context [match ?e with _ => _ end] => lazymatch e with
      | context [match _ with _ => _ end] => fail | _ => destruct e end
  end; done.
Qed.
Print Assumptions C154_never_top.

(** Called as the linker by rustc, the linker is wrapped, under the package of the environment and the kind that the wrapper
    of rustc found (with the exception of C28 for tests of crates named like build scripts). *)
Theorem C154_linker {V : Type} (parse_version : str -> option V) (dir tmpdir target_dir exe rustc names : str)
    (a : launch_args) (c : build_config) (env : str -> option str) (rustc_args argv : list str)
    (k : crate_kind) (pkg : package_id V) (info : link_info) :
  inherits (build_call dir tmpdir target_dir exe rustc names a c) env ->
  (lit "--test" ∉ rustc_args \/ forall rest, env (lit "CARGO_CRATE_NAME") <> Some (lit "build_script_" ++ rest)) ->
  rustc_kind env rustc_args = Some k ->
  id_from_env parse_version env = Some pkg ->
  link_info_from_args argv = Some info ->
  (forall first, argv !! 1 = Some first -> first <> lit "proxy-bin" /\
    exists d name, first = d ++ name /\ dir_part d /\ "/"%char ∉ name /\
      name ∉ [[]; lit "."; lit ".."; lit "rustc"]) ->
  main_role parse_version (rustc_env env k) argv = ProxyLinker pkg k info (drop 1 argv).
Proof.
  intros Hi Hor Hk Hp Hl Hf. destruct (socket_set _ _ _ _ _ _ _ _ _ Hi) as (x & s & Es).
  pose proof (C28_linker_kind env rustc_args k Hor Hk) as Hkind.
  assert (Es' : rustc_env env k (lit "CACKLE_SOCKET_PATH") = Some (x :: s)).
  { unfold rustc_env. assert (E : str_eqb (lit "CACKLE_SOCKET_PATH") (lit "CACKLE_CRATE_KIND") = false) by by vm_compute.
    by rewrite E. }
  assert (Hp' : id_from_env parse_version (rustc_env env k) = Some pkg).
  { rewrite <- Hp. unfold id_from_env, rustc_env.
    assert (E1 : str_eqb (lit "CARGO_PKG_NAME") (lit "CACKLE_CRATE_KIND") = false) by by vm_compute.
    assert (E2 : str_eqb (lit "CARGO_PKG_VERSION") (lit "CACKLE_CRATE_KIND") = false) by by vm_compute.
    assert (E3 : str_eqb (lit "CACKLE_MULTIPLE_VERSION_PKG_NAMES") (lit "CACKLE_CRATE_KIND") = false) by by vm_compute.
    by rewrite E1, E2, E3. }
  unfold main_role, wrapped_role. rewrite Es'. cbn [default from_option id].
  rewrite Hp', Hkind, Hl.
  destruct argv as [|a0 [|first rest]]; cbn [drop head]; [by cbn [is_path_to_rustc]..|].
  destruct (Hf first eq_refl) as [H1 (dir' & name & -> & Hd & Hslash & Hname)].
  assert (H2 : is_path_to_rustc (Some (dir' ++ name)) = false).
  { rewrite !not_elem_of_cons in Hname. destruct Hname as (N1 & N2 & N3 & N4 & _).
    unfold is_path_to_rustc. rewrite file_name_plain by done.
    destruct (str_eqb name (lit "..")); [done|]. by apply bool_decide_eq_false. }
  assert (E : str_eqb (dir' ++ name) (lit "proxy-bin") = false) by (by apply bool_decide_eq_false).
  by rewrite E, H2.
Qed.
Print Assumptions C154_linker.

Definition lp_args : launch_args := LaunchArgs false None None (Some (lit "x86_64-unknown-linux-musl")) None [lit "a"; lit "b"].
Definition lp_config : build_config := BuildConfig (Some (lit "slow")) [lit "f"; lit "g"] (Some [lit "--lib"; lit "--tests"]).
Definition lp_call : cargo_call :=
  build_call (lit "/w") (lit "/tmp/c") (lit "/w/target") lp_exe (lit "/r/rustc") (lit "b,b") lp_args lp_config.

Definition lp_env : str -> option str := fun v =>
  if str_eqb v (lit "CARGO_PKG_NAME") then Some (lit "foo")
  else if str_eqb v (lit "CARGO_PKG_VERSION") then Some (lit "1.2.0")
  else if str_eqb v (lit "CARGO_CRATE_NAME") then Some (lit "build_script_build")
  else list_to_map (M := gmap str str) (cc_env lp_call) !! v.

Definition lp_link_args : list str := [lp_exe; lit "-m64"; lit "a.o"; lit "-o"; lit "prog"].

Example C154_ex :
  inherits lp_call lp_env /\
  main_role Some lp_env [lp_exe; lit "/r/bin/rustc"; lit "--crate-name"; lit "foo"] = ProxyRustc /\
  rustc_kind lp_env [lit "--crate-name"; lit "build_script_build"] = Some BuildScript /\
  main_role Some (rustc_env lp_env BuildScript) lp_link_args =
    match link_info_from_args lp_link_args with
    | Some info => ProxyLinker (lit "foo", lit "1.2.0", true) BuildScript info (drop 1 lp_link_args)
    | None => BadCall
    end /\
  link_info_from_args lp_link_args <> None /\
  main_role Some lp_env [lp_exe; lit "summary"] = BadCall.
Proof.
  split.
  { assert (X : Forall (fun p => lp_env p.1 = Some p.2) (cc_env lp_call))
      by (apply (bool_decide_unpack _); vm_compute; exact I).
    rewrite Forall_forall in X. intros name v Hin. exact (X (name, v) Hin). }
  split; [by vm_compute|]. split; [by vm_compute|]. split; [by vm_compute|]. split; [by vm_compute|]. by vm_compute.
Qed.

(** ** C155: how cargo is started *)

(** As long as none of the user's words is one of the options or two dashes, cargo gets exactly the profile,
    target, features and packages that were asked for. *)
Theorem C155_options (dir tmpdir target_dir exe rustc names : str) (a : launch_args) (c : build_config)
    (sub p f : str) (l : list str) :
  wanted_profile a c p -> wanted_features a c f -> wanted_words a c sub l ->
  harmless p -> harmless f -> (forall w, w ∈ l -> harmless w) ->
  (forall w, w ∈ la_packages a -> harmless w) -> (forall t, la_target a = Some t -> harmless t) ->
  let call := build_call dir tmpdir target_dir exe rustc names a c in
  option_values (lit "--profile") call = [p] /\
  option_values (lit "--target") call = option_list (la_target a) /\
  option_values (lit "--features") call = (if decide (f = []) then [] else [f]) /\
  option_values (lit "-p") call = la_packages a.
Proof.
  intros Hp Hf Hw H1 H2 H3 H4 H5. by apply (option_values_spec dir tmpdir target_dir exe rustc names a c sub p f l).
Qed.
Print Assumptions C155_options.

(** The sub-command is the one asked for, and its words follow in their order. *)
Theorem C155_words (dir tmpdir target_dir exe rustc names : str) (a : launch_args) (c : build_config)
    (sub p f : str) (l : list str) :
  wanted_profile a c p -> wanted_features a c f -> wanted_words a c sub l ->
  let call := build_call dir tmpdir target_dir exe rustc names a c in
  cc_dir call = dir /\ names_subcommand call sub /\ l `sublist_of` cc_args call.
Proof.
  intros Hp Hf Hw call. destruct (words_kept dir tmpdir target_dir exe rustc names a c sub p f l Hp Hf Hw) as [X Y].
  split_and!; [|done|done]. unfold call, build_call, cargo_command. by destruct (la_command a) as [[]|].
Qed.
Print Assumptions C155_words.

(** The variables: our program is the wrapper of rustc, processes find the socket, and the package that our own
    program may have been started for is forgotten. *)
Theorem C155_variables (dir tmpdir target_dir exe rustc names : str) (a : launch_args) (c : build_config) (p : str) :
  wanted_profile a c p ->
  let call := build_call dir tmpdir target_dir exe rustc names a c in
  call_variable call (lit "RUSTC_WRAPPER") (Some exe) /\
  call_variable call (lit "CACKLE_SOCKET_PATH") (Some (tmpdir ++ lit "/comms/cackle.socket")) /\
  call_variable call (lit "CACKLE_CONFIG_PATH") (Some (tmpdir ++ lit "/flattened_cackle.toml")) /\
  call_variable call (lit "CACKLE_BUILD_PROFILE") (Some p) /\
  call_variable call (lit "CACKLE_TARGET_DIR") (Some target_dir) /\
  call_variable call (lit "CARGO_BUILD_BUILD_DIR") (Some target_dir) /\
  call_variable call (lit "CACKLE_MANIFEST_DIR") (Some dir) /\
  call_variable call (lit "CACKLE_RUSTC_PATH") (Some rustc) /\
  call_variable call (lit "CACKLE_MULTIPLE_VERSION_PKG_NAMES") (Some names) /\
  call_variable call (lit "CARGO_PKG_NAME") None.
Proof.
  intros Hp call.
  assert (Ep : profile_name a c = p).
  { unfold profile_name. destruct Hp as [->|[[-> ->]|(-> & -> & ->)]]; done. }
  assert (Ec : cc_env call =
    [(lit "CARGO_BUILD_BUILD_DIR", target_dir); (lit "CACKLE_BUILD_PROFILE", p);
     (lit "CACKLE_SOCKET_PATH", tmpdir ++ lit "/comms/cackle.socket");
     (lit "CACKLE_CONFIG_PATH", tmpdir ++ lit "/flattened_cackle.toml");
     (lit "CACKLE_TARGET_DIR", target_dir); (lit "CACKLE_MANIFEST_DIR", dir); (lit "CACKLE_RUSTC_PATH", rustc);
     (lit "RUSTC_WRAPPER", exe); (lit "CACKLE_MULTIPLE_VERSION_PKG_NAMES", names)]).
  { unfold call, build_call, cargo_command. rewrite Ep. by destruct (la_command a) as [[]|]. }
  assert (Er : cc_removed call = [lit "CARGO_PKG_NAME"]) by reflexivity.
  assert (X : forall name v, (name, v) ∈ cc_env call -> NoDup (map fst (cc_env call)) -> name <> lit "CARGO_PKG_NAME" ->
    call_variable call name (Some v)).
  { intros name v Hin Hnd Hne. split; [done|]. split; [rewrite Er; by rewrite elem_of_list_singleton|].
    intros v' Hin'. apply elem_of_list_lookup in Hin as [i Hi]. apply elem_of_list_lookup in Hin' as [j Hj].
    assert (i = j) as <-.
    { eapply (NoDup_lookup (map fst (cc_env call))); [done| |].
      - change (map fst (cc_env call)) with (fst <$> cc_env call). by rewrite list_lookup_fmap, Hi.
      - change (map fst (cc_env call)) with (fst <$> cc_env call). by rewrite list_lookup_fmap, Hj. }
    rewrite Hi in Hj. by injection Hj. }
  assert (Hnd : NoDup (map fst (cc_env call))).
  { rewrite Ec. cbn [map fst]. apply (bool_decide_unpack _). vm_compute. exact I. }
  assert (Hne : forall name, bool_decide (name = lit "CARGO_PKG_NAME") = false -> name <> lit "CARGO_PKG_NAME")
    by (intros name; apply bool_decide_eq_false).
  assert (M : forall (x : str * str) (l : list (str * str)), x ∈ x :: l) by (intros; left).
  repeat match goal with |- _ /\ _ => split end;
    [apply X; [rewrite Ec; repeat (first [apply M | apply elem_of_list_further])|done|apply Hne; by vm_compute]..|].
  unfold call_variable. rewrite Er. left.
Qed.
Print Assumptions C155_variables.

(** Before a build the same profile is cleaned, in the same directory. *)
Theorem C155_clean (dir tmpdir target_dir exe rustc names : str) (a : launch_args) (c : build_config) (p : str) :
  la_command a = None -> wanted_profile a c p -> harmless p ->
  let call := clean_call dir target_dir a c in
  cc_dir call = dir /\ names_subcommand call (lit "clean") /\
  option_values (lit "--profile") call = [p] /\
  call_variable call (lit "CARGO_BUILD_BUILD_DIR") (Some target_dir).
Proof.
  intros Hc Hp Hh call.
  assert (Ep : profile_name a c = p).
  { unfold profile_name. destruct Hp as [->|[[-> ->]|(-> & -> & ->)]]; done. }
  assert (Ea : cc_args call = ((if la_colour a then [lit "--color=always"] else []) ++ [lit "clean"] ++ profile_settings) ++
     [lit "--profile"; p]).
  { unfold call, clean_call, cargo_command. rewrite Hc, Ep. cbn [cc_args]. by rewrite app_nil_r, <- !app_assoc. }
  assert (Hfront : forall name, name ∈ [lit "--"; lit "--profile"] ->
    name ∉ (if la_colour a then [lit "--color=always"] else []) ++ [lit "clean"] ++ profile_settings).
  { intros name Hn.
    assert (X : Forall (fun name => name ∉ [lit "--color=always"; lit "clean"] ++ profile_settings) [lit "--"; lit "--profile"])
      by (apply (bool_decide_unpack _); vm_compute; exact I).
    rewrite Forall_forall in X. specialize (X name Hn). intros Hin. apply X. destruct (la_colour a); [exact Hin|].
    right. exact Hin. }
  split_and!.
  - unfold call, clean_call, cargo_command. by rewrite Hc.
  - exists (if la_colour a then [lit "--color=always"] else []). eexists. split; [rewrite Ea, <- !app_assoc; reflexivity|].
    split; [done|]. intros w Hw. destruct (la_colour a); [|by apply elem_of_nil in Hw].
    by apply elem_of_list_singleton in Hw as ->.
  - unfold option_values. rewrite Ea, cargo_words_app by (apply Hfront; left).
    rewrite values_after_app by (apply Hfront; right; left). cbn [cargo_words].
    rewrite decide_False by (apply word_ne; by vm_compute).
    assert (H1 : p <> lit "--") by (intros ->; apply Hh; left).
    assert (H2 : p <> lit "--profile") by (intros ->; apply Hh; right; left).
    rewrite decide_False by done. change [lit "--profile"; p] with ([lit "--profile"; p] ++ []).
    by rewrite values_after_pair.
  - assert (Ee : cc_env call = [(lit "CARGO_BUILD_BUILD_DIR", target_dir); (lit "CACKLE_BUILD_PROFILE", profile_name a c)] /\
      cc_removed call = []).
    { unfold call, clean_call, cargo_command. by rewrite Hc. }
    destruct Ee as [Ee Er]. unfold call_variable. rewrite Ee, Er. split; [left|]. split; [apply not_elem_of_nil|].
    intros v' Hin. apply elem_of_cons in Hin as [Hin|Hin]; [by injection Hin|].
    apply elem_of_list_singleton in Hin. apply (f_equal fst) in Hin. cbn [fst] in Hin.
    exfalso. revert Hin. apply word_ne. by vm_compute.
Qed.
Print Assumptions C155_clean.

(** Cargo is given the settings of our profile: that of development with full debug information, without
    optimisation and incremental builds, and a setting outside of the profiles (see C222). It has further settings only
    if they are among the words of the user. *)
Theorem C155_settings (dir tmpdir target_dir exe rustc names : str) (a : launch_args) (c : build_config) :
  let ours := [lit "profile.cackle.inherits=" ++ [double_quote] ++ lit "dev" ++ [double_quote];
               lit "profile.cackle.opt-level=0"; lit "profile.cackle.debug=true";
               lit "profile.cackle.incremental=false";
               lit "split-debuginfo=" ++ [double_quote] ++ lit "off" ++ [double_quote]] in
  exists rest, settings (build_call dir tmpdir target_dir exe rustc names a c) = ours ++ rest /\
    (forall sub p f l, wanted_profile a c p -> wanted_features a c f -> wanted_words a c sub l ->
       lit "--config" ∉ p :: f :: l ++ la_packages a ++ option_list (la_target a) -> rest = []).
Proof.
  cbn zeta.
  assert (Hex : exists sub p f l, wanted_profile a c p /\ wanted_features a c f /\ wanted_words a c sub l).
  { unfold wanted_profile, wanted_features, wanted_words.
    destruct (la_command a) as [[|r|r|]|], (la_profile a), (bc_profile c), (la_features a), (bc_build_flags c);
      eexists _, _, _, _; split_and!; eauto. }
  destruct Hex as (sub & p & f & l & Hp & Hf & Hw).
  set (tail := [lit "--profile"; p] ++ (match la_command a with None => [] | Some _ => l end) ++ other_words a ++
    (match la_command a with None => l | Some _ => [] end) ++ target_words a ++ feature_words f).
  exists (values_after (lit "--config") (cargo_words tail)). split.
  - unfold settings, option_values. rewrite (build_args _ _ _ _ _ _ _ _ sub p f l) by done. fold tail.
    assert (Hs : sub ∈ [lit "build"; lit "test"; lit "run"]).
    { unfold wanted_words in Hw. destruct (la_command a) as [[|r|r|]|]; destruct Hw as [-> _];
        apply (bool_decide_unpack _); vm_compute; exact I. }
    assert (Hfront : lit "--" ∉ (if la_colour a then [lit "--color=always"] else []) ++ [sub] ++ profile_settings).
    { rewrite !elem_of_app. rewrite elem_of_list_singleton.
      assert (X1 : lit "--" ∉ [lit "--color=always"]) by (apply (bool_decide_unpack _); vm_compute; exact I).
      assert (X2 : lit "--" ∉ profile_settings) by (apply (bool_decide_unpack _); vm_compute; exact I).
      assert (X3 : lit "--" ∉ [lit "build"; lit "test"; lit "run"]) by (apply (bool_decide_unpack _); vm_compute; exact I).
      intros [H|[H|H]]; [|by rewrite <- H in Hs|done]. destruct (la_colour a); [done|by apply elem_of_nil in H]. }
    rewrite (app_assoc [sub]), (app_assoc (if la_colour a then _ else _)).
    rewrite cargo_words_app by done. rewrite <- (app_assoc (if la_colour a then _ else _)), <- (app_assoc [sub]).
    rewrite values_after_app.
    2:{ destruct (la_colour a); apply (bool_decide_unpack _); vm_compute; exact I. }
    rewrite values_after_app.
    2:{ intros Hc%elem_of_list_singleton. rewrite <- Hc in Hs. revert Hs. apply (bool_decide_unpack _). vm_compute. exact I. }
    unfold profile_settings. cbn [app].
    repeat (rewrite (values_after_cons (lit "--config")) by (apply (bool_decide_unpack _); vm_compute; exact I)).
    done.
  - intros sub' p' f' l' Hp' Hf' Hw' Hno.
    assert (p' = p) as ->.
    { unfold wanted_profile in *. destruct (la_profile a), (bc_profile c); naive_solver congruence. }
    assert (f' = f) as ->.
    { unfold wanted_features in *. destruct (la_features a); naive_solver congruence. }
    assert (l' = l) as ->.
    { unfold wanted_words in *. destruct (la_command a) as [[|r|r|]|], (bc_build_flags c); naive_solver congruence. }
    apply values_after_none. intros Hin%cargo_words_in.
    rewrite !not_elem_of_cons, !not_elem_of_app in Hno. destruct Hno as (N1 & N2 & N3 & N4 & N5).
    assert (Y : Forall (fun w => lit "--config" <> w) [lit "--profile"; lit "-p"; lit "--target"; lit "--features"])
      by (apply (bool_decide_unpack _); vm_compute; exact I).
    rewrite !Forall_cons in Y. destruct Y as (Y1 & Y2 & Y3 & Y4 & _).
    revert Hin. unfold tail. rewrite !elem_of_app. intros [H|[H|[H|[H|[H|H]]]]].
    + rewrite !elem_of_cons, elem_of_nil in H. naive_solver.
    + destruct (la_command a); [done|by apply elem_of_nil in H].
    + revert H. unfold other_words. by apply packages_not.
    + destruct (la_command a); [by apply elem_of_nil in H|done].
    + unfold target_words in H. destruct (la_target a) as [t|]; [|by apply elem_of_nil in H].
      rewrite !elem_of_cons, elem_of_nil in H. change (option_list (Some t)) with [t] in N5.
      rewrite elem_of_list_singleton in N5. naive_solver.
    + unfold feature_words in H. destruct (str_eqb f []); [by apply elem_of_nil in H|].
      rewrite !elem_of_cons, elem_of_nil in H. naive_solver.
Qed.
Print Assumptions C155_settings.

Example C155_ex :
  wanted_profile lp_args lp_config (lit "slow") /\ wanted_features lp_args lp_config (lit "f,g") /\
  wanted_words lp_args lp_config (lit "build") [lit "--lib"; lit "--tests"] /\
  harmless (lit "f,g") /\ harmless (lit "--lib") /\
  drop 11 (cc_args lp_call) =
    [lit "--profile"; lit "slow"; lit "-p"; lit "a"; lit "-p"; lit "b"; lit "--lib"; lit "--tests";
     lit "--target"; lit "x86_64-unknown-linux-musl"; lit "--features"; lit "f,g"].
Proof.
  split; [right; left; by split|]. split; [right; split; [done|by vm_compute]|]. split; [split; [done|by left]|].
  split; [unfold harmless; apply (bool_decide_unpack _); vm_compute; exact I|].
  split; [unfold harmless; apply (bool_decide_unpack _); vm_compute; exact I|]. by vm_compute.
Qed.

(** ** C156: how a build ends and what the processes are told *)

(** When cargo has exited and the loop notices, the build succeeds only if cargo did and no request
    has failed; a failed request takes precedence. *)
Theorem C156_result {R : Type} (l : list (happening R)) (status : option Z) :
  let s := server_run server_init l in
  sv_result s = None -> sv_pc s = AtWait -> sv_cargo s = Some status ->
  exists s' result, server_step s Loop = Some s' /\ sv_result s' = Some result /\
    (result = BuildOk <-> status = Some 0%Z /\ forall h, h ∈ sv_handlers s -> ~ failed (snd h)) /\
    (result = RequestFailed <-> exists h, h ∈ sv_handlers s /\ failed (snd h)) /\
    (result = CargoFailed <-> status <> Some 0%Z /\ forall h, h ∈ sv_handlers s -> ~ failed (snd h)).
Proof.
  intros s Hr Hp Hc. pose proof (server_inv l) as I. pose proof (inv_errors l s I Hr) as He.
  pose proof (no_failure (sv_handlers s)) as Hn. rewrite <- He in Hn.
  cbn [server_step]. unfold loop_step. rewrite Hr, Hp, Hc. eexists _, _. split; [reflexivity|].
  cbn [sv_result]. split; [reflexivity|].
  destruct (sv_errors s) as [|n] eqn:En.
  - assert (Hno : forall h, h ∈ sv_handlers s -> ~ failed (snd h)) by (by apply Hn).
    assert (Hex : ~ exists h, h ∈ sv_handlers s /\ failed (snd h)) by (intros (h & H1 & H2); by apply (Hno h)).
    destruct (bool_decide_reflect (status = Some 0%Z)) as [->|Hs]; split_and!; split; try done; intros [? ?]; done.
  - assert (Hyes : exists h, h ∈ sv_handlers s /\ failed (snd h)).
    { destruct (List.filter failure (sv_handlers s)) as [|h fs] eqn:Ef; [done|].
      assert (Hin : In h (List.filter failure (sv_handlers s))) by (rewrite Ef; by left).
      apply filter_In in Hin as [H1 H2]. exists h. split; [by apply elem_of_list_In|].
      unfold failure in H2. destruct (snd h) as [| | | |r ok] eqn:Es; try done. exists r, ok. split; [done|].
      destruct ok; [|by right]. destruct r; [done|by left]. }
    destruct Hyes as (h & H1 & H2).
    split_and!; split; try done; try (intros [_ H]; by destruct (H h H1)). intros _. by exists h.
Qed.
Print Assumptions C156_result.

(** A process is told to continue only if its request was decided so, and to give up only if it was not; then cargo
    has been killed or is about to be. *)
Theorem C156_told {R : Type} (l : list (happening R)) (i : nat) (r : R) (st : stage) :
  let s := server_run server_init l in
  sv_handlers s !! i = Some (r, st) ->
  (told st = Some Continue -> decided l i (Some Continue)) /\
  (told st = Some GiveUp ->
     (decided l i (Some GiveUp) \/ decided l i None) /\ (sv_killed s = true \/ 0 < sv_abort s)).
Proof.
  intros s Hi. pose proof (server_inv l) as I.
  pose proof (inv_decided l s I i r st) as H1. pose proof (inv_signalled l s I i r st) as H2.
  destruct st as [|q|q|q ok|q ok]; cbn [told]; try (split; done); destruct ok; try (split; done);
    cbn [result_of signalled] in H1, H2; specialize (H1 q Hi eq_refl); specialize (H2 q Hi eq_refl);
    (split; intros [= E]; [destruct q as [[]|]; done|split; [destruct q as [[]|]; [done|by left|by right]|by apply H2]]).
Qed.
Print Assumptions C156_told.

(** Cargo is killed only if the user or the result of a request asked for it. *)
Theorem C156_killed {R : Type} (l : list (happening R)) :
  sv_killed (server_run server_init l) = true ->
  UserAborts ∈ l \/ exists i, decided l i (Some GiveUp) \/ decided l i None.
Proof.
  intros H. destruct (inv_killed l _ (server_inv l) (or_introl H)) as [X|(i & r & X & Y)]; [by left|].
  right. exists i. destruct r as [[]|]; [done|by left|by right].
Qed.
Print Assumptions C156_killed.

(** ** C157: no request is lost *)

(** Requests are served in the order of the connections, each once; until the loop ends, those that
    are not yet served are waiting. *)
Theorem C157_order {R : Type} (l : list (happening R)) :
  let s := server_run server_init l in
  map fst (sv_handlers s) `prefix_of` requests l /\
  (sv_result s = None ->
   requests l = map fst (sv_handlers s) ++
     omap (fun m => match m with Sends r => Some r | _ => None end) (sv_queue s)).
Proof.
  intros s. destruct (inv_requests l s (server_inv l)) as (rest & E & H). split.
  - rewrite E, <- app_assoc. by eexists.
  - intros Hn. by rewrite E, (H Hn), app_nil_r.
Qed.
Print Assumptions C157_order.

(** Unless a client that sends nothing comes first, three steps of the loop are enough to notice that cargo has exited,
    to kill it (or to end) after a request for this, and to start with the next request. *)
Theorem C157_progress {R : Type} (s : server R) :
  sv_result s = None -> head (sv_queue s) <> Some Silent ->
  let s' := server_run s [Loop; Loop; Loop] in
  (sv_cargo s <> None -> sv_result s' <> None) /\
  (sv_cargo s = None -> 0 < sv_abort s -> sv_killed s' = true \/ sv_result s' <> None) /\
  (forall r queue, sv_cargo s = None -> sv_queue s = Sends r :: queue -> r ∈ map fst (sv_handlers s')).
Proof.
  destruct s as [pc cargo killed queue abort errors handlers result]. cbn [sv_result sv_queue sv_cargo sv_abort].
  intros -> Hq. split; [|split].
  - intros Hc. destruct cargo as [status|]; [|done].
    destruct pc, queue as [|[r| |] queue]; done.
  - intros -> Ha. destruct abort as [|n]; [lia|].
    destruct pc, queue as [|[r| |] queue], killed; try done; try (by left); by right.
  - intros r queue' -> ->.
    assert (X : r ∈ map fst (handlers ++ [(r, Working)])) by (rewrite map_app; apply elem_of_app; right; left).
    destruct pc; exact X.
Qed.
Print Assumptions C157_progress.

Example C156_ex :
  let l := [Connects (Sends 7); Connects (Sends 8); Loop; Loop; Loop; Handler 0 (Some Continue) true; Loop; Loop; Loop;
            Handler 1 (Some GiveUp) true; Handler 1 None true; Handler 0 None true; Handler 0 None true;
            Handler 1 None true; Loop; Loop; Loop; CargoExits None] in
  let s := server_run server_init l in
  sv_handlers s = [(7, Written (Some Continue) true); (8, Written (Some GiveUp) true)] /\
  sv_killed s = true /\ sv_result s = None /\ sv_pc s = AtWait /\ sv_cargo s = Some None /\
  sv_result (server_run s [Loop]) = Some CargoFailed /\ requests l = [7; 8].
Proof. by vm_compute. Qed.

(** ** What does not hold *)

(** C158. In the script the paths stand between double quotes: with a dollar sign in the path of a program another program is run. *)
Theorem C158_refuted :
  exists (files files' : gmap str str) (told : link_info) (script : str) (vars : str -> str),
    let info := LinkInfo [] (lit "/w/cash$HOME/prog") false in
    names_file (li_output info) /\
    proxy_linker lp_exe (fun _ files => Some (0%Z, files)) TestCrate info [] files = Some (0%Z, files', told) /\
    files' !! li_output info = Some script /\ li_output told = lit "/w/cash$HOME/prog.orig" /\
    run_script (fun _ => true) vars script [] =
      Some [lp_exe; lit "proxy-bin"; lit "test"; lit "/w/cash/root/prog.orig"].
Proof.
  exists {[ lit "/w/cash$HOME/prog" := lit "ELF" ]}. eexists _, _, _, (fun _ => lit "/root"). cbn zeta.
  split; [|split; [by vm_compute|split; [by vm_compute|split; by vm_compute]]].
  intros dir name Hd Hn E. cbn [li_output] in E.
  assert (E' : dir ++ name = lit "/w/cash$HOME/" ++ lit "prog") by (rewrite <- E; by vm_compute).
  apply dir_name_unique in E' as [-> ->]; [|done| |done|].
  + split_and!; apply (bool_decide_unpack _); vm_compute; exact I.
  + right. by exists (lit "/w/cash$HOME").
  + apply (bool_decide_unpack _); vm_compute; exact I.
Qed.
Print Assumptions C158_refuted.

(** C159. Features, target and packages come after the words of [test] and [run]. If these contain two dashes, cargo hands them to the program. *)
Theorem C159_refuted :
  exists (a : launch_args) (c : build_config) (f : str),
    wanted_features a c f /\ f <> [] /\
    la_command a = Some (CmdTest [lit "some_test"; lit "--"; lit "--nocapture"]) /\ la_packages a = [lit "b"] /\
    la_target a = Some (lit "x86_64-unknown-linux-musl") /\
    let call := build_call (lit "/w") (lit "/tmp/c") (lit "/w/target") lp_exe (lit "rustc") [] a c in
    option_values (lit "--features") call = [] /\ option_values (lit "-p") call = [] /\
    option_values (lit "--target") call = [] /\
    drop 13 (cc_args call) = [lit "some_test"; lit "--"; lit "--nocapture"; lit "-p"; lit "b"; lit "--target";
      lit "x86_64-unknown-linux-musl"; lit "--features"; lit "f"].
Proof.
  exists (LaunchArgs false (Some (CmdTest [lit "some_test"; lit "--"; lit "--nocapture"])) None
    (Some (lit "x86_64-unknown-linux-musl")) None [lit "b"]), (BuildConfig None [lit "f"] None), (lit "f").
  split; [right; split; [done|by vm_compute]|]. by vm_compute.
Qed.
Print Assumptions C159_refuted.

(** C160. A build for a target is not cleaned: the target is not given to [cargo clean]. *)
Theorem C160_refuted :
  exists (a : launch_args) (c : build_config),
    la_command a = None /\
    let build := build_call (lit "/w") (lit "/tmp/c") (lit "/w/target") lp_exe (lit "rustc") [] a c in
    let clean := clean_call (lit "/w") (lit "/w/target") a c in
    option_values (lit "--target") build = [lit "x86_64-unknown-linux-musl"] /\
    option_values (lit "--target") clean = [].
Proof. exists lp_args, lp_config. by vm_compute. Qed.
Print Assumptions C160_refuted.

(** C161. A request ends with an error and its process is told to give up, but the build counts as a success: the answer is
    written before the error is passed on, and cargo may exit in between (the answer to a report
    of the linker is ignored by the process that gets it). *)
Theorem C161_refuted :
  exists (l : list (happening nat)),
    let s := server_run server_init l in
    decided l 0 None /\ sv_result s = Some BuildOk /\
    exists r st, sv_handlers s !! 0 = Some (r, st) /\ told st = Some GiveUp /\ failed st.
Proof.
  exists [Connects (Sends 7); Loop; Loop; Loop; Handler 0 None true; Handler 0 None true; Handler 0 None true;
          CargoExits (Some 0%Z); Loop; Handler 0 None true]. cbn zeta.
  split.
  { exists [Connects (Sends 7); Loop; Loop; Loop].
    exists [Handler 0 None true; Handler 0 None true; CargoExits (Some 0%Z); Loop; Handler 0 None true], 7, true.
    by split. }
  split; [by vm_compute|]. exists 7, (Done None true). split; [by vm_compute|]. split; [done|]. exists None, true.
  split; [done|by left].
Qed.
Print Assumptions C161_refuted.

(** C162. After something that is not a request the main process ends with an error, and leaves cargo running. *)
Theorem C162_refuted :
  exists (l : list (happening nat)),
    let s := server_run server_init l in
    sv_result s = Some BadRequest /\ sv_killed s = false /\ sv_cargo s = None.
Proof. exists [Connects Malformed; Loop; Loop; Loop]. by vm_compute. Qed.
Print Assumptions C162_refuted.

(** C163. A client that connects and sends nothing stops the loop: whatever happens then, cargo is not killed when
    the user aborts, and the end of cargo is not noticed. *)
Theorem C163_refuted :
  exists (l : list (happening nat)),
    let s := server_run server_init l in
    stuck s /\
    forall (later : list (happening nat)),
      sv_killed (server_run s later) = false /\ sv_result (server_run s later) = None.
Proof.
  exists [Connects Silent; Loop; Loop]. cbn zeta. split; [split; [done|by eexists]|].
  assert (X : forall (later : list (happening nat)) s,
    sv_pc s = AtAccept -> head (sv_queue s) = Some Silent -> sv_killed s = false -> sv_result s = None ->
    sv_killed (server_run s later) = false /\ sv_result (server_run s later) = None).
  { induction later as [|h later IH]; intros s H1 H2 H3 H4; [by split|].
    change (server_run s (h :: later)) with (server_run (default s (server_step s h)) later).
    destruct s as [pc cargo killed queue abort errors handlers result]. cbn in H1, H2, H3, H4. subst.
    destruct queue as [|m queue]; [done|]. cbn in H2. injection H2 as ->.
    apply IH; destruct h as [|m|st| |i resp ok]; try done; cbn [server_step sv_cargo sv_handlers sv_result];
      try (by destruct cargo); destruct (handlers !! i) as [[q st]|]; try done;
      by destruct (handler_step resp ok st) as [[[? ?] ?]|]. }
  intros later. by apply X.
Qed.
Print Assumptions C163_refuted.

(** C164. A program is wrapped under the package of the process that runs it, not that for which it was linked: the script has
    only the kind. *)
Theorem C164_refuted :
  exists (argv : list str) (env1 env2 : str -> option str) (pkg1 pkg2 : package_id str),
    run_script (fun _ => true) (fun _ => []) (wrapper_script lp_exe (lit "build-script") (orig_bin_path lp_out)) [] = Some argv /\
    pkg1 <> pkg2 /\
    main_role Some env1 argv = ProxyBinary pkg1 BuildScript (orig_bin_path lp_out) [] /\
    main_role Some env2 argv = ProxyBinary pkg2 BuildScript (orig_bin_path lp_out) [].
Proof.
  exists [lp_exe; lit "proxy-bin"; lit "build-script"; orig_bin_path lp_out], lp_env,
    (fun v => if str_eqb v (lit "CARGO_PKG_NAME") then Some (lit "bar") else lp_env v),
    (lit "foo", lit "1.2.0", true), (lit "bar", lit "1.2.0", true).
  split; [by vm_compute|]. split; [done|]. split; by vm_compute.
Qed.
Print Assumptions C164_refuted.
