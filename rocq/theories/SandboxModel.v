(** The command line of the sandbox.
    Source: /repo/src/sandbox.rs, /repo/src/sandbox/bubblewrap.rs. *)
From Verif Require Import Base TextModel ConfigModel DepsModel.

(** What is asked of the system: the environment ([std::env::vars_os], one entry for each name),
    whether a path exists and is a directory, and whether a directory could be created. *)
Record host := Host {
  h_env : list (str * str);
  h_exists : str -> bool;
  h_is_dir : str -> bool;
  h_create : str -> bool
}.

(** [std::env::var]: values that are not UTF-8 are errors. *)
Definition env_var (h : host) (name : str) : option str :=
  match find (fun e => str_eqb e.1 name) (h_env h) with
  | Some e => if utf8_valid e.2 then Some e.2 else None
  | None => None
  end.

(** [tmpfs], [ro_bind], [writable_bind], [set_env], [allow_network]
    (bubblewrap.rs:52-80). The sandbox is its list of arguments. *)
Definition sb_tmpfs (dir : str) (args : list str) : list str := args ++ [lit "--tmpfs"; dir].
Definition sb_ro_bind (h : host) (dir : str) (args : list str) : list str :=
  if h_exists h dir then args ++ [lit "--ro-bind"; dir; dir] else args.
Definition sb_writable_bind (dir : str) (args : list str) : list str :=
  args ++ [lit "--bind-try"; dir; dir].
Definition sb_set_env (var value : str) (args : list str) : list str :=
  args ++ [lit "--setenv"; var; value].
Definition sb_share_net (args : list str) : list str := args ++ [lit "--share-net"].

(** [pass_env] (sandbox.rs:40-44). *)
Definition sb_pass (h : host) (name : str) (args : list str) : list str :=
  match env_var h name with
  | Some value => sb_set_env name value args
  | None => args
  end.

(** [is_cargo_env] (sandbox.rs:295-311). *)
Definition is_cargo_env (var : str) : bool :=
  if str_eqb var (lit "RUSTC_WRAPPER") then false
  else existsb (fun prefix => starts_with prefix var) [lit "CARGO"; lit "RUSTC"; lit "DEP_"]
       || mem_str var [lit "TARGET"; lit "OPT_LEVEL"; lit "PROFILE"; lit "HOST"; lit "NUM_JOBS"; lit "DEBUG"].

(** [pass_cargo_env] (sandbox.rs:47-54). *)
Definition sb_pass_cargo (h : host) (args : list str) : list str :=
  fold_left (fun args e => if utf8_valid e.1 && is_cargo_env e.1 then sb_set_env e.1 e.2 args else args)
    (h_env h) (sb_pass h (lit "OUT_DIR") args).

(** The loop over [bind_writable] (sandbox.rs:98-112); [None] is an error. *)
Fixpoint bind_dirs (h : host) (dirs : list str) (args : list str) : option (list str) :=
  match dirs with
  | [] => Some args
  | dir :: dirs =>
      if negb (h_exists h dir) then None
      else if negb (h_is_dir h dir) then None
      else bind_dirs h dirs (sb_writable_bind dir args)
  end.

(** The loop over [make_writable] (sandbox.rs:113-117). *)
Fixpoint make_dirs (h : host) (dirs : list str) (args : list str) : option (list str) :=
  match dirs with
  | [] => Some args
  | dir :: dirs => if h_create h dir then make_dirs h dirs (sb_writable_bind dir args) else None
  end.

(** [from_config] (sandbox.rs:61-131). The outer [None] is an error, the inner one no sandbox. *)
Definition from_config (h : host) (config : sandbox_config) : option (option (list str)) :=
  match sb_kind config with
  | None | Some Disabled => Some None
  | Some Bubblewrap =>
      match env_var h (lit "HOME") with
      | None => None
      | Some home =>
          let args := sb_ro_bind h (lit "/") [] in
          let args := sb_tmpfs home args in
          let args := sb_tmpfs (lit "/var") args in
          let args := sb_tmpfs (lit "/tmp") args in
          let cargo_home := path_join home (lit ".cargo") in
          let args := sb_ro_bind h (path_join cargo_home (lit "bin")) args in
          let args := sb_ro_bind h (path_join cargo_home (lit "git")) args in
          let args := sb_ro_bind h (path_join cargo_home (lit "registry")) args in
          let args := sb_ro_bind h (path_join home (lit ".rustup")) args in
          let args := sb_set_env (lit "USER") (lit "user") args in
          let args := sb_pass h (lit "PATH") args in
          let args := sb_pass h (lit "HOME") args in
          let args := fold_left (fun args v => sb_pass h v args) (sb_pass_env config) args in
          match env_var h (lit "CARGO_MANIFEST_DIR") with
          | None => None
          | Some manifest_dir =>
              let args := sb_ro_bind h manifest_dir args in
              let args := sb_pass h (lit "LD_LIBRARY_PATH") args in
              let args := sb_pass_cargo h args in
              match bind_dirs h (sb_bind_writable config) args with
              | None => None
              | Some args =>
                  match make_dirs h (sb_make_writable config) args with
                  | None => None
                  | Some args =>
                      let args := args ++ sb_extra_args config in
                      Some (Some (if default false (sb_allow_network config) then sb_share_net args
                                  else sb_tmpfs (lit "/run") args))
                  end
              end
          end
      end
  end.

(** [Path::parent] on texts without dot components: slashes at the end do not count. *)
Fixpoint drop_slashes (rev : str) : str :=
  match rev with
  | [] => []
  | c :: rest => if Ascii.eqb c "/"%char then drop_slashes rest else rev
  end.

Fixpoint drop_name (rev : str) : str :=
  match rev with
  | [] => []
  | c :: rest => if Ascii.eqb c "/"%char then rev else drop_name rest
  end.

Definition path_parent (p : str) : option str :=
  match drop_slashes (reverse p) with
  | [] => None
  | rev =>
      match drop_name rev with
      | [] => Some []
      | rev => match drop_slashes rev with
               | [] => Some (lit "/")
               | rev => Some (reverse rev)
               end
      end
  end.

(** The components of an absolute path ([Path::components]), [Path::file_name] and
    [Path::starts_with]. *)
Definition path_parts (p : str) : list str :=
  filter (fun c => c <> [] /\ c <> lit ".") (split_char "/"%char p).

Definition path_name (p : str) : option str := last (path_parts p).

Definition path_below (dir p : str) : bool := bool_decide (path_parts dir `prefix_of` path_parts p).

(** [build_directory] (sandbox.rs:285-293). *)
Definition build_directory (executable : str) : option str :=
  match path_parent executable with
  | None => None
  | Some parent =>
      if bool_decide (path_name parent = Some (lit "deps")) then
        match path_parent parent with
        | Some grandparent => Some grandparent
        | None => Some parent
        end
      else Some parent
  end.

(** [for_perm_sel] (sandbox.rs:198-220). *)
Definition for_perm_sel (h : host) (config : sandbox_config) (bin_path : str)
    : option (option (list str)) :=
  match from_config h config with
  | None => None
  | Some None => Some None
  | Some (Some args) =>
      let args := match build_directory bin_path with
                  | Some dir => sb_ro_bind h dir args
                  | None => args
                  end in
      Some (Some (match env_var h (lit "OUT_DIR") with
                  | Some out_dir => sb_writable_bind out_dir args
                  | None => args
                  end))
  end.

(** [RustcSandboxInputs] (sandbox.rs:135-141). *)
Record rustc_inputs := RustcInputs {
  ri_out : list str;
  ri_in : list str;
  ri_vars : list str
}.

(** The loop over the arguments (sandbox.rs:151-161). *)
Fixpoint out_dirs (args : list str) (next_is_out : bool) : list str :=
  match args with
  | [] => []
  | arg :: args =>
      if next_is_out then arg :: out_dirs args false
      else match strip_prefix (lit "incremental=") arg with
           | Some rest => rest :: out_dirs args (str_eqb arg (lit "--out-dir"))
           | None => out_dirs args (str_eqb arg (lit "--out-dir"))
           end
  end.

(** [RustcSandboxInputs::from_env] (sandbox.rs:144-173). [read_vars] is [read_env_vars] for a
    target directory and a profile. *)
Definition rustc_inputs_from_env (h : host) (args : list str) (read_vars : str -> str -> list str)
    : option rustc_inputs :=
  match env_var h (lit "CACKLE_TARGET_DIR"), env_var h (lit "CACKLE_BUILD_PROFILE"),
        env_var h (lit "CACKLE_MANIFEST_DIR") with
  | Some target_dir, Some profile, Some manifest_dir =>
      let out := out_dirs args false in
      let out := match env_var h (lit "CACKLE_SOCKET_PATH") with
                 | Some socket => match path_parent socket with
                                  | Some dir => out ++ [dir]
                                  | None => out
                                  end
                 | None => out
                 end in
      let out := filter (fun d => path_below target_dir d = false) out in
      Some (RustcInputs (out ++ [target_dir]) [manifest_dir] (read_vars target_dir profile))
  | _, _, _ => None
  end.

(** [RUSTC_ENV_VARS] (proxy.rs:60-64). *)
Definition rustc_env_vars : list str :=
  [lit "CACKLE_SOCKET_PATH"; lit "CACKLE_CONFIG_PATH"; lit "CACKLE_MULTIPLE_VERSION_PKG_NAMES"].

(** [for_rustc] (sandbox.rs:176-196) and the binding of cackle itself
    (proxy/subprocess.rs:261-264). *)
Definition for_rustc (h : host) (config : sandbox_config) (inputs : rustc_inputs) (exe : str)
    : option (option (list str)) :=
  match from_config h config with
  | None => None
  | Some None => Some None
  | Some (Some args) =>
      let args := fold_left (fun args dir => sb_ro_bind h dir args) (ri_in inputs) args in
      let args := fold_left (fun args dir => sb_writable_bind dir args) (ri_out inputs) args in
      let args := fold_left (fun args v => sb_pass h v args) rustc_env_vars args in
      let args := fold_left (fun args v => sb_pass h v args) (ri_vars inputs) args in
      Some (Some (sb_ro_bind h exe args))
  end.

(** [Bubblewrap::command] (bubblewrap.rs:20-44): the arguments of bwrap for a command with its
    own variables (set or removed). *)
Definition bwrap_args (args : list str) (envs : list (str * option str)) (program : str) (cmd_args : list str)
    : list str :=
  [lit "--unshare-all"; lit "--uid"; lit "1000"; lit "--gid"; lit "1000"; lit "--hostname"; lit "none";
   lit "--new-session"; lit "--clearenv"] ++ args ++
  [lit "--dev"; lit "/dev"; lit "--proc"; lit "/proc"] ++
  concat (map (fun e : str * option str => match e.2 with
                     | Some value => [lit "--setenv"; e.1; value]
                     | None => [lit "--unsetenv"; e.1]
                     end) envs) ++
  [lit "--"; program] ++ cmd_args.
