(** Starting cargo, the programs that stand in for rustc, the linker and the programs that are built,
    and the loop that serves their requests.
    Source: /repo/src/proxy/cargo.rs, /repo/src/proxy.rs, /repo/src/proxy/subprocess.rs, /repo/src/main.rs. *)
From Verif Require Import Base TextModel ConfigModel ProblemModel StoreModel DepsModel IndexModel IoModel.

(** ** The command line of cargo *)

(** The sub-commands (main.rs:183-196), with the arguments that are passed on. *)
Inductive subcommand :=
| CmdSummary
| CmdTest (remaining : list str)
| CmdRun (remaining : list str)
| CmdProxyBin.

(** The fields of [Args] (main.rs:84-181) that are used for starting cargo. [la_colour] is the result of
    [should_use_colour]. *)
Record launch_args := LaunchArgs {
  la_colour : bool;
  la_command : option subcommand;
  la_profile : option str;
  la_target : option str;
  la_features : option str;
  la_packages : list str }.

(** The fields of [CommonConfig] that are used for starting cargo. *)
Record build_config := BuildConfig {
  bc_profile : option str;
  bc_features : list str;
  bc_build_flags : option (list str) }.

(** A call of cargo: directory, arguments, variables set and removed. *)
Record cargo_call := CargoCall {
  cc_dir : str;
  cc_args : list str;
  cc_env : list (str * str);
  cc_removed : list str }.

(** [profile_name] (cargo.rs:19-24). *)
Definition profile_name (a : launch_args) (c : build_config) : str :=
  match la_profile a with
  | Some p => p
  | None => default (lit "cackle") (bc_profile c)
  end.

Definition quote : str := ["034"%char].

(** cargo.rs:55-76. *)
Definition profile_settings : list str :=
  [lit "--config"; lit "profile.cackle.inherits=" ++ quote ++ lit "dev" ++ quote;
   lit "--config"; lit "profile.cackle.opt-level=0";
   lit "--config"; lit "profile.cackle.debug=true";
   lit "--config"; lit "profile.cackle.incremental=false";
   lit "--config"; lit "split-debuginfo=" ++ quote ++ lit "off" ++ quote].

(** [command] (cargo.rs:26-83). *)
Definition cargo_command (base dir target_dir : str) (a : launch_args) (c : build_config) : cargo_call :=
  let '(sub, extra) :=
    match la_command a with
    | Some (CmdTest remaining) => (lit "test", remaining)
    | Some (CmdRun remaining) => (lit "run", remaining)
    | _ => (base, [])
    end in
  CargoCall dir
    ((if la_colour a then [lit "--color=always"] else []) ++ [sub] ++ profile_settings ++
     [lit "--profile"; profile_name a c] ++ extra)
    [(lit "CARGO_BUILD_BUILD_DIR", target_dir); (lit "CACKLE_BUILD_PROFILE", profile_name a c)] [].

(** [clean] (proxy.rs:81-96). *)
Definition clean_call (dir target_dir : str) (a : launch_args) (c : build_config) : cargo_call :=
  cargo_command (lit "clean") dir target_dir a c.

(** The first part of [invoke_cargo_build] (proxy.rs:115-173). [exe] is our own program, [names] the
    value of [add_internal_env] (crate_index.rs), [rustc] the result of [rustup_rustc_path]. *)
Definition build_call (dir tmpdir target_dir exe rustc names : str) (a : launch_args) (c : build_config)
    : cargo_call :=
  let call := cargo_command (lit "build") dir target_dir a c in
  let packages := concat (map (fun p => [lit "-p"; p]) (la_packages a)) in
  let flags := match la_command a with
               | None => default [lit "--all-targets"] (bc_build_flags c)
               | Some _ => []
               end in
  let target := match la_target a with Some t => [lit "--target"; t] | None => [] end in
  let features := match la_features a with Some f => f | None => join (lit ",") (bc_features c) end in
  CargoCall (cc_dir call)
    (cc_args call ++ packages ++ flags ++ target ++
     (if str_eqb features [] then [] else [lit "--features"; features]))
    (cc_env call ++
     [(lit "CACKLE_SOCKET_PATH", tmpdir ++ lit "/comms/cackle.socket");
      (lit "CACKLE_CONFIG_PATH", tmpdir ++ lit "/flattened_cackle.toml");
      (lit "CACKLE_TARGET_DIR", target_dir);
      (lit "CACKLE_MANIFEST_DIR", dir);
      (lit "CACKLE_RUSTC_PATH", rustc);
      (lit "RUSTC_WRAPPER", exe);
      (lit "CACKLE_MULTIPLE_VERSION_PKG_NAMES", names)])
    [lit "CARGO_PKG_NAME"].

(** ** In whose place the program was started *)

(** [is_path_to_rustc] (subprocess.rs:79-82). *)
Definition is_path_to_rustc (arg : option str) : bool :=
  match arg with
  | Some arg => match file_name arg with Some name => str_eqb name (lit "rustc") | None => false end
  | None => false
  end.

Section roles.
  Context {V : Type} (parse_version : str -> option V).

  Inductive role :=
  | NoWrapper
  | ProxyBinary (pkg : package_id V) (kind : crate_kind) (bin : str) (args : list str)
  | ProxyRustc
  | ProxyLinker (pkg : package_id V) (kind : crate_kind) (info : link_info) (args : list str)
  | RunDirectly (bin : str) (args : list str)
  | BadCall.

  (** [handle_wrapped_binaries] (subprocess.rs:45-77). The selector of a program that was built has the
      kind of the token, but [from_env] (62) fails if the kind in the environment is none. *)
  Definition wrapped_role (env : str -> option str) (argv : list str) : role :=
    match default [] (env (lit "CACKLE_SOCKET_PATH")) with
    | [] => NoWrapper
    | _ =>
        let args := drop 1 argv in
        if match head args with Some a => str_eqb a (lit "proxy-bin") | None => false end then
          match drop 1 args with
          | token :: bin :: rest =>
              match id_from_env parse_version env, kind_from_env env, from_token token with
              | Some pkg, Some _, Some kind => ProxyBinary pkg kind bin rest
              | _, _, _ => BadCall
              end
          | _ => BadCall
          end
        else if is_path_to_rustc (head args) then ProxyRustc
        else
          match id_from_env parse_version env, kind_from_env env, link_info_from_args argv with
          | Some pkg, Some kind, Some info => ProxyLinker pkg kind info args
          | _, _, _ => BadCall
          end
    end.

  (** [main] until the arguments are parsed (main.rs:204-215), [invoke_wrapped_binary] (610-620). *)
  Definition main_role (env : str -> option str) (argv : list str) : role :=
    match wrapped_role env argv with
    | NoWrapper =>
        match argv !! 1 with
        | Some a =>
            if str_eqb a (lit "proxy-bin") then
              match drop 3 argv with
              | bin :: rest => RunDirectly bin rest
              | [] => BadCall
              end
            else NoWrapper
        | None => NoWrapper
        end
    | r => r
    end.
End roles.
Arguments role V : clear implicits.

(** ** Programs that were built *)

(** [orig_bin_path] (subprocess.rs:126-137). *)
Definition orig_bin_path (path : str) : str :=
  match extension path with
  | Some e => with_extension path (lit "orig." ++ e)
  | None => with_extension path (lit "orig")
  end.

Definition newline : str := ["010"%char].

(** The script of subprocess.rs:112-119. *)
Definition wrapper_script (exe token bin : str) : str :=
  lit "#!/bin/bash" ++ newline ++
  lit "if [ -x " ++ quote ++ exe ++ quote ++ lit " ]; then" ++ newline ++
  quote ++ exe ++ quote ++ lit " proxy-bin " ++ token ++ lit " " ++ quote ++ bin ++ quote ++ lit " " ++
    quote ++ lit "$@" ++ quote ++ lit " " ++ newline ++
  lit "else" ++ newline ++
  quote ++ bin ++ quote ++ lit " " ++ quote ++ lit "$@" ++ quote ++ newline ++
  lit "fi" ++ newline.

(** [setup_bin_wrapper] (subprocess.rs:86-123) on files given by their contents; [None] is an error. *)
Definition setup_bin_wrapper (exe : str) (kind : crate_kind) (info : link_info) (files : gmap str str)
    : option (link_info * gmap str str) :=
  let bin := li_output info in
  let new := orig_bin_path bin in
  match files !! bin with
  | None => None
  | Some program =>
      let files := <[new := program]> files in
      if utf8_valid exe && utf8_valid new then
        Some (LinkInfo (li_objects info) new (li_shared info),
              <[bin := wrapper_script exe (to_token kind) new]> files)
      else None
  end.

(** [proxy_linker] (subprocess.rs:389-404): the exit code, the files and what the main process is told.
    [linker] is the real linker: exit code and files afterwards. *)
Definition proxy_linker (exe : str) (linker : list str -> gmap str str -> option (Z * gmap str str))
    (kind : crate_kind) (info : link_info) (args : list str) (files : gmap str str)
    : option (Z * gmap str str * link_info) :=
  match linker args files with
  | None => None
  | Some (code, files) =>
      if Z.eqb code 0 && negb (li_shared info) then
        match setup_bin_wrapper exe kind info files with
        | Some (info, files) => Some (code, files, info)
        | None => None
        end
      else Some (code, files, info)
  end.

(** ** Serving requests *)

Section server.
  Context {R : Type}.

  (** What a connection sends: a request, something else, nothing at all. *)
  Inductive message := Sends (r : R) | Malformed | Silent.

  (** [process_request] (proxy.rs:299-314) and the thread around it (224-232), one step at a time. The
      result of [handle_request] is [None] for an error. *)
  Inductive stage :=
  | Working
  | Decided (response : option outcome)
  | Signalled (response : option outcome)
  | Written (response : option outcome) (ok : bool)
  | Done (response : option outcome) (ok : bool).

  Inductive server_result := BuildOk | RequestFailed | CargoFailed | BadRequest.

  Inductive server_pc := AtWait | AtAbort | AtAccept.

  (** [sv_cargo] is the status of cargo after it has exited. Of the channels only the number of messages
      matters. *)
  Record server := Server {
    sv_pc : server_pc;
    sv_cargo : option (option Z);
    sv_killed : bool;
    sv_queue : list message;
    sv_abort : nat;
    sv_errors : nat;
    sv_handlers : list (R * stage);
    sv_result : option server_result }.

  Definition server_init : server := Server AtWait None false [] 0 0 [] None.

  (** proxy.rs:305: an error counts as giving up. *)
  Definition answer_of (response : option outcome) : outcome := default GiveUp response.

  (** The next step of the loop (proxy.rs:198-237); [None] if it waits or has returned. *)
  Definition loop_step (s : server) : option server :=
    match sv_result s with
    | Some _ => None
    | None =>
        match sv_pc s with
        | AtWait =>
            match sv_cargo s with
            | Some status =>
                let r := match sv_errors s with
                         | 0 => if bool_decide (status = Some 0%Z) then BuildOk else CargoFailed
                         | S _ => RequestFailed
                         end in
                Some (Server AtWait (sv_cargo s) (sv_killed s) (sv_queue s) (sv_abort s) (pred (sv_errors s))
                        (sv_handlers s) (Some r))
            | None =>
                Some (Server AtAbort (sv_cargo s) (sv_killed s) (sv_queue s) (sv_abort s) (sv_errors s)
                        (sv_handlers s) None)
            end
        | AtAbort =>
            Some (Server AtAccept (sv_cargo s) (sv_killed s || Nat.ltb 0 (sv_abort s)) (sv_queue s)
                    (pred (sv_abort s)) (sv_errors s) (sv_handlers s) None)
        | AtAccept =>
            match sv_queue s with
            | [] => Some (Server AtWait (sv_cargo s) (sv_killed s) [] (sv_abort s) (sv_errors s)
                            (sv_handlers s) None)
            | Sends r :: queue =>
                Some (Server AtWait (sv_cargo s) (sv_killed s) queue (sv_abort s) (sv_errors s)
                        (sv_handlers s ++ [(r, Working)]) None)
            | Malformed :: queue =>
                Some (Server AtWait (sv_cargo s) (sv_killed s) queue (sv_abort s) (sv_errors s)
                        (sv_handlers s) (Some BadRequest))
            | Silent :: _ => None
            end
        end
    end.

  (** The steps of a thread that serves a request: [response] is the result of [handle_request], [ok]
      says whether the answer could be written. *)
  Definition handler_step (response : option outcome) (ok : bool) (st : stage) : option (stage * nat * nat) :=
    match st with
    | Working => Some (Decided response, 0, 0)
    | Decided r => Some (Signalled r, match answer_of r with GiveUp => 1 | Continue => 0 end, 0)
    | Signalled r => Some (Written r ok, 0, 0)
    | Written r ok =>
        let error := negb ok || match r with None => true | Some _ => false end in
        Some (Done r ok, 0, if error then 1 else 0)
    | Done _ _ => None
    end.

  Inductive happening :=
  | Loop                                        (* the loop takes a step *)
  | Connects (m : message)                      (* somebody connects to the socket *)
  | CargoExits (status : option Z)
  | UserAborts                                  (* a message of the interface *)
  | Handler (i : nat) (response : option outcome) (ok : bool).

  (** [None] if it cannot happen. *)
  Definition server_step (s : server) (h : happening) : option server :=
    match h with
    | Loop => loop_step s
    | Connects m =>
        match sv_result s with
        | None => Some (Server (sv_pc s) (sv_cargo s) (sv_killed s) (sv_queue s ++ [m]) (sv_abort s) (sv_errors s)
                          (sv_handlers s) None)
        | Some _ => None
        end
    | CargoExits status =>
        match sv_cargo s with
        | None => Some (Server (sv_pc s) (Some status) (sv_killed s) (sv_queue s) (sv_abort s) (sv_errors s)
                          (sv_handlers s) (sv_result s))
        | Some _ => None
        end
    | UserAborts =>
        Some (Server (sv_pc s) (sv_cargo s) (sv_killed s) (sv_queue s) (S (sv_abort s)) (sv_errors s)
                (sv_handlers s) (sv_result s))
    | Handler i response ok =>
        match sv_handlers s !! i with
        | Some (r, st) =>
            match handler_step response ok st with
            | Some (st', aborts, errors) =>
                Some (Server (sv_pc s) (sv_cargo s) (sv_killed s) (sv_queue s) (aborts + sv_abort s)
                        (errors + sv_errors s) (<[i := (r, st')]> (sv_handlers s)) (sv_result s))
            | None => None
            end
        | None => None
        end
    end.

  (** Everything that happens; what cannot happen is left out. *)
  Definition server_run (s : server) (l : list happening) : server :=
    fold_left (fun s h => default s (server_step s h)) l s.
End server.
Arguments message R : clear implicits.
Arguments server R : clear implicits.
Arguments happening R : clear implicits.
