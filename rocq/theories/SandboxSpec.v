(** What bwrap does with its arguments, and what a sandbox should show. *)
From Verif Require Import Base TextSpec TextModel ConfigModel SandboxModel.

(** ** Paths *)

(** The components of an absolute path. *)
Definition components (p : str) : list str :=
  filter (fun c => c <> [] /\ c <> lit ".") (split_char "/"%char p).

(** [p] is [dir] or below it. *)
Definition within (dir p : list str) : Prop := exists rest, p = dir ++ rest.

(** ** bwrap

    Arguments are read from left to right. A mount hides what earlier mounts show below its
    place. Sources of mounts are places of the host. Only the options that occur here are known;
    anything else, and a read-only mount of something missing, is refused. Paths are absolute and
    no component is a symbolic link. *)

Inductive content := FromHost (source : list str) (writable : bool) | Empty | Devices | Processes.

Record world := World {
  w_env : gmap str str;
  (** Place and content, the last mount first. *)
  w_mounts : list (list str * content);
  w_net : bool
}.

Definition mount (place : list str) (c : content) (w : world) : world :=
  World (w_env w) ((place, c) :: w_mounts w) (w_net w).

Fixpoint bwrap (present : list str -> bool) (args : list str) (w : world) : option (world * list str) :=
  match args with
  | [] => None
  | opt :: args =>
      if bool_decide (opt = lit "--") then Some (w, args)
      else if bool_decide (opt = lit "--unshare-all") then
        bwrap present args (World (w_env w) (w_mounts w) false)
      else if bool_decide (opt = lit "--share-net") then
        bwrap present args (World (w_env w) (w_mounts w) true)
      else if bool_decide (opt = lit "--new-session") then bwrap present args w
      else if bool_decide (opt = lit "--clearenv") then bwrap present args (World ∅ (w_mounts w) (w_net w))
      else match args with
      | [] => None
      | a :: args =>
          if bool_decide (opt ∈ [lit "--uid"; lit "--gid"; lit "--hostname"]) then bwrap present args w
          else if bool_decide (opt = lit "--tmpfs") then bwrap present args (mount (components a) Empty w)
          else if bool_decide (opt = lit "--dev") then bwrap present args (mount (components a) Devices w)
          else if bool_decide (opt = lit "--proc") then bwrap present args (mount (components a) Processes w)
          else if bool_decide (opt = lit "--unsetenv") then
            bwrap present args (World (delete a (w_env w)) (w_mounts w) (w_net w))
          else match args with
          | [] => None
          | b :: args =>
              if bool_decide (opt = lit "--setenv") then
                bwrap present args (World (<[a := b]> (w_env w)) (w_mounts w) (w_net w))
              else if bool_decide (opt = lit "--ro-bind") then
                if present (components a) then
                  bwrap present args (mount (components b) (FromHost (components a) false) w)
                else None
              else if bool_decide (opt = lit "--bind-try") then
                bwrap present args
                  (if present (components a) then mount (components b) (FromHost (components a) true) w else w)
              else None
          end
      end
  end.

(** The world outside: the environment of the caller, nothing mounted, the network there. *)
Definition outside (env : list (str * str)) : world := World (list_to_map env) [] true.

(** ** What a path shows *)

Inductive shows :=
| HostFile (p : list str) (writable : bool)   (* the file of the host at that place *)
| Private                                       (* something of the sandbox alone *).

Fixpoint find_mount (p : list str) (ms : list (list str * content)) : option (list str * content) :=
  match ms with
  | [] => None
  | (place, c) :: ms => if bool_decide (place `prefix_of` p) then Some (place, c) else find_mount p ms
  end.

Definition look (w : world) (p : list str) : shows :=
  match find_mount p (w_mounts w) with
  | Some (place, FromHost source writable) => HostFile (source ++ drop (length place) p) writable
  | _ => Private
  end.

(** ** Environment *)

(** The variables that cargo sets for build scripts, by the documentation of cackle's sandbox:
    those beginning with [CARGO], [RUSTC] or [DEP_], and six more, without [RUSTC_WRAPPER]. *)
Definition cargo_variable (name : str) : Prop :=
  name <> lit "RUSTC_WRAPPER" /\
  ((exists rest, name = lit "CARGO" ++ rest \/ name = lit "RUSTC" ++ rest \/ name = lit "DEP_" ++ rest) \/
   name ∈ [lit "TARGET"; lit "OPT_LEVEL"; lit "PROFILE"; lit "HOST"; lit "NUM_JOBS"; lit "DEBUG"]).

(** The variables that are passed by name. *)
Definition passed_by_name (config : sandbox_config) (name : str) : Prop :=
  name ∈ [lit "PATH"; lit "HOME"; lit "LD_LIBRARY_PATH"; lit "OUT_DIR"] \/ name ∈ sb_pass_env config.

(** [value] is the value of [name] outside, and may be passed. *)
Definition may_pass (config : sandbox_config) (env : list (str * str)) (more : list str) (name value : str) : Prop :=
  (name, value) ∈ env /\
  ((passed_by_name config name \/ name ∈ more) /\ is_utf8 value \/
   cargo_variable name /\ is_utf8 name).

(** A text value of the environment. *)
Definition has_value (env : list (str * str)) (name value : str) : Prop :=
  (name, value) ∈ env /\ is_utf8 value.

(** ** Granted places *)

(** The directories of the home directory that every sandbox can read. *)
Definition cargo_places (home : list str) : list (list str) :=
  [home ++ [lit ".cargo"; lit "bin"]; home ++ [lit ".cargo"; lit "git"];
   home ++ [lit ".cargo"; lit "registry"]; home ++ [lit ".rustup"]].

Definition writable_places (config : sandbox_config) : list (list str) :=
  map components (sb_bind_writable config) ++ map components (sb_make_writable config).

(** Where the host's files are hidden. *)
Definition hidden (config : sandbox_config) (home p : list str) : Prop :=
  within home p \/ within [lit "var"] p \/ within [lit "tmp"] p \/
  (sb_allow_network config <> Some true /\ within [lit "run"] p).

(** The system directories of the sandbox. *)
Definition system (p : list str) : Prop := within [lit "dev"] p \/ within [lit "proc"] p.

(** The directory of a program, without [deps] at its end. *)
Definition program_place (bin dir : list str) : Prop :=
  exists parent name, bin = parent ++ [name] /\
    ((exists up, parent = up ++ [lit "deps"] /\ dir = up) \/
     (last parent <> Some (lit "deps") /\ dir = parent)).

(** The program gets what the host says about its files. *)
Definition host_ok (h : host) (present : list str -> bool) : Prop :=
  present [] = true /\
  (forall p, h_exists h p = present (components p)) /\
  (forall p, h_create h p = true -> present (components p) = true) /\
  NoDup (h_env h).*1.

(** No component is a dot. *)
Definition dotless (p : str) : Prop := lit "." ∉ split_char "/"%char p.

(** ** The arguments of rustc *)

(** An argument that names a directory for output: [--out-dir] with its value, or the value of
    [-C incremental=]. *)
Inductive out_arg := OutDir (dir : str) | Incremental (dir : str) | OtherArg (a : str).

Definition out_arg_texts (a : out_arg) : list str :=
  match a with
  | OutDir dir => [lit "--out-dir"; dir]
  | Incremental dir => [lit "incremental=" ++ dir]
  | OtherArg a => [a]
  end.

Definition proper_out_arg (a : out_arg) : Prop :=
  forall t, a = OtherArg t -> t <> lit "--out-dir" /\ ~ exists d, t = lit "incremental=" ++ d.

Definition names_dir (a : out_arg) (dir : str) : Prop := a = OutDir dir \/ a = Incremental dir.

(** The directories that rustc may write to. *)
Definition rustc_out (env : list (str * str)) (args : list out_arg) (dir : list str) : Prop :=
  (exists target, has_value env (lit "CACKLE_TARGET_DIR") target /\ dir = components target) \/
  (exists a d, a ∈ args /\ names_dir a d /\ dir = components d) \/
  (exists socket name, has_value env (lit "CACKLE_SOCKET_PATH") socket /\ components socket = dir ++ [name]).

(** The variables that rustc gets besides those of the configuration: cackle's own, and those set
    by the build script. *)
Definition rustc_names (by_build_script : list str) : list str :=
  [lit "CACKLE_SOCKET_PATH"; lit "CACKLE_CONFIG_PATH"; lit "CACKLE_MULTIPLE_VERSION_PKG_NAMES"] ++ by_build_script.

(** The value of a variable in a sandbox, by the rules: what the command itself sets, otherwise
    what may be passed, otherwise the fixed user. *)
Definition variable (config : sandbox_config) (env : list (str * str)) (more : list str)
    (own : list (str * option str)) (name value : str) : Prop :=
  (name, Some value) ∈ own \/
  name ∉ own.*1 /\
  (may_pass config env more name value \/
   name = lit "USER" /\ value = lit "user" /\ forall v, ~ may_pass config env more name v).

(** [w] is what bwrap shows to a command. *)
Definition runs_in (h : host) (present : list str -> bool) (args : list str) (own : list (str * option str))
    (program : str) (cmd_args : list str) (w : world) : Prop :=
  bwrap present (bwrap_args args own program cmd_args) (outside (h_env h)) = Some (w, program :: cmd_args).
