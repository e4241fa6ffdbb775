(** Source files of a crate and inputs of the linker.
    Source: /repo/src/deps.rs, /repo/src/link_info.rs. *)
From Verif Require Import Base TextModel.

(** [unescape_makefile_path] (deps.rs:38-55). It works on characters; as a backslash is a
    single byte the bytes are the same. *)
Fixpoint unescape (s : str) : str :=
  match s with
  | [] => []
  | c :: s1 =>
      if Ascii.eqb c "\"%char then
        match s1 with
        | d :: s2 => d :: unescape s2
        | [] => [c]
        end
      else c :: unescape s1
  end.

(** [parse_deps] (deps.rs:26-36), which never fails. *)
Definition parse_deps (text : str) : list str :=
  omap (fun line => match strip_suffix_char ":"%char line with
                    | Some filename => Some (unescape filename)
                    | None => None
                    end) (str_lines text).

(** [str::contains]. *)
Fixpoint contains (needle s : str) : bool :=
  starts_with needle s || match s with [] => false | _ :: s => contains needle s end.

(** [Path::join] on texts. *)
Definition path_join (base rest : str) : str :=
  match rest with
  | "/"%char :: _ => rest
  | _ => match last base with
         | None => rest
         | Some "/"%char => base ++ rest
         | Some _ => base ++ lit "/" ++ rest
         end
  end.

(** The results of [deps_path_from_rustc_args]: an error, no file, a file. *)
Inductive deps_path := DepsError | DepsNone | DepsPath (p : str).

(** [deps_path_from_rustc_args] (deps.rs:57-92). *)
Fixpoint deps_args (args : list str) (crate : option str) (extra : str) (out_dir : option str)
    (emit : bool) : deps_path :=
  match args with
  | [] =>
      if emit then
        match crate, out_dir with
        | Some crate, Some out_dir => DepsPath (path_join out_dir (crate ++ extra ++ lit ".d"))
        | _, _ => DepsError
        end
      else DepsNone
  | arg :: args =>
      if str_eqb arg (lit "-C") then
        match args with
        | [] => DepsError
        | arg :: args =>
            match strip_prefix (lit "extra-filename=") arg with
            | Some rest => deps_args args crate rest out_dir emit
            | None => deps_args args crate extra out_dir emit
            end
        end
      else if str_eqb arg (lit "--out-dir") then
        match args with
        | [] => DepsError
        | arg :: args => deps_args args crate extra (Some arg) emit
        end
      else if str_eqb arg (lit "--crate-name") then
        match args with
        | [] => DepsError
        | arg :: args => deps_args args (Some arg) extra out_dir emit
        end
      else if starts_with (lit "--emit=") arg then
        deps_args args crate extra out_dir (contains (lit "dep-info") arg)
      else deps_args args crate extra out_dir emit
  end.

Definition deps_path_from_args (args : list str) : deps_path := deps_args args None [] None false.

(** [source_files_from_rustc_args] (deps.rs:12-24): [None] is an error. Reading a file and
    resolving a path are given. *)
Definition source_files (read : str -> option str) (canonicalize : str -> option str)
    (args : list str) : option (list str) :=
  match deps_path_from_args args with
  | DepsError => None
  | DepsNone => Some []
  | DepsPath p =>
      match read p with
      | Some text => Some (omap canonicalize (parse_deps text))
      | None => None
      end
  end.

(** ** The linker *)

(** The last component of a path ([Path::file_name]); none if it is [..] or there is no
    component. Components are separated by slashes; empty ones and [.] do not count. *)
Definition file_name (path : str) : option str :=
  match last (filter (fun c => c <> [] /\ c <> lit ".") (split_char "/"%char path)) with
  | Some c => if str_eqb c (lit "..") then None else Some c
  | None => None
  end.

(** What follows the last dot, unless the dot is the first character ([Path::extension]). *)
Fixpoint after_last_dot (s : str) : option str :=
  match s with
  | [] => None
  | c :: s1 =>
      match after_last_dot s1 with
      | Some e => Some e
      | None => if Ascii.eqb c "."%char then Some s1 else None
      end
  end.

Definition extension (path : str) : option str :=
  match file_name path with
  | Some (_ :: f) => after_last_dot f
  | _ => None
  end.

(** [has_supported_extension] (link_info.rs:66-71). *)
Definition has_supported_extension (path : str) : bool :=
  match extension path with
  | Some e => mem_str e [lit "rlib"; lit "o"]
  | None => false
  end.

(** [get_output_file] (link_info.rs:50-60); [None] is the error. *)
Fixpoint get_output_file (args : list str) : option str :=
  match args with
  | [] => None
  | arg :: args1 =>
      if str_eqb arg (lit "-o") then
        match args1 with
        | output :: _ => Some output
        | [] => None
        end
      else get_output_file args1
  end.

(** [LinkInfo] without the selector (link_info.rs:12-17). *)
Record link_info := LinkInfo {
  li_objects : list str;
  li_output : str;
  li_shared : bool
}.

(** [LinkInfo::from_env] (link_info.rs:20-33) and [get_is_shared] (62-64). *)
Definition link_info_from_args (args : list str) : option link_info :=
  match get_output_file args with
  | Some output =>
      Some (LinkInfo (filter (fun p => has_supported_extension p = true) (drop 1 args)) output
              (mem_str (lit "-shared") args))
  | None => None
  end.

(** [Path::components]: the root, or a dot at the start, is a component; other dots and empty components are
    not. Two dots are. *)
Definition components (path : str) : list str :=
  match split_char "/"%char path with
  | c :: cs =>
      (match path with
       | [] => []
       | _ => match c with [] => [lit "/"] | _ => [c] end
       end) ++ filter (fun c => c <> [] /\ c <> lit ".") cs
  | [] => []
  end.

(** [Path::starts_with]: the components of [dir] are the first components of [path]. *)
Definition path_starts_with (dir path : str) : bool :=
  bool_decide (components dir `prefix_of` components path).

(** [object_paths_under] (link_info.rs:36-42). *)
Definition object_paths_under (canonicalize : str -> option str) (li : link_info) (dir : str)
    : list str :=
  filter (fun p => path_starts_with dir p = true) (omap canonicalize (li_objects li)).
