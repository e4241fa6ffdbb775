(** From a call of the linker to the references that are judged.
    Sources: /repo/src/symbol_graph.rs:131-284, 822-833, /repo/src/symbol_graph/object_file_path.rs,
    /repo/src/main.rs:259-263, /repo/src/link_info.rs. *)
From Verif Require Import Base NamesModel CheckerModel DepsModel GraphModel CollectModel.

(** The directory in which cargo builds (main.rs:259-263). [root] is resolved; the variable
    [CARGO_TARGET_DIR] is not. *)
Definition target_dir (root : str) (variable : option str) : str :=
  DepsModel.path_join root (default (lit "target") variable).

(** What [Archive::next_entry] of the crate ar gives: a header that cannot be read, or an entry with its name
    ([None] if that is not UTF-8) and what reading it to the end gives ([None] for an error). *)
Inductive entry := BadHeader | Entry (name : option str) (bytes : option str).

(** A file that can be opened: what reading it as an archive gives, and what reading all of it gives. *)
Record opened := Opened { fo_entries : list entry; fo_bytes : option str }.

(** [Filetype::from_filename] (symbol_graph.rs:823-832). *)
Definition is_archive (path : str) : bool :=
  match extension path with
  | None => false
  | Some e => str_eqb e (lit "rlib") || str_eqb e (lit ".a")
  end.

(** A linked binary: its symbols with their addresses, its debug information (symbols, inlined functions), and
    what addr2line finds in it. *)
Record binary := Binary {
  bi_symbols : list (str * nat);
  bi_debug : list (str * sym_debug);
  bi_inlined : list inlined;
  bi_frames : nat -> option (option str * option frame_loc) }.

Section scan.
  (** Files, and [object::File::parse]. *)
  Context (open : str -> option opened) (parse : str -> option obj_file).

  (** One entry of an archive (symbol_graph.rs:264-273). [process] stands for [process_object_file_bytes]. *)
  Definition process_entry (process : obj_file -> option (list reference)) (e : entry) : option (list reference) :=
    match e with
    | BadHeader => Some []
    | Entry name bytes => b ← bytes; _ ← name; o ← parse b; process o
    end.

  (** [process_file] (symbol_graph.rs:254-284); [None] is an error. *)
  Definition process_file (process : obj_file -> option (list reference)) (path : str) : option (list reference) :=
    f ← open path;
    if is_archive path then flat_mapM (process_entry process) (fo_entries f)
    else b ← fo_bytes f; o ← parse b; process o.

  (** [scan_objects] (symbol_graph.rs:131-239) up to the processing of single references, which is
      [collect_usages], called with the paths of checker.rs:301-305. *)
  Definition read_link (read_binary : str -> option binary) (canonicalize : str -> option str) (target : str)
      (li : DepsModel.link_info) : option facts :=
    b ← read_binary (li_output li);
    addresses ← load_symbols (bi_symbols b) ∅;
    rs ← flat_mapM (process_file (object_references addresses (list_to_map (bi_debug b)) (bi_frames b)))
           (object_paths_under canonicalize li target);
    Some (Facts (bi_debug b) (map inlined_reference (bi_inlined b) ++ rs)).
End scan.
