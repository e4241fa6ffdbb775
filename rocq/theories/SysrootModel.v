(** The places of a backtrace, with the standard library's sources where they are installed.
    Source: /repo/src/location.rs:35-46, /repo/src/symbol_graph/backtrace.rs:71-95. *)
From Verif Require Import Base DepsModel CollectModel BacktraceModel.

(** [SourceLocation::with_sysroot] (location.rs:35-46). Paths are texts; [PathBuf::extend] pushes one component after
    the other. *)
Definition with_sysroot (sysroot : str) (l : src_loc) : src_loc :=
  if path_starts_with (lit "/rustc/") (sl_file l) then
    SrcLoc (foldl path_join (path_join sysroot (lit "lib/rustlib/src/rust")) (drop 3 (components (sl_file l))))
      (sl_line l) (sl_column l)
  else l.

(** A frame that [addr2line] finds: the name of the function, already demangled, and the place. *)
Notation raw_frame := (option str * option frame_loc)%type.

(** backtrace.rs:76-84 *)
Definition frame_of (sysroot : str) (f : raw_frame) : str * option src_loc :=
  (default (lit "??") f.1,
   match f.2 with
   | Some l => match from_frame l with Some s => Some (with_sysroot sysroot s) | None => None end
   | None => None
   end).

(** [backtrace] (backtrace.rs:49-98) with what [addr2line] finds at the addresses; [None] is an error. *)
Definition placed_backtrace (sysroot : str) (found : nat -> option (list raw_frame)) (calls : list (bin_loc * nat))
    (query : bin_loc) : option (list frame) :=
  backtrace (fun a => match found a with Some fs => Some (map (frame_of sysroot) fs) | None => None end) calls query.
