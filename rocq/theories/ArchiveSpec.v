(** What belongs to a linked program. *)
From Verif Require Import Base GraphModel CollectModel DepsModel DepsSpec ArchiveModel.

(** The file name ends in a dot and [ext], and something stands before that. *)
Definition has_extension (path ext : str) : Prop :=
  exists dir stem, path = dir ++ stem ++ lit "." ++ ext /\ (dir = [] \/ exists d, dir = d ++ lit "/") /\
    stem <> [] /\ "/"%char ∉ stem.

Section holds.
  Context (open : str -> option opened).

  (** The file [path] consists of or contains an object with these bytes: it is a Rust library and the object is
      an entry of it, or it is an object file. *)
  Definition holds (path bytes : str) : Prop :=
    exists f, open path = Some f /\
      ((has_extension path (lit "rlib") /\ exists name, Entry name (Some bytes) ∈ fo_entries f) \/
       (has_extension path (lit "o") /\ fo_bytes f = Some bytes)).

  (** The file or a part of it cannot be read. *)
  Definition unreadable (path : str) : Prop :=
    open path = None \/
    exists f, open path = Some f /\
      ((has_extension path (lit "rlib") /\
        exists e, e ∈ fo_entries f /\ ((exists name, e = Entry name None) \/ (exists bytes, e = Entry None bytes))) \/
       (has_extension path (lit "o") /\ fo_bytes f = None)).

  (** The linker is given this object from the target directory. *)
  Definition linked_from (canonicalize : str -> option str) (target : str) (args : list str) (bytes : str) : Prop :=
    exists arg path, arg ∈ drop 1 args /\ object_path arg /\ canonicalize arg = Some path /\
      at_or_below target path /\ holds path bytes.
End holds.

(** The use that a call inlined by the compiler is: the function called is used by the function it was written in,
    at the place where it is called. *)
Definition inlined_use (f : inlined) (r : reference) : Prop :=
  rf_target r = in_to f /\ nd_names (rf_from r) = in_from f /\ nd_fetcher (rf_from r) = InlinedCall (in_call f) /\
  rf_outer r = None.
