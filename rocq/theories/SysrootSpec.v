(** Where the sources that a backtrace shows should be. *)
From Verif Require Import Base.

(** The name of a directory or a file. *)
Definition plain_name (c : str) : Prop := c <> [] /\ c <> lit "." /\ "/"%char ∉ c.

(** The debug information of the standard library names its sources /rustc/HASH/PATH. *)
Definition library_source (hash : str) (path : list str) : str :=
  lit "/rustc/" ++ hash ++ lit "/" ++ join (lit "/") path.

(** The component rust-src puts them here. *)
Definition installed_source (sysroot : str) (path : list str) : str :=
  sysroot ++ lit "/lib/rustlib/src/rust/" ++ join (lit "/") path.

(** A directory whose name does not end in a slash. *)
Definition plain_directory (d : str) : Prop := exists d' c, d = d' ++ [c] /\ c <> "/"%char.

(** A path that is relative or whose first name is another one than rustc. *)
Definition elsewhere (file : str) : Prop :=
  (forall rest, file <> lit "/" ++ rest) \/
  exists c rest, plain_name c /\ c <> lit "rustc" /\ file = lit "/" ++ c ++ rest /\ (rest = [] \/ exists r, rest = lit "/" ++ r).
