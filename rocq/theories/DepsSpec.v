(** Dependency files, arguments of rustc and of the linker. *)
From Verif Require Import Base TextModel DepsModel.

(** ** Dependency files *)

(** How rustc writes a path: a backslash before each space. *)
Fixpoint rustc_escape (p : str) : str :=
  match p with
  | [] => []
  | c :: p => if Ascii.eqb c " "%char then "\"%char :: c :: rustc_escape p else c :: rustc_escape p
  end.

(** Makefile escaping of spaces and backslashes. *)
Fixpoint make_escape (p : str) : str :=
  match p with
  | [] => []
  | c :: p => if Ascii.eqb c " "%char || Ascii.eqb c "\"%char then "\"%char :: c :: make_escape p
              else c :: make_escape p
  end.

(** The lines of a dependency file for some source files: one rule without dependencies for
    each, and other lines, which do not end in a colon. *)
Inductive deps_lines (escape : str -> str) : list str -> list str -> Prop :=
| deps_end : deps_lines escape [] []
| deps_source p ls ps : deps_lines escape ls ps -> deps_lines escape ((escape p ++ lit ":") :: ls) (p :: ps)
| deps_other l ls ps :
    nl ∉ l -> last l <> Some ":"%char -> last l <> Some cr ->
    deps_lines escape ls ps -> deps_lines escape (l :: ls) ps.

(** Only the last character may be a backslash. *)
Definition few_backslashes (p : str) : Prop := forall x y, p = x ++ "\"%char :: y -> y = [].

Definition unlines (ls : list str) : str := concat (map (fun l => l ++ [nl]) ls).

(** ** Arguments of rustc *)

Inductive rustc_arg :=
| ACodegen (v : str)
| AOutDir (d : str)
| ACrateName (n : str)
| AOther (a : str).

Definition arg_texts (a : rustc_arg) : list str :=
  match a with
  | ACodegen v => [lit "-C"; v]
  | AOutDir d => [lit "--out-dir"; d]
  | ACrateName n => [lit "--crate-name"; n]
  | AOther a => [a]
  end.

Definition proper_arg (a : rustc_arg) : Prop :=
  forall t, a = AOther t -> t <> lit "-C" /\ t <> lit "--out-dir" /\ t <> lit "--crate-name".

(** [x] is what [f] gives for the last argument that it gives anything for. *)
Definition last_given {A} (f : rustc_arg -> option A) (args : list rustc_arg) (x : A) : Prop :=
  exists before a after, args = before ++ a :: after /\ f a = Some x /\
    forall b, b ∈ after -> f b = None.

Definition never_given {A} (f : rustc_arg -> option A) (args : list rustc_arg) : Prop :=
  forall a, a ∈ args -> f a = None.

Definition out_dir_of (a : rustc_arg) : option str := match a with AOutDir d => Some d | _ => None end.
Definition crate_of (a : rustc_arg) : option str := match a with ACrateName n => Some n | _ => None end.
Definition extra_of (a : rustc_arg) : option str :=
  match a with ACodegen v => strip_prefix (lit "extra-filename=") v | _ => None end.

(** [p] is the path of the file called [name] in the directory [dir]. *)
Definition file_in (dir name p : str) : Prop :=
  (dir = [] /\ p = name) \/
  (exists d, dir = d ++ lit "/" /\ p = d ++ lit "/" ++ name) \/
  (dir <> [] /\ last dir <> Some "/"%char /\ p = dir ++ lit "/" ++ name).

(** The last [--emit=] argument asks for dependency information. *)
Definition emits_deps (args : list rustc_arg) : Prop :=
  exists before kinds after, args = before ++ AOther (lit "--emit=" ++ kinds) :: after /\
    (exists x y, lit "--emit=" ++ kinds = x ++ lit "dep-info" ++ y) /\
    forall k, AOther (lit "--emit=" ++ k) ∉ after.

(** Some [--emit=] argument asks for dependency information. *)
Definition asks_for_deps (args : list rustc_arg) : Prop :=
  exists kinds x y, AOther (lit "--emit=" ++ kinds) ∈ args /\ kinds = x ++ lit "dep-info" ++ y.

(** ** Arguments of the linker *)

(** A path that names an object file or a Rust library. *)
Definition object_path (p : str) : Prop :=
  exists dir stem ext, p = dir ++ stem ++ lit "." ++ ext /\
    (dir = [] \/ exists d, dir = d ++ lit "/") /\
    stem <> [] /\ "/"%char ∉ stem /\ (ext = lit "rlib" \/ ext = lit "o").

(** The path has no slash, and no slash and dot, at its end. *)
Definition plain_path (p : str) : Prop := forall d, p <> d ++ lit "/" /\ p <> d ++ lit "/.".

(** An absolute path without empty components and dots, and a place below another. *)
Definition resolved (p : str) : Prop :=
  exists cs, cs <> [] /\ (forall c, c ∈ cs -> c <> [] /\ c <> lit "." /\ c <> lit ".." /\ "/"%char ∉ c) /\ p = lit "/" ++ join (lit "/") cs.

Definition at_or_below (dir p : str) : Prop := p = dir \/ exists rest, p = dir ++ lit "/" ++ rest.
