(** Packages, selectors and dependency trees. *)
From Coq Require Import NArith.
From Verif Require Import Base TextModel ConfigModel DemangleSpec IndexModel.

(** ** Packages *)

(** Only one package of that name. *)
Definition only_one {V} (metas : list (meta V)) (name : str) : Prop :=
  exists before m after, metas = before ++ m :: after /\ m_name m = name /\
    forall o, o ∈ before ++ after -> m_name o <> name.

(** Names that cargo accepts are not empty and contain no comma. *)
Definition proper_name (name : str) : Prop := name <> [] /\ ","%char ∉ name.

(** The last package with that directory. *)
Definition last_in {V} (metas : list (meta V)) (dir : list str) (m : meta V) : Prop :=
  exists before after, metas = before ++ m :: after /\ m_dir m = Some dir /\
    forall o, o ∈ after -> m_dir o <> Some dir.

(** The environment of a process that cargo runs for a package. *)
Definition cargo_env {V} (show : V -> str) (m : meta V) (internal : str) (env : str -> option str) : Prop :=
  env (lit "CARGO_PKG_NAME") = Some (m_name m) /\
  env (lit "CARGO_PKG_VERSION") = Some (show (m_version m)) /\
  env (lit "CACKLE_MULTIPLE_VERSION_PKG_NAMES") = Some internal.

(** ** The output of cargo tree *)

Section tree.
  Context {V : Type} `{Countable V}.

  (** The direct dependencies. *)
  Context (deps : package_id V -> list (package_id V)).
  (** The name of the library, if there is one. *)
  Context (lib : package_id V -> option str).
  Context (show : V -> str).

  Definition dep (p q : package_id V) : Prop := q ∈ deps p.

  (** The name under which code of the package is found. *)
  Definition lib_name (p : package_id V) : str :=
    match lib p with
    | Some l => l
    | None => map (fun c => if Ascii.eqb c "-"%char then "_"%char else c) p.1.1
    end.

  (** The line for a package at some depth; what comes after the version does not matter. *)
  Definition shown (depth : nat) (p : package_id V) (line : str) : Prop :=
    exists number more, decimal depth number /\ (N.of_nat depth < 2 ^ 64)%N /\
      (more = [] \/ exists m, more = lit " " ++ m) /\ nl ∉ more /\ last more <> Some cr /\
      line = number ++ lit " " ++ default [] (lib p) ++ lit " " ++ p.1.1 ++ lit " v" ++ show p.1.2 ++ more.

  (** The lines for some packages at some depth. The dependencies of a package are shown when it
      is shown first. There can be empty lines between the packages at the top. *)
  Inductive listing : nat -> list (package_id V) -> list (package_id V) -> list str ->
      list (package_id V) -> Prop :=
  | listing_end depth seen : listing depth seen [] [] seen
  | listing_seen depth seen p ps line lines seen' :
      p ∈ seen -> shown depth p line -> listing depth seen ps lines seen' ->
      listing depth seen (p :: ps) (line :: lines) seen'
  | listing_new depth seen p ps line lines1 seen1 lines2 seen2 :
      p ∉ seen -> shown depth p line ->
      listing (S depth) (p :: seen) (deps p) lines1 seen1 ->
      listing depth seen1 ps lines2 seen2 ->
      listing depth seen (p :: ps) (line :: lines1 ++ lines2) seen2
  | listing_blank seen ps lines seen' :
      listing 0 seen ps lines seen' -> listing 0 seen ps ([] :: lines) seen'.

  (** Names, versions and libraries contain no spaces and no line breaks. *)
  Definition plain_text (s : str) : Prop := " "%char ∉ s /\ nl ∉ s /\ cr ∉ s.

  Definition proper_package (p : package_id V) : Prop :=
    plain_text p.1.1 /\ plain_text (show p.1.2) /\
    forall l, lib p = Some l -> l <> [] /\ plain_text l.

  (** The packages that are reached from the roots. *)
  Definition in_tree (roots : list (package_id V)) (p : package_id V) : Prop :=
    exists r, r ∈ roots /\ rtc dep r p.
End tree.
