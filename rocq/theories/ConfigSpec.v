(** Specifications for configuration loading, written in terms of the sections of
    the configuration file only. *)
From Verif Require Import Base ApiMapModel ConfigModel.

(** The section [pkg.NAME], [pkg.NAME.build], [pkg.NAME.test],
    [pkg.NAME.from.build] or [pkg.NAME.from.test] of a configuration, if present. *)
Definition section (rc : raw_config) (pkg : str) (s : scope) : option package_config :=
  match rc_packages rc !! pkg with
  | None => None
  | Some pc =>
      match s with
      | All => Some pc
      | Build => pc_build pc
      | Test => pc_test pc
      | FromBuild => match pc_from pc with Some f => fc_build f | None => None end
      | FromTest => match pc_from pc with Some f => fc_test f | None => None end
      end
  end.

(** The section that a crate is subject to: that of its package, or for build scripts and tests the one of that
    name in it. *)
Definition crate_scope (k : crate_kind) : scope :=
  match k with Primary => All | BuildScript => Build | TestCrate => Test end.

(** The documented inheritance chains, most specific first. *)
Definition chain (s : scope) : list scope :=
  match s with
  | All => [All]
  | FromBuild => [FromBuild; All]
  | FromTest => [FromTest; All]
  | Build => [Build; FromBuild; All]
  | Test => [Test; FromTest; All]
  end.

(** Some section on the chain of [s] satisfies [P]. *)
Definition on_chain (rc : raw_config) (pkg : str) (s : scope)
    (P : package_config -> Prop) : Prop :=
  exists s' sec, s' ∈ chain s /\ section rc pkg s' = Some sec /\ P sec.

(** The first value that is set, if any. *)
Fixpoint first_set {A} (l : list (option A)) : option A :=
  match l with
  | [] => None
  | Some a :: _ => Some a
  | None :: l' => first_set l'
  end.

(** The sandbox sections that apply to a selector, most specific first: those of
    the chain, then the global one. *)
Definition sandbox_sections (rc : raw_config) (pkg : str) (s : scope) : list sandbox_config :=
  omap (fun s' => pc_sandbox <$> section rc pkg s') (chain s) ++ [rc_sandbox rc].

(** A selector that exists for the package [pkg] of the index: the package itself,
    use from other packages' build scripts and tests, and its own build script and
    tests if it has any. *)
Definition index_selector (idx : crate_index) (pkg : str) (s : scope) : Prop :=
  exists p, p ∈ idx /\ pk_name p = pkg /\
    match s with
    | All | FromBuild | FromTest => True
    | Build => pk_has_build_script p = true
    | Test => pk_has_test p = true
    end.

(** ** C04 *)
Definition subsections_absent (pc : package_config) : Prop :=
  pc_build pc = None /\ pc_test pc = None /\ pc_from pc = None.

Definition well_formed (rc : raw_config) : Prop :=
  (1 <= rc_version rc <= 3)%Z /\
  (forall pkg s sec, section rc pkg s = Some sec ->
     (forall api, api ∈ pc_allow_apis sec -> is_Some (rc_apis rc !! api)) /\
     NoDup (pc_allow_apis sec) /\
     (s <> All -> subsections_absent sec)).

(** ** C05 *)
Definition absolute (p : str) : Prop := exists rest, p = "/"%char :: rest.

(** [p'] is the path [p] seen from the directory [root]. *)
Definition resolved (root p p' : str) : Prop :=
  (absolute p /\ p' = p) \/
  (~ absolute p /\
   (p' = root ++ lit "/" ++ p \/ ((exists r, root = r ++ lit "/") /\ p' = root ++ p))).

Definition sandbox_paths_absolute (sb : sandbox_config) : Prop :=
  (forall p, p ∈ sb_bind_writable sb -> absolute p) /\
  (forall p, p ∈ sb_make_writable sb -> absolute p).

(** ** C07 *)

(** Order of versions: the first differing component decides. *)
Definition version_le (a b : list nat) : Prop :=
  a `prefix_of` b \/
  exists common x y a' b', a = common ++ x :: a' /\ b = common ++ y :: b' /\ x < y.

(** [v] is the newest version of package [name] in the index. *)
Definition is_newest (idx : crate_index) (name : str) (v : list nat) : Prop :=
  (exists p, p ∈ idx /\ pk_name p = name /\ pk_version p = v) /\
  (forall p, p ∈ idx -> pk_name p = name -> version_le (pk_version p) v).

(** One way in which an API definition can be imported from a package. *)
Definition import_source (idx : crate_index)
    (exports : str -> list nat -> option (gmap str api_config)) (rc : raw_config)
    (name : str) (def : api_config) : Prop :=
  exists pkg pc imports v exported api,
    rc_packages rc !! pkg = Some pc /\ pc_import pc = Some imports /\
    api ∈ imports /\ is_newest idx pkg v /\
    exports pkg v = Some exported /\ exported !! api = Some def /\
    name = pkg ++ lit "::" ++ api.
