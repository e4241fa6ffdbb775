(** The index of packages and the tree of dependencies.
    Source: /repo/src/crate_index.rs, /repo/src/crate_index/lib_tree.rs.
    Versions are of any type [V]; parsing them is given. *)
From Coq Require Import NArith.
From Verif Require Import Base TextModel ConfigModel DemangleModel.

(** [PackageId] (crate_index.rs:37-45): name, version, whether the name is unique. *)
Notation package_id V := (str * V * bool)%type.

(** What [cargo metadata] says about a package, as far as used here. The directory of the
    manifest is a list of components. *)
Record meta (V : Type) := Meta {
  m_name : str;
  m_version : V;
  m_dir : option (list str)
}.
Arguments Meta {V}.
Arguments m_name {V}.
Arguments m_version {V}.
Arguments m_dir {V}.

Section index.
  Context {V : Type} `{Countable V}.

  (** [name_counts] (crate_index.rs:86-89). *)
  Definition name_count (metas : list (meta V)) (name : str) : nat :=
    length (filter (fun m => m_name m = name) metas).

  (** The id of a package (crate_index.rs:92-96). *)
  Definition id_of (metas : list (meta V)) (m : meta V) : package_id V :=
    (m_name m, m_version m, Nat.eqb (name_count metas (m_name m)) 1).

  (** The packages that are indexed (crate_index.rs:114). *)
  Definition indexed (metas : list (meta V)) : list (meta V) :=
    filter (fun m => is_Some (m_dir m)) metas.

  (** The keys of [package_infos] (crate_index.rs:124-132, 188-190). *)
  Definition package_ids (metas : list (meta V)) : gset (package_id V) :=
    list_to_set (map (id_of metas) (indexed metas)).

  (** [pkg_name_to_ids] before sorting (crate_index.rs:139-143). *)
  Definition name_to_ids (metas : list (meta V)) : gmap str (list (package_id V)) :=
    fold_left (fun t m => <[m_name m := default [] (t !! m_name m) ++ [id_of metas m]]> t)
      (indexed metas) ∅.

  (** [dir_to_pkg_id] (crate_index.rs:144-146). *)
  Definition dir_to_id (metas : list (meta V)) : gmap (list str) (package_id V) :=
    fold_left (fun t m => match m_dir m with
                          | Some dir => <[dir := id_of metas m]> t
                          | None => t
                          end) metas ∅.

  (** The value of the variable set by [add_internal_env] (crate_index.rs:158-170). *)
  Definition internal_env (metas : list (meta V)) : str :=
    join (lit ",") (map (fun id : package_id V => id.1.1)
      (filter (fun id : package_id V => id.2 = false) (elements (package_ids metas)))).

  (** [package_id_for_path] (crate_index.rs:207-214). The components of the path are given last
      one first. *)
  Fixpoint id_for_path (dirs : gmap (list str) (package_id V)) (rev_path : list str)
      : option (package_id V) :=
    match dirs !! reverse rev_path with
    | Some id => Some id
    | None => match rev_path with
              | [] => None
              | _ :: parent => id_for_path dirs parent
              end
    end.

  Definition package_id_for_path (dirs : gmap (list str) (package_id V)) (path : list str)
      : option (package_id V) := id_for_path dirs (reverse path).

  (** [PackageId::from_env] (crate_index.rs:251-265); [None] is an error. *)
  Definition id_from_env (parse_version : str -> option V) (env : str -> option str)
      : option (package_id V) :=
    match env (lit "CARGO_PKG_NAME"), env (lit "CARGO_PKG_VERSION") with
    | Some name, Some version =>
        match parse_version version with
        | Some version =>
            match env (lit "CACKLE_MULTIPLE_VERSION_PKG_NAMES") with
            | Some names =>
                Some (name, version, forallb (fun p => negb (str_eqb p name)) (split_char ","%char names))
            | None => None
            end
        | None => None
        end
    | _, _ => None
    end.
End index.

(** ** Selectors *)

(** [CrateKind::to_token] (crate_index.rs:334-340). *)
Definition to_token (k : crate_kind) : str :=
  match k with
  | Primary => lit "primary"
  | BuildScript => lit "build-script"
  | TestCrate => lit "test"
  end.

(** [CrateKind::from_token] (crate_index.rs:342-349). *)
Definition from_token (token : str) : option crate_kind :=
  if str_eqb token (lit "primary") then Some Primary
  else if str_eqb token (lit "build-script") then Some BuildScript
  else if str_eqb token (lit "test") then Some TestCrate
  else None.

(** The kind found by [CrateSel::from_env] (crate_index.rs:303-315); [None] is an error. *)
Definition kind_from_env (env : str -> option str) : option crate_kind :=
  if match env (lit "CARGO_CRATE_NAME") with
     | Some v => starts_with (lit "build_script_") v
     | None => false
     end
  then Some BuildScript
  else match env (lit "CACKLE_CRATE_KIND") with
       | Some kind => from_token kind
       | None => Some Primary
       end.

(** The kind used by the wrapper of rustc (proxy/subprocess.rs:202-205). *)
Definition rustc_kind (env : str -> option str) (args : list str) : option crate_kind :=
  match kind_from_env env with
  | Some kind => Some (if mem_str (lit "--test") args then TestCrate else kind)
  | None => None
  end.

(** The environment in which rustc is run (proxy/subprocess.rs:356) and passes to the linker. *)
Definition rustc_env (env : str -> option str) (kind : crate_kind) : str -> option str :=
  fun name => if str_eqb name (lit "CACKLE_CRATE_KIND") then Some (to_token kind) else env name.

(** ** The tree *)

(** [str::parse::<usize>]: a plus sign is allowed before the digits. *)
Definition parse_level (s : str) : option nat :=
  option_map N.to_nat (parse_usize (match s with "+"%char :: s' => s' | _ => s end)).

(** [str::replace] of a character. *)
Definition replace_char (a b : ascii) (s : str) : str :=
  map (fun c => if Ascii.eqb c a then b else c) s.

Section tree.
  Context {V : Type} `{Countable V}.

  (** [LibTreeBuilder] (lib_tree.rs:38-42): the stack, its top first, and the two maps. *)
  Record lib_tree := LibTree {
    lt_stack : list (package_id V * gset str);
    lt_libs : gmap str (package_id V);
    lt_deps : gmap (package_id V) (gset str)
  }.

  Definition empty_tree : lib_tree := LibTree [] ∅ ∅.

  (** [pop_to_level] (lib_tree.rs:127-135). *)
  Fixpoint pop_stack (level : nat) (stack : list (package_id V * gset str))
      (deps : gmap (package_id V) (gset str))
      : list (package_id V * gset str) * gmap (package_id V) (gset str) :=
    match stack with
    | [] => ([], deps)
    | (id, ds) :: rest =>
        if Nat.ltb level (length stack) then
          pop_stack level rest (match deps !! id with Some _ => deps | None => <[id := ds]> deps end)
        else (stack, deps)
    end.

  Definition pop_to_level (level : nat) (t : lib_tree) : lib_tree :=
    let '(stack, deps) := pop_stack level (lt_stack t) (lt_deps t) in
    LibTree stack (lt_libs t) deps.

  (** The part of [process_line] after parsing (lib_tree.rs:101-124); [level] is the number on
      the line, without the one that is added (lib_tree.rs:74). *)
  Definition add_line (level : nat) (lib : str) (id : package_id V) (t : lib_tree) : lib_tree :=
    let t := LibTree (lt_stack t) (<[lib := id]> (lt_libs t)) (lt_deps t) in
    let t := if Nat.leb level (length (lt_stack t)) then pop_to_level level t else t in
    let known := default ∅ (lt_deps t !! id) in
    let stack := map (fun e => (e.1, {[lib]} ∪ (e.2 ∪ known))) (lt_stack t) in
    LibTree (if Nat.ltb (length stack) (S level) then (id, ∅) :: stack else stack)
      (lt_libs t) (lt_deps t).

  (** [process_line] (lib_tree.rs:64-125); [None] is an error. *)
  Definition process_line (parse_version : str -> option V) (ids : gmap str (list (package_id V)))
      (t : lib_tree) (line : str) : option lib_tree :=
    match split_char " "%char line with
    | level :: lib_name :: pkg_name :: version_str :: _ =>
        match parse_level level, strip_prefix (lit "v") version_str with
        | Some level, Some version_str =>
            match parse_version version_str, ids !! pkg_name with
            | Some version, Some packages =>
                match find (fun id : package_id V => bool_decide (id.1.2 = version)) packages with
                | Some id =>
                    let lib := match lib_name with
                               | [] => replace_char "-"%char "_"%char pkg_name
                               | _ => lib_name
                               end in
                    Some (add_line level lib id t)
                | None => None
                end
            | _, _ => None
            end
        | _, _ => None
        end
    | _ => Some t
    end.

  Fixpoint process_lines (parse_version : str -> option V) (ids : gmap str (list (package_id V)))
      (t : lib_tree) (lines : list str) : option lib_tree :=
    match lines with
    | [] => Some t
    | line :: lines =>
        match process_line parse_version ids t line with
        | Some t => process_lines parse_version ids t lines
        | None => None
        end
    end.

  (** [build] (lib_tree.rs:45-62) for what [cargo tree] did: whether it succeeded, which is not
      looked at, and what it printed. *)
  Definition build_tree (parse_version : str -> option V) (ids : gmap str (list (package_id V)))
      (success : bool) (stdout : str) : option lib_tree :=
    if utf8_valid stdout then
      match process_lines parse_version ids empty_tree (str_lines stdout) with
      | Some t => Some (pop_to_level 0 t)
      | None => None
      end
    else None.
End tree.
Arguments lib_tree V {_ _}.
