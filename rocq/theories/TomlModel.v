(** Configuration files as documents, and how they are decoded.
    Sources: /repo/src/config.rs:37-179 (the types and their serde attributes) and 211-212
    ([toml::from_str]), /repo/src/config_editor.rs:29-32 (the document that is edited).
    The text of a file and white space and comments are not modelled: a document is the data that
    the file contains. That writing an edited document and parsing the text again gives the same data
    is part of the trusted base (toml_edit and toml). *)
From Verif Require Import Base ApiMapModel ConfigModel.

(** [toml_edit::Item]. A table is either written in a section of its own (also as dotted keys) or
    inline; the editor can only change the former ([as_table_mut]). [Other]: numbers with a
    fraction, dates, and arrays of tables, which no field of the configuration accepts. *)
Inductive item :=
| Text (s : str)
| Integer (z : Z)
| Flag (b : bool)
| Other
| Array (l : list item)
| Inline (t : list (str * item))
| Table (t : list (str * item)).

Notation table := (list (str * item)).

(** Reading, setting (in place or at the end) and removing a key. Keys of a table are distinct. *)
Fixpoint get {A} (k : str) (t : list (str * A)) : option A :=
  match t with
  | [] => None
  | (k', a) :: t => if str_eqb k k' then Some a else get k t
  end.

Fixpoint put {A} (k : str) (a : A) (t : list (str * A)) : list (str * A) :=
  match t with
  | [] => [(k, a)]
  | (k', b) :: t => if str_eqb k k' then (k', a) :: t else (k', b) :: put k a t
  end.

Fixpoint del {A} (k : str) (t : list (str * A)) : list (str * A) :=
  match t with
  | [] => []
  | (k', a) :: t => if str_eqb k k' then del k t else (k', a) :: del k t
  end.

(** ** Decoding

    [None] is an error of [toml::from_str]. Structures given as arrays and variants given as tables,
    both of which serde accepts, are errors here. *)

(** [#[serde(deny_unknown_fields)]]. *)
Definition known {A} (names : list str) (t : list (str * A)) : bool :=
  forallb (fun e => mem_str e.1 names) t.

(** A field with a default. *)
Definition field {A} (k : str) (d : A) (f : item -> option A) (t : table) : option A :=
  match get k t with
  | None => Some d
  | Some i => f i
  end.

(** A field of type [Option]. *)
Definition opt_field {A} (k : str) (f : item -> option A) (t : table) : option (option A) :=
  match get k t with
  | None => Some None
  | Some i => Some <$> f i
  end.

Definition text_of (i : item) : option str := match i with Text s => Some s | _ => None end.
Definition integer_of (i : item) : option Z := match i with Integer z => Some z | _ => None end.
Definition flag_of (i : item) : option bool := match i with Flag b => Some b | _ => None end.
Definition texts_of (i : item) : option (list str) :=
  match i with Array l => mapM text_of l | _ => None end.
Definition table_of (i : item) : option table :=
  match i with Inline t | Table t => Some t | _ => None end.

(** [SandboxKind] (config.rs:135-139). *)
Definition kind_of (i : item) : option sandbox_kind :=
  match i with
  | Text s =>
      if str_eqb s (lit "Disabled") then Some Disabled
      else if str_eqb s (lit "Bubblewrap") then Some Bubblewrap
      else None
  | _ => None
  end.

(** [SandboxConfig] (config.rs:81-100). *)
Definition sandbox_fields : list str :=
  [lit "kind"; lit "extra_args"; lit "allow_network"; lit "bind_writable"; lit "make_writable";
   lit "pass_env"].
Definition sandbox_of (i : item) : option sandbox_config :=
  t ← table_of i;
  if known sandbox_fields t then
    kind ← opt_field (lit "kind") kind_of t;
    extra_args ← field (lit "extra_args") [] texts_of t;
    allow_network ← opt_field (lit "allow_network") flag_of t;
    bind_writable ← field (lit "bind_writable") [] texts_of t;
    make_writable ← field (lit "make_writable") [] texts_of t;
    pass_env ← field (lit "pass_env") [] texts_of t;
    Some (SandboxConfig kind extra_args allow_network bind_writable make_writable pass_env)
  else None.

(** [RustcConfig] (config.rs:102-107). *)
Definition rustc_of (i : item) : option sandbox_config :=
  t ← table_of i;
  if known [lit "sandbox"] t then field (lit "sandbox") sandbox_default sandbox_of t else None.

(** [ApiConfig] (config.rs:109-120). *)
Definition api_of (i : item) : option api_config :=
  t ← table_of i;
  if known [lit "include"; lit "exclude"; lit "no_auto_detect"] t then
    include ← field (lit "include") [] texts_of t;
    exclude ← field (lit "exclude") [] texts_of t;
    no_auto_detect ← field (lit "no_auto_detect") [] texts_of t;
    Some (ApiConfig include exclude no_auto_detect)
  else None.

(** [FromConfig] (config.rs:174-179), given its decoded fields. *)
Definition sub_field {A} (k : str) (t : list (str * option A)) : option (option A) :=
  match get k t with
  | None => Some None
  | Some i => Some <$> i
  end.
Definition from_of (t : list (str * option package_config)) : option from_config :=
  if known [lit "build"; lit "test"] t then
    build ← sub_field (lit "build") t;
    test ← sub_field (lit "test") t;
    Some (FromConfig build test)
  else None.

(** [PackageConfig] (config.rs:143-172), given its fields and what they decode to as packages and as
    [FromConfig]. *)
Definition package_fields : list str :=
  [lit "allow_unsafe"; lit "allow_extern"; lit "allow_build_instructions"; lit "allow_apis";
   lit "allow_proc_macro"; lit "build"; lit "test"; lit "from"; lit "sandbox"; lit "import"].
Definition package_with (t : table) (packages : list (str * option package_config))
    (froms : list (str * option from_config)) : option package_config :=
  if known package_fields t then
    allow_unsafe ← field (lit "allow_unsafe") false flag_of t;
    allow_extern ← field (lit "allow_extern") false flag_of t;
    allow_build_instructions ← field (lit "allow_build_instructions") [] texts_of t;
    allow_apis ← field (lit "allow_apis") [] texts_of t;
    allow_proc_macro ← field (lit "allow_proc_macro") false flag_of t;
    build ← sub_field (lit "build") packages;
    test ← sub_field (lit "test") packages;
    from ← sub_field (lit "from") froms;
    sandbox ← field (lit "sandbox") sandbox_default sandbox_of t;
    import ← opt_field (lit "import") texts_of t;
    Some (PackageConfig allow_unsafe allow_extern allow_build_instructions allow_apis allow_proc_macro
            build test from sandbox import)
  else None.

Fixpoint package_of (i : item) : option package_config :=
  match i with
  | Inline t | Table t =>
      package_with t
        (map (fun e => match e with (k, v) => (k, package_of v) end) t)
        (map (fun e => match e with
                       | (k, v) =>
                           (k, match v with
                               | Inline u | Table u =>
                                   from_of (map (fun e => match e with (k, v) => (k, package_of v) end) u)
                               | _ => None
                               end)
                       end) t)
  | _ => None
  end.

(** [BTreeMap]: every entry has to be of the right type. *)
Definition entries_of {A} (f : item -> option A) (t : table) : option (list (str * A)) :=
  mapM (fun e : str * item => a ← f e.2; Some (e.1, a)) t.
Definition map_of {A} (f : item -> option A) (i : item) : option (gmap str A) :=
  t ← table_of i; l ← entries_of f t; Some (list_to_map l).

(** [CommonConfig] (config.rs:60-79): version, explicit_build_scripts and import_std. The other
    fields have to be of the right type. *)
Definition common_fields : list str :=
  [lit "version"; lit "explicit_build_scripts"; lit "build_flags"; lit "import_std"; lit "features";
   lit "profile"].
Definition common_of (i : item) : option (Z * bool * list str) :=
  t ← table_of i;
  if known common_fields t then
    version ← get (lit "version") t ≫= integer_of;
    explicit_build_scripts ← field (lit "explicit_build_scripts") false flag_of t;
    _ ← opt_field (lit "build_flags") texts_of t;
    import_std ← field (lit "import_std") [] texts_of t;
    _ ← field (lit "features") [] texts_of t;
    _ ← opt_field (lit "profile") text_of t;
    Some (version, explicit_build_scripts, import_std)
  else None.

(** [RawConfig] (config.rs:37-53). *)
Definition config_fields : list str :=
  [lit "common"; lit "api"; lit "pkg"; lit "sandbox"; lit "rustc"].
Definition decode (t : table) : option raw_config :=
  if known config_fields t then
    common ← get (lit "common") t ≫= common_of;
    apis ← field (lit "api") ∅ (map_of api_of) t;
    packages ← field (lit "pkg") ∅ (map_of package_of) t;
    sandbox ← field (lit "sandbox") sandbox_default sandbox_of t;
    rustc ← field (lit "rustc") sandbox_default rustc_of t;
    Some (RawConfig common.1.1 common.1.2 common.2 apis packages sandbox rustc)
  else None.

(** Loading a document: [parse_file] (config.rs:181-188) in the main process, which always knows the
    directory of the manifest. [None] if decoding fails. *)
Definition load_document (built_ins : gmap str api_config)
    (exports : str -> list nat -> option (gmap str api_config)) (idx : crate_index) (root : str)
    (t : table) : option load_result :=
  load_config built_ins exports idx (Some root) <$> decode t.
