(** The configuration on its way to the processes that cargo starts.
    Sources: /repo/src/proxy/subprocess.rs, /repo/src/config.rs (types and serde attributes),
    /repo/src/config/permissions.rs, /repo/src/checker.rs, /repo/src/main.rs. *)
From Verif Require Import Base ApiMapModel ConfigModel TomlModel.

(** ** JSON values *)

(** [serde_json::Value] without fractions. *)
Inductive json :=
| JNull
| JBool (b : bool)
| JNumber (z : Z)
| JString (s : str)
| JArray (l : list json)
| JObject (t : list (str * json)).

Definition to_texts (l : list str) : json := JArray (map JString l).
Definition to_option {A} (f : A -> json) (o : option A) : json :=
  match o with None => JNull | Some a => f a end.

Definition j_text (j : json) : option str := match j with JString s => Some s | _ => None end.
Definition j_number (j : json) : option Z := match j with JNumber z => Some z | _ => None end.
Definition j_flag (j : json) : option bool := match j with JBool b => Some b | _ => None end.
Definition j_texts (j : json) : option (list str) :=
  match j with JArray l => mapM j_text l | _ => None end.
Definition j_table (j : json) : option (list (str * json)) :=
  match j with JObject t => Some t | _ => None end.

(** A field that has to be there, one with a default, and one of type [Option], for which [null] and
    absence are the same. *)
Definition j_required {A} (k : str) (f : json -> option A) (t : list (str * json)) : option A :=
  get k t ≫= f.
Definition j_field {A} (k : str) (d : A) (f : json -> option A) (t : list (str * json)) : option A :=
  match get k t with None => Some d | Some j => f j end.
Definition j_opt {A} (f : json -> option A) (j : json) : option (option A) :=
  match j with JNull => Some None | _ => Some <$> f j end.
Definition j_opt_field {A} (k : str) (f : json -> option A) (t : list (str * json)) : option (option A) :=
  match get k t with None => Some None | Some j => j_opt f j end.

(** ** What processes get *)

(** [CommonConfig] (config.rs:60-79); the fields that [raw_config] leaves out are here. *)
Record common := Common {
  cm_version : Z; cm_explicit_build_scripts : bool; cm_build_flags : option (list str);
  cm_import_std : list str; cm_features : list str; cm_profile : option str }.

(** [SubprocessConfig] (subprocess.rs:423-428). *)
Record sub_config := SubConfig {
  sc_common : common; sc_permissions : permissions; sc_rustc : sandbox_config }.

(** [from_full_config] (subprocess.rs:438-444). [build_flags], [features] and [profile] are not part of
    [config] and come from [extra]. *)
Record extra := Extra { ex_build_flags : option (list str); ex_features : list str; ex_profile : option str }.
Definition from_full_config (x : extra) (c : config) : sub_config :=
  SubConfig
    (Common (rc_version (cf_raw c)) (rc_explicit_build_scripts (cf_raw c)) (ex_build_flags x)
       (rc_import_std (cf_raw c)) (ex_features x) (ex_profile x))
    (cf_permissions c) (rc_rustc_sandbox (cf_raw c)).

(** ** Encoding: derived [Serialize] *)

(** config.rs:135-139 *)
Definition kind_json (k : sandbox_kind) : json :=
  JString match k with Disabled => lit "Disabled" | Bubblewrap => lit "Bubblewrap" end.

(** config.rs:81-100 *)
Definition sandbox_json (s : sandbox_config) : json :=
  JObject
    [(lit "kind", to_option kind_json (sb_kind s)); (lit "extra_args", to_texts (sb_extra_args s));
     (lit "allow_network", to_option JBool (sb_allow_network s));
     (lit "bind_writable", to_texts (sb_bind_writable s)); (lit "make_writable", to_texts (sb_make_writable s));
     (lit "pass_env", to_texts (sb_pass_env s))].

(** config.rs:60-79 *)
Definition common_json (c : common) : json :=
  JObject
    [(lit "version", JNumber (cm_version c)); (lit "explicit_build_scripts", JBool (cm_explicit_build_scripts c));
     (lit "build_flags", to_option to_texts (cm_build_flags c)); (lit "import_std", to_texts (cm_import_std c));
     (lit "features", to_texts (cm_features c)); (lit "profile", to_option JString (cm_profile c))].

(** config.rs:143-179 *)
Fixpoint package_json (p : package_config) : json :=
  match p with
  | PackageConfig u e i a m b t f s imp =>
      JObject
        [(lit "allow_unsafe", JBool u); (lit "allow_extern", JBool e);
         (lit "allow_build_instructions", to_texts i); (lit "allow_apis", to_texts a);
         (lit "allow_proc_macro", JBool m);
         (lit "build", match b with None => JNull | Some p => package_json p end);
         (lit "test", match t with None => JNull | Some p => package_json p end);
         (lit "from", match f with
                      | None => JNull
                      | Some (FromConfig b t) =>
                          JObject [(lit "build", match b with None => JNull | Some p => package_json p end);
                                   (lit "test", match t with None => JNull | Some p => package_json p end)]
                      end);
         (lit "sandbox", sandbox_json s); (lit "import", to_option to_texts imp)]
  end.

(** [PermissionScope] (permissions.rs:30-44). *)
Definition scope_text (s : scope) : str :=
  match s with
  | All => lit "All" | Build => lit "Build" | Test => lit "Test" | FromBuild => lit "FromBuild"
  | FromTest => lit "FromTest"
  end.

(** ** Decoding: derived [Deserialize] with [deny_unknown_fields] *)

Definition j_kind (j : json) : option sandbox_kind :=
  s ← j_text j;
  if str_eqb s (lit "Disabled") then Some Disabled
  else if str_eqb s (lit "Bubblewrap") then Some Bubblewrap else None.

Definition j_sandbox (j : json) : option sandbox_config :=
  t ← j_table j;
  if known sandbox_fields t then
    kind ← j_opt_field (lit "kind") j_kind t;
    extra_args ← j_field (lit "extra_args") [] j_texts t;
    allow_network ← j_opt_field (lit "allow_network") j_flag t;
    bind_writable ← j_field (lit "bind_writable") [] j_texts t;
    make_writable ← j_field (lit "make_writable") [] j_texts t;
    pass_env ← j_field (lit "pass_env") [] j_texts t;
    Some (SandboxConfig kind extra_args allow_network bind_writable make_writable pass_env)
  else None.

Definition j_common (j : json) : option common :=
  t ← j_table j;
  if known common_fields t then
    version ← j_required (lit "version") j_number t;
    explicit_build_scripts ← j_field (lit "explicit_build_scripts") false j_flag t;
    build_flags ← j_opt_field (lit "build_flags") j_texts t;
    import_std ← j_field (lit "import_std") [] j_texts t;
    features ← j_field (lit "features") [] j_texts t;
    profile ← j_opt_field (lit "profile") j_text t;
    Some (Common version explicit_build_scripts build_flags import_std features profile)
  else None.

Definition j_rustc (j : json) : option sandbox_config :=
  t ← j_table j;
  if known [lit "sandbox"] t then j_field (lit "sandbox") sandbox_default j_sandbox t else None.

(** Sub-packages are decoded beforehand, as in [TomlModel]: [None] for [null]. *)
Definition j_sub {A} (k : str) (t : list (str * option (option A))) : option (option A) :=
  match get k t with None => Some None | Some r => r end.
Definition j_from (t : list (str * option (option package_config))) : option from_config :=
  if known [lit "build"; lit "test"] t then
    build ← j_sub (lit "build") t; test ← j_sub (lit "test") t; Some (FromConfig build test)
  else None.
Definition j_package_with (t : list (str * json)) (packages : list (str * option (option package_config)))
    (froms : list (str * option (option from_config))) : option package_config :=
  if known package_fields t then
    allow_unsafe ← j_field (lit "allow_unsafe") false j_flag t;
    allow_extern ← j_field (lit "allow_extern") false j_flag t;
    allow_build_instructions ← j_field (lit "allow_build_instructions") [] j_texts t;
    allow_apis ← j_field (lit "allow_apis") [] j_texts t;
    allow_proc_macro ← j_field (lit "allow_proc_macro") false j_flag t;
    build ← j_sub (lit "build") packages;
    test ← j_sub (lit "test") packages;
    from ← j_sub (lit "from") froms;
    sandbox ← j_field (lit "sandbox") sandbox_default j_sandbox t;
    import ← j_opt_field (lit "import") j_texts t;
    Some (PackageConfig allow_unsafe allow_extern allow_build_instructions allow_apis allow_proc_macro
            build test from sandbox import)
  else None.
Fixpoint j_package (j : json) : option package_config :=
  match j with
  | JObject t =>
      j_package_with t
        (map (fun e => match e with
                       | (k, v) => (k, match v with JNull => Some None | _ => Some <$> j_package v end)
                       end) t)
        (map (fun e => match e with
                       | (k, v) =>
                           (k, match v with
                               | JNull => Some None
                               | JObject u =>
                                   Some <$> j_from (map (fun e => match e with
                                     | (k, v) => (k, match v with JNull => Some None | _ => Some <$> j_package v end)
                                     end) u)
                               | _ => None
                               end)
                       end) t)
  | _ => None
  end.

Definition j_scope (j : json) : option scope :=
  s ← j_text j;
  if str_eqb s (lit "All") then Some All
  else if str_eqb s (lit "Build") then Some Build
  else if str_eqb s (lit "Test") then Some Test
  else if str_eqb s (lit "FromBuild") then Some FromBuild
  else if str_eqb s (lit "FromTest") then Some FromTest else None.

Section codec.
  (** [serde_json::to_string] and [from_str] on values. *)
  Context (print : json -> str) (parse : str -> option json).

  (** [Serialize] and [Deserialize] of [PermSel] (permissions.rs:359-394): JSON in a string. *)
  Definition sel_text (k : perm_sel) : str := print (JArray [JString k.1; JString (scope_text k.2)]).
  Definition text_sel (s : str) : option perm_sel :=
    match parse s with
    | Some (JArray [n; s]) => name ← j_text n; scope ← j_scope s; Some (name, scope)
    | _ => None
    end.

  (** [Permissions] (permissions.rs:17-21). *)
  Definition permissions_json (ps : permissions) : json :=
    JObject [(lit "packages",
      JObject (map (fun e : perm_sel * package_config => (sel_text e.1, package_json e.2)) (map_to_list ps)))].
  Definition j_permissions (j : json) : option permissions :=
    t ← j_table j;
    if known [lit "packages"] t then
      l ← j_required (lit "packages") j_table t;
      entries ← mapM (fun e : str * json => k ← text_sel e.1; p ← j_package e.2; Some (k, p)) l;
      Some (list_to_map entries)
    else None.

  (** [serialise] and [deserialise] (subprocess.rs:454-460). Unknown fields of the outermost structure
      are ignored (423). *)
  Definition serialise (s : sub_config) : str :=
    print (JObject [(lit "common", common_json (sc_common s)); (lit "permissions", permissions_json (sc_permissions s));
                    (lit "rustc", JObject [(lit "sandbox", sandbox_json (sc_rustc s))])]).
  Definition deserialise (text : str) : option sub_config :=
    j ← parse text; t ← j_table j;
    common ← j_required (lit "common") j_common t;
    permissions ← j_required (lit "permissions") j_permissions t;
    rustc ← j_required (lit "rustc") j_rustc t;
    Some (SubConfig common permissions rustc).

  (** ** Reloading

      The threads that handle requests reload the configuration under the lock of the checker
      (main.rs:591; also 365 and 397), while the file may be changed and processes may read what was written for them. *)
  Context {doc : Type} (load : doc -> option (config * extra)).

  (** Where a thread is in [load_config] (checker.rs:135-157). *)
  Inductive stage := Locked | Parsed (c : config) (x : extra) | Written (c : config).

  (** [fl_file]: what the file has contained, newest first; [fl_flat]: the flattened configuration;
      [fl_config]: the configuration of the checker; [fl_ended]: how the reloads of threads ended, newest
      first. *)
  Record flow := Flow {
    fl_file : list doc;
    fl_lock : option (nat * stage);
    fl_flat : option str;
    fl_config : option config;
    fl_ended : list (nat * bool) }.

  Definition flow_init (d : doc) : flow := Flow [d] None None None [].

  Inductive flow_event :=
  | FSave (d : doc)       (* somebody replaces the file *)
  | FLock (t : nat)       (* [checker.lock()] (main.rs:591) *)
  | FParse (t : nat)      (* [parse_file] (checker.rs:136) *)
  | FWrite (t : nat)      (* [write_atomic] (checker.rs:149-152) *)
  | FUpdate (t : nat).    (* [update_config] (checker.rs:154), and the lock is released *)

  (** [None]: the event is not possible now. *)
  Definition flow_step (s : flow) (e : flow_event) : option flow :=
    match e with
    | FSave d => Some (Flow (d :: fl_file s) (fl_lock s) (fl_flat s) (fl_config s) (fl_ended s))
    | FLock t =>
        match fl_lock s with
        | None => Some (Flow (fl_file s) (Some (t, Locked)) (fl_flat s) (fl_config s) (fl_ended s))
        | Some _ => None
        end
    | FParse t =>
        match fl_lock s, fl_file s with
        | Some (t', Locked), d :: _ =>
            if Nat.eqb t t' then
              match load d with
              | Some (c, x) =>
                  Some (Flow (fl_file s) (Some (t, Parsed c x)) (fl_flat s) (fl_config s) (fl_ended s))
              | None =>
                  Some (Flow (fl_file s) None (fl_flat s) (fl_config s) ((t, false) :: fl_ended s))
              end
            else None
        | _, _ => None
        end
    | FWrite t =>
        match fl_lock s with
        | Some (t', Parsed c x) =>
            if Nat.eqb t t' then
              Some (Flow (fl_file s) (Some (t, Written c)) (Some (serialise (from_full_config x c)))
                      (fl_config s) (fl_ended s))
            else None
        | _ => None
        end
    | FUpdate t =>
        match fl_lock s with
        | Some (t', Written c) =>
            if Nat.eqb t t' then
              Some (Flow (fl_file s) None (fl_flat s) (Some c) ((t, true) :: fl_ended s))
            else None
        | _ => None
        end
    end.

  Fixpoint flow_run (s : flow) (es : list flow_event) : option flow :=
    match es with
    | [] => Some s
    | e :: es => flow_step s e ≫= fun s' => flow_run s' es
    end.

  (** What a process gets that starts now: [SubprocessConfig::from_env] (subprocess.rs:431-436, 446-449). *)
  Definition process_config (s : flow) : option sub_config := fl_flat s ≫= deserialise.
End codec.
