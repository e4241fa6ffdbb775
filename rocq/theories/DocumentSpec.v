(** The format of the configuration file, as in /repo/CONFIG.md and /repo/src/config.rs:37-179: where
    each setting is written. *)
From Verif Require Import Base ApiMapModel ConfigModel ConfigSpec TomlModel EditorSpec.

(** Where the section of a package for a scope is written. *)
Definition scope_path (s : scope) : list str :=
  match s with
  | All => []
  | Build => [lit "build"]
  | Test => [lit "test"]
  | FromBuild => [lit "from"; lit "build"]
  | FromTest => [lit "from"; lit "test"]
  end.
Definition section_path (pkg : str) (s : scope) : list str := [lit "pkg"; pkg] ++ scope_path s.

(** ** Settings *)
Definition common_settings : list str :=
  [lit "version"; lit "explicit_build_scripts"; lit "build_flags"; lit "import_std"; lit "features";
   lit "profile"].
Definition package_settings : list str :=
  [lit "allow_unsafe"; lit "allow_extern"; lit "allow_build_instructions"; lit "allow_apis";
   lit "allow_proc_macro"; lit "import"].
Definition sandbox_settings : list str :=
  [lit "kind"; lit "extra_args"; lit "allow_network"; lit "bind_writable"; lit "make_writable";
   lit "pass_env"].
Definition api_settings : list str := [lit "include"; lit "exclude"; lit "no_auto_detect"].

(** A table with settings, or one of them. *)
Definition setting_of (path : list str) (settings : list str) (p : list str) : Prop :=
  p = path \/ exists k, k ∈ settings /\ p = path ++ [k].

(** The keys that a configuration file may have. *)
Definition documented (p : list str) : Prop :=
  setting_of [lit "common"] common_settings p \/
  setting_of [lit "sandbox"] sandbox_settings p \/
  p = [lit "rustc"] \/ setting_of [lit "rustc"; lit "sandbox"] sandbox_settings p \/
  p = [lit "api"] \/ (exists api, setting_of [lit "api"; api] api_settings p) \/
  p = [lit "pkg"] \/
  (exists pkg s, setting_of (section_path pkg s) package_settings p \/
     setting_of (section_path pkg s ++ [lit "sandbox"]) sandbox_settings p) \/
  (exists pkg, p = [lit "pkg"; pkg; lit "from"]).

(** ** What the settings say *)
Definition table_at (p : list str) (d : table) : Prop :=
  exists t, at_path p d = Some (Table t) \/ at_path p d = Some (Inline t).
Definition flag_at (p : list str) (d : table) (b : bool) : Prop :=
  at_path p d = Some (Flag b) \/ at_path p d = None /\ b = false.
Definition opt_flag_at (p : list str) (d : table) (b : option bool) : Prop :=
  at_path p d = Flag <$> b.
Definition texts_at (p : list str) (d : table) (l : list str) : Prop :=
  at_path p d = Some (Array (map Text l)) \/ at_path p d = None /\ l = [].
Definition kind_at (p : list str) (d : table) (k : option sandbox_kind) : Prop :=
  at_path p d =
    (fun k => Text (match k with Disabled => lit "Disabled" | Bubblewrap => lit "Bubblewrap" end)) <$> k.

Definition sandbox_at (p : list str) (d : table) (sb : sandbox_config) : Prop :=
  kind_at (p ++ [lit "kind"]) d (sb_kind sb) /\
  texts_at (p ++ [lit "extra_args"]) d (sb_extra_args sb) /\
  opt_flag_at (p ++ [lit "allow_network"]) d (sb_allow_network sb) /\
  texts_at (p ++ [lit "bind_writable"]) d (sb_bind_writable sb) /\
  texts_at (p ++ [lit "make_writable"]) d (sb_make_writable sb) /\
  texts_at (p ++ [lit "pass_env"]) d (sb_pass_env sb).

Definition section_at (p : list str) (d : table) (pc : package_config) : Prop :=
  table_at p d /\
  flag_at (p ++ [lit "allow_unsafe"]) d (pc_allow_unsafe pc) /\
  flag_at (p ++ [lit "allow_extern"]) d (pc_allow_extern pc) /\
  texts_at (p ++ [lit "allow_build_instructions"]) d (pc_allow_build_instructions pc) /\
  texts_at (p ++ [lit "allow_apis"]) d (pc_allow_apis pc) /\
  flag_at (p ++ [lit "allow_proc_macro"]) d (pc_allow_proc_macro pc) /\
  at_path (p ++ [lit "import"]) d = (fun l => Array (map Text l)) <$> pc_import pc /\
  sandbox_at (p ++ [lit "sandbox"]) d (pc_sandbox pc).

Definition api_at (p : list str) (d : table) (ac : api_config) : Prop :=
  table_at p d /\
  texts_at (p ++ [lit "include"]) d (ac_include ac) /\
  texts_at (p ++ [lit "exclude"]) d (ac_exclude ac) /\
  texts_at (p ++ [lit "no_auto_detect"]) d (ac_no_auto_detect ac).
