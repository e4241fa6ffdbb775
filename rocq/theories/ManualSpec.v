(** What /repo/CONFIG.md tells users to write into the configuration file: every setting with its place
    and what may be written there, and the examples of that page. *)
From Verif Require Import Base ConfigModel TomlModel EditorSpec DocumentSpec.

(** ** Settings *)

(** What is written in a place. *)
Inductive shape := ASection | AYesNo | ANumber | AWord | AList | ASandboxKind.

Definition has_shape (s : shape) (i : item) : Prop :=
  match s with
  | ASection => exists t, i = Table t \/ i = Inline t
  | AYesNo => exists b, i = Flag b
  | ANumber => exists z, i = Integer z
  | AWord => exists w, i = Text w
  | AList => exists l, i = Array (map Text l)
  | ASandboxKind => i = Text (lit "Disabled") \/ i = Text (lit "Bubblewrap")
  end.

Definition in_common : list (str * shape) :=
  [(lit "version", ANumber); (lit "explicit_build_scripts", AYesNo); (lit "build_flags", AList);
   (lit "import_std", AList); (lit "features", AList); (lit "profile", AWord)].
Definition in_sandbox : list (str * shape) :=
  [(lit "kind", ASandboxKind); (lit "extra_args", AList); (lit "allow_network", AYesNo);
   (lit "bind_writable", AList); (lit "make_writable", AList); (lit "pass_env", AList)].
Definition in_api : list (str * shape) :=
  [(lit "include", AList); (lit "exclude", AList); (lit "no_auto_detect", AList)].
Definition in_package : list (str * shape) :=
  [(lit "allow_unsafe", AYesNo); (lit "allow_extern", AYesNo); (lit "allow_build_instructions", AList);
   (lit "allow_apis", AList); (lit "allow_proc_macro", AYesNo); (lit "import", AList)].

(** The places of a file and what may be written there. *)
Inductive place : list str -> shape -> Prop :=
| InCommon : place [lit "common"] ASection
| InCommonSet k s : (k, s) ∈ in_common -> place [lit "common"; k] s
| InSandbox : place [lit "sandbox"] ASection
| InSandboxSet k s : (k, s) ∈ in_sandbox -> place [lit "sandbox"; k] s
| InRustc : place [lit "rustc"] ASection
| InRustcSandbox : place [lit "rustc"; lit "sandbox"] ASection
| InRustcSandboxSet k s : (k, s) ∈ in_sandbox -> place [lit "rustc"; lit "sandbox"; k] s
| InApis : place [lit "api"] ASection
| InApi api : place [lit "api"; api] ASection
| InApiSet api k s : (k, s) ∈ in_api -> place [lit "api"; api; k] s
| InPackages : place [lit "pkg"] ASection
| InFrom pkg : place [lit "pkg"; pkg; lit "from"] ASection
| InPackage pkg sc : place (section_path pkg sc) ASection
| InPackageSet pkg sc k s : (k, s) ∈ in_package -> place (section_path pkg sc ++ [k]) s
| InPackageSandbox pkg sc : place (section_path pkg sc ++ [lit "sandbox"]) ASection
| InPackageSandboxSet pkg sc k s :
    (k, s) ∈ in_sandbox -> place (section_path pkg sc ++ [lit "sandbox"; k]) s.

(** Everything in the file is in its place and of the right kind. *)
Definition follows_the_manual (d : table) : Prop :=
  forall path i, at_path path d = Some i -> exists s, place path s /\ has_shape s i.

(** No key is written twice in a section, which is an error of TOML. *)
Definition keys_once (d : table) : Prop :=
  NoDup (map fst d) /\
  forall path t, at_path path d = Some (Table t) \/ at_path path d = Some (Inline t) -> NoDup (map fst t).

Definition names_version (d : table) (v : Z) : Prop :=
  at_path [lit "common"; lit "version"] d = Some (Integer v).

(** The words of a list in the file. *)
Definition listed (path : list str) (d : table) (w : str) : Prop :=
  exists l, at_path path d = Some (Array l) /\ Text w ∈ l.

(** Whatever is allowed is defined in the file or imported from the standard library, and allowed once. *)
Definition allows_what_is_defined (d : table) : Prop :=
  forall pkg sc,
  (forall api, listed (section_path pkg sc ++ [lit "allow_apis"]) d api ->
     is_Some (at_path [lit "api"; api] d) \/ listed [lit "common"; lit "import_std"] d api) /\
  (forall l, at_path (section_path pkg sc ++ [lit "allow_apis"]) d = Some (Array l) -> NoDup l).

(** The file without what is written at a place. *)
Fixpoint without (path : list str) (d : table) : table :=
  match path with
  | [] => d
  | [k] => filter (fun e => e.1 <> k) d
  | k :: path =>
      map (fun e : str * item =>
             if decide (e.1 = k) then
               (e.1, match e.2 with
                     | Table t => Table (without path t)
                     | Inline t => Inline (without path t)
                     | i => i
                     end)
             else e) d
  end.

(** ** The examples of the page *)

(** A file that has the settings of an example, each where the example has it. *)
Definition contains (example d : table) : Prop :=
  forall path i, at_path path example = Some i -> ~ has_shape ASection i -> at_path path d = Some i.

(** CONFIG.md:33-39, 194-195 and 230. *)
Definition import_example : table :=
  [(lit "import_std",
     Array [Text (lit "fs"); Text (lit "net"); Text (lit "process"); Text (lit "env");
            Text (lit "terminate")])].
Definition disable_example : table :=
  [(lit "rustc", Table [(lit "sandbox", Table [(lit "kind", Text (lit "Disable"))])])].
Definition features_example : table :=
  [(lit "features", Array [Text (lit "feature1"); Text (lit "feature2")])].
