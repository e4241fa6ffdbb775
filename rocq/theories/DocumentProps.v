(** C91, C92: the format of the configuration file. *)
From Verif Require Import Base BaseFacts ApiMapModel ConfigModel ConfigSpec TomlModel EditorSpec DocumentSpec
  DocumentProofs.

(** ** C91: unknown keys *)

(** A file with a key that is not documented is not loaded: no setting that is misspelt or in the wrong
    place is silently ignored. *)
Theorem C91_no_unknown_keys :
  forall (built_ins : gmap str api_config) (exports : str -> list nat -> option (gmap str api_config))
         (idx : crate_index) (root : str) (d : table) (c : config) (path : list str) (i : item),
  load_document built_ins exports idx root d = Some (Loaded c) ->
  at_path path d = Some i -> documented path.
Proof. exact only_documented. Qed.
Print Assumptions C91_no_unknown_keys.

Definition doc_ex (key : str) : table :=
  [(lit "common", Table [(lit "version", Integer 3)]);
   (lit "api", Table [(lit "fs", Inline [(lit "include", Array [Text (lit "std::fs")])])]);
   (lit "pkg", Table
     [(lit "foo", Table
        [(lit "allow_apis", Array [Text (lit "fs")]);
         (lit "from", Table
           [(lit "build", Table
              [(key, Flag true);
               (lit "sandbox", Inline [(lit "kind", Text (lit "Disabled"))])])])])])].

Definition doc_load (d : table) : option load_result := load_document ∅ (fun _ _ => None) [] (lit "/w") d.

Example C91_ex :
  (exists c, doc_load (doc_ex (lit "allow_unsafe")) = Some (Loaded c)) /\
  doc_load (doc_ex (lit "allow_unsave")) = None /\
  at_path [lit "pkg"; lit "foo"; lit "from"; lit "build"; lit "allow_unsafe"] (doc_ex (lit "allow_unsafe"))
    = Some (Flag true).
Proof.
  split; [|by vm_compute].
  assert (H : match doc_load (doc_ex (lit "allow_unsafe")) with Some (Loaded _) => true | _ => false end = true)
    by by vm_compute.
  destruct (doc_load _) as [[c| |]|]; try done. by exists c.
Qed.

(** ** C92: what the settings mean *)

(** Each setting is what is written in its place, and absent settings have the documented defaults. *)
Theorem C92_settings :
  forall (d : table) (rc : raw_config),
  decode d = Some rc ->
  at_path [lit "common"; lit "version"] d = Some (Integer (rc_version rc)) /\
  flag_at [lit "common"; lit "explicit_build_scripts"] d (rc_explicit_build_scripts rc) /\
  texts_at [lit "common"; lit "import_std"] d (rc_import_std rc) /\
  sandbox_at [lit "sandbox"] d (rc_sandbox rc) /\
  sandbox_at [lit "rustc"; lit "sandbox"] d (rc_rustc_sandbox rc) /\
  (forall api,
     match rc_apis rc !! api with
     | Some ac => api_at [lit "api"; api] d ac
     | None => ~ table_at [lit "api"; api] d
     end) /\
  (forall pkg s,
     match section rc pkg s with
     | Some sec => section_at (section_path pkg s) d sec
     | None => ~ table_at (section_path pkg s) d
     end).
Proof.
  intros d rc Hd. destruct (common_reads d rc Hd) as (H1 & H2 & H3). destruct (sandboxes d rc Hd) as [H4 H5].
  split_and!; try done.
  - intros api. by apply api_definitions.
  - intros pkg s. by apply package_reads.
Qed.
Print Assumptions C92_settings.

Example C92_ex :
  let d := doc_ex (lit "allow_unsafe") in
  match decode d with
  | Some rc =>
      rc_version rc = 3%Z /\
      option_map pc_allow_unsafe (section rc (lit "foo") FromBuild) = Some true /\
      option_map (sb_kind ∘ pc_sandbox) (section rc (lit "foo") FromBuild) = Some (Some Disabled) /\
      option_map pc_allow_apis (section rc (lit "foo") All) = Some [lit "fs"] /\
      section rc (lit "foo") Build = None /\
      option_map ac_include (rc_apis rc !! lit "fs") = Some [lit "std::fs"]
  | None => False
  end.
Proof. by vm_compute. Qed.
