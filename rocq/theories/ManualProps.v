(** C244 to C246: what CONFIG.md tells users to write. *)
From Verif Require Import Base BaseFacts ApiMapModel ConfigModel ConfigSpec TomlModel TomlProofs EditorSpec DocumentSpec
  ManualSpec ManualProofs.

(** ** C244: files that follow the manual *)

(** A file in which everything is in a documented place and of the documented kind is read. *)
Theorem C244_read :
  forall (d : table) (v : Z),
  follows_the_manual d -> keys_once d -> names_version d v -> exists rc, decode d = Some rc.
Proof. intros d v H Ho Hv. by apply (documented_reads d H v). Qed.
Print Assumptions C244_read.

(** And it is loaded if its version is supported, the imported parts of the standard library exist,
    nothing is imported from packages, and every section allows only APIs that are defined, each once. *)
Theorem C244_loaded :
  forall (built_ins : gmap str api_config) (exports : str -> list nat -> option (gmap str api_config))
         (idx : crate_index) (root : str) (d : table) (v : Z),
  follows_the_manual d -> keys_once d -> names_version d v -> (1 <= v <= 3)%Z ->
  (forall api, listed [lit "common"; lit "import_std"] d api -> is_Some (built_ins !! api)) ->
  (forall pkg api, ~ listed [lit "pkg"; pkg; lit "import"] d api) ->
  allows_what_is_defined d ->
  exists c, load_document built_ins exports idx root d = Some (Loaded c).
Proof. exact follows_loads. Qed.
Print Assumptions C244_loaded.

(** The examples of CONFIG.md in one file. *)
Definition mn_settings : table :=
  [(lit "common", Table
     [(lit "version", Integer 2); (lit "build_flags", Array [Text (lit "--all-targets")]);
      (lit "profile", Text (lit "cackle-release"))]);
   (lit "sandbox", Table [(lit "kind", Text (lit "Bubblewrap"))]);
   (lit "rustc", Table [(lit "sandbox", Table [(lit "allow_network", Flag true)])]);
   (lit "api", Table
     [(lit "process", Table
        [(lit "include", Array [Text (lit "std::process")]);
         (lit "exclude", Array [Text (lit "std::process::abort"); Text (lit "std::process::exit")])]);
      (lit "fs", Table [])]);
   (lit "pkg", Table
     [(lit "crab1", Table
        [(lit "allow_unsafe", Flag true); (lit "allow_apis", Array [Text (lit "fs"); Text (lit "process")]);
         (lit "from", Table [(lit "test", Table [(lit "allow_apis", Array [Text (lit "fs")])])]);
         (lit "build", Table [(lit "allow_apis", Array [Text (lit "fs")])])]);
      (lit "foo", Table
        [(lit "build", Table [(lit "sandbox", Table [(lit "kind", Text (lit "Disabled"));
                                                     (lit "allow_network", Flag true)])]);
         (lit "test", Table [(lit "sandbox", Table
           [(lit "bind_writable", Array [Text (lit "test_outputs")]);
            (lit "make_writable", Array [Text (lit "test_outputs")]);
            (lit "pass_env", Array [Text (lit "VAR1"); Text (lit "VAR2")])])])])])].

Example C244_ex :
  follows_the_manual mn_settings /\ keys_once mn_settings /\ names_version mn_settings 2 /\
  (exists c, load_document ∅ (fun _ _ => None) [] (lit "/w") mn_settings = Some (Loaded c)) /\
  at_path [lit "pkg"; lit "crab1"; lit "from"; lit "test"; lit "allow_apis"] mn_settings
    = Some (Array [Text (lit "fs")]).
Proof.
  destruct (fits_follows 8 mn_settings) as [H1 H2]; [by vm_compute|].
  split_and!; [done|done|by vm_compute| |by vm_compute].
  assert (H : match load_document ∅ (fun _ _ => None) [] (lit "/w") mn_settings with
              | Some (Loaded _) => true | _ => false end = true) by by vm_compute.
  destruct (load_document _ _ _ _ _) as [[c| |]|]; try done. by exists c.
Qed.

(** Its hypotheses about APIs hold for a smaller file. *)
Definition mn_small : table :=
  [(lit "common", Table [(lit "version", Integer 3); (lit "import_std", Array [Text (lit "net")])]);
   (lit "api", Table [(lit "fs", Table [(lit "include", Array [Text (lit "std::fs")])])]);
   (lit "pkg", Table [(lit "foo", Table [(lit "allow_apis", Array [Text (lit "fs"); Text (lit "net")])])])].

Example C244_ex_loaded :
  exists c, load_document {[lit "net" := ApiConfig [lit "std::net"] [] []]} (fun _ _ => None) [] (lit "/w") mn_small
            = Some (Loaded c).
Proof.
  destruct (fits_follows 8 mn_small) as [H1 H2]; [by vm_compute|].
  apply (C244_loaded _ _ _ _ _ 3); [done|done|by vm_compute|done| | |].
  - intros api (l & Hl & Hin).
    assert (l = [Text (lit "net")]) as -> by (vm_compute in Hl; vm_compute; congruence).
    apply elem_of_list_singleton in Hin. injection Hin as ->. eexists. apply lookup_singleton.
  - intros pkg api (l & Hl & _). revert Hl. cbn [at_path]. assert (get (lit "pkg") mn_small = Some (Table
      [(lit "foo", Table [(lit "allow_apis", Array [Text (lit "fs"); Text (lit "net")])])])) as -> by by vm_compute.
    cbn [get]. destruct (str_eqb pkg (lit "foo")); [|done]. cbn [get]. lits. done.
  - intros pkg sc.
    assert (Hp : forall k i, at_path (section_path pkg sc ++ [k]) mn_small = Some i ->
              pkg = lit "foo" /\ sc = All).
    { intros k i. unfold section_path. cbn [app at_path].
      assert (get (lit "pkg") mn_small = Some (Table
        [(lit "foo", Table [(lit "allow_apis", Array [Text (lit "fs"); Text (lit "net")])])])) as Hg by by vm_compute.
      destruct sc; cbn [scope_path app]; cbn [at_path]; rewrite Hg; cbn [get];
        destruct (str_eqb pkg (lit "foo")) eqn:E; try done; apply str_eqb_spec in E as ->; [done|..];
        cbn [get]; lits; done. }
    split.
    + intros api (l & Hl & Hin). destruct (Hp _ _ Hl) as [-> ->].
      assert (l = [Text (lit "fs"); Text (lit "net")]) as -> by (vm_compute in Hl; vm_compute; congruence).
      rewrite !elem_of_cons, elem_of_nil in Hin. destruct Hin as [[= ->]|[[= ->]|[]]].
      * left. eexists. vm_compute. reflexivity.
      * right. eexists. split; [by vm_compute|left].
    + intros l Hl. destruct (Hp _ _ Hl) as [-> ->].
      assert (l = [Text (lit "fs"); Text (lit "net")]) as -> by (vm_compute in Hl; vm_compute; congruence).
      apply NoDup_cons. split; [|apply NoDup_singleton]. intros Hx%elem_of_list_singleton. discriminate.
Qed.

(** ** C245: what is required *)

(** Whatever is removed from a file that follows the manual, it is still read; only without a version it
    never is. *)
Theorem C245_only_version :
  forall (d : table) (v : Z) (path : list str),
  follows_the_manual d -> keys_once d -> names_version d v ->
  ((path <> [lit "common"] -> path <> [lit "common"; lit "version"] ->
    exists rc, decode (without path d) = Some rc) /\
   decode (without [lit "common"; lit "version"] d) = None).
Proof.
  intros d v path H Ho Hv. split.
  - intros H1 H2. apply (documented_reads (without path d) (without_follows path d H) v).
    + by apply without_once.
    + by apply without_version.
  - destruct (decode (without _ d)) as [rc|] eqn:E; [|done]. exfalso.
    apply (removed_version d). by eapply no_version_no_read.
Qed.
Print Assumptions C245_only_version.

(** A file that names nothing but a supported version is loaded. *)
Theorem C245_version_suffices :
  forall (built_ins : gmap str api_config) (exports : str -> list nat -> option (gmap str api_config))
         (idx : crate_index) (root : str) (v : Z),
  (1 <= v <= 3)%Z ->
  exists c, load_document built_ins exports idx root [(lit "common", Table [(lit "version", Integer v)])]
            = Some (Loaded c).
Proof.
  intros b ex idx root v Hv. set (d := [(lit "common", Table [(lit "version", Integer v)])]).
  assert (Hf : fits 2 [] d = true) by by vm_compute.
  destruct (fits_follows 2 d Hf) as [H1 H2].
  assert (Hno : forall k p i, at_path (k :: p) d = Some i -> k = lit "common").
  { intros k p i Hi. destruct (DocumentProofs.at_path_cons _ _ _ _ Hi) as (j & Hj & _). unfold d in Hj. cbn [get] in Hj.
    destruct (str_eqb k (lit "common")) eqn:E; [|done]. by apply str_eqb_spec. }
  apply (C244_loaded b ex idx root d v); try done.
  - intros api (l & Hl & _). exfalso. revert Hl. unfold d. cbn [at_path get]. lits. done.
  - intros pkg api (l & Hl & _). apply Hno in Hl. revert Hl. apply (bool_decide_unpack _). vm_compute. exact I.
  - intros pkg sc. split.
    + intros api (l & Hl & _). exfalso. apply Hno in Hl. revert Hl. apply (bool_decide_unpack _). vm_compute. exact I.
    + intros l Hl. exfalso. apply Hno in Hl. revert Hl. apply (bool_decide_unpack _). vm_compute. exact I.
Qed.
Print Assumptions C245_version_suffices.

Example C245_ex :
  let d := without [lit "pkg"; lit "crab1"; lit "from"] mn_settings in
  (exists rc, decode d = Some rc /\ section rc (lit "crab1") FromTest = None) /\
  (exists rc, decode mn_settings = Some rc /\ section rc (lit "crab1") FromTest <> None) /\
  decode (without [lit "common"] mn_settings) = None.
Proof.
  cbn zeta. split; [|split; [|by vm_compute]].
  - destruct (decode (without [lit "pkg"; lit "crab1"; lit "from"] mn_settings)) as [rc|] eqn:E.
    + exists rc. split; [done|].
      assert (H : option_map (fun rc => section rc (lit "crab1") FromTest)
                    (decode (without [lit "pkg"; lit "crab1"; lit "from"] mn_settings)) = Some None) by by vm_compute.
      rewrite E in H. cbn [option_map] in H. by injection H.
    + assert (H : bool_decide (is_Some (decode (without [lit "pkg"; lit "crab1"; lit "from"] mn_settings))) = true)
        by by vm_compute.
      rewrite E in H. done.
  - destruct (decode mn_settings) as [rc|] eqn:E.
    + exists rc. split; [done|]. intros Hn.
      assert (H : option_map (fun rc => match section rc (lit "crab1") FromTest with Some _ => true | None => false end)
                    (decode mn_settings) = Some true) by by vm_compute.
      rewrite E in H. cbn [option_map] in H. by rewrite Hn in H.
    + assert (H : bool_decide (is_Some (decode mn_settings)) = true) by by vm_compute. rewrite E in H. done.
Qed.

(** ** C246: the examples of the manual *)

(** Three of the examples, put into a file as they are printed, make every file unreadable: [import_std]
    and [features] are refused outside of the common section, and "Disable" is not a kind of sandbox. *)
Theorem C246_examples_refuted :
  exists examples : list table, examples = [import_example; disable_example; features_example] /\
  forall example d, example ∈ examples -> contains example d -> decode d = None.
Proof.
  eexists. split; [done|]. intros example d Hex Hc.
  assert (Hk : forall k i, k ∉ config_fields -> get k d = Some i -> decode d = None).
  { intros k i Hk Hg. unfold decode. destruct (known config_fields d) eqn:E; [|done].
    exfalso. apply Hk. unfold known in E. rewrite forallb_forall in E. apply get_in, elem_of_list_In, E in Hg.
    by apply mem_str_spec in Hg. }
  rewrite !elem_of_cons, elem_of_nil in Hex. destruct Hex as [-> |[-> |[-> |[]]]].
  - apply (Hk (lit "import_std") (Array [Text (lit "fs"); Text (lit "net"); Text (lit "process"); Text (lit "env");
                Text (lit "terminate")])).
    + apply (bool_decide_unpack _). vm_compute. exact I.
    + apply (Hc [lit "import_std"]); [by vm_compute|]. by intros [t [?|?]].
  - destruct (decode d) as [rc|] eqn:E; [|done]. exfalso.
    destruct (DocumentProofs.sandboxes d rc E) as [_ (Hkind & _)]. unfold kind_at in Hkind.
    assert (Hd : at_path ([lit "rustc"; lit "sandbox"] ++ [lit "kind"]) d = Some (Text (lit "Disable"))).
    { apply (Hc [lit "rustc"; lit "sandbox"; lit "kind"]); [by vm_compute|]. by intros [t [?|?]]. }
    rewrite Hd in Hkind. destruct (sb_kind (rc_rustc_sandbox rc)) as [[]|]; [| |done];
      vm_compute in Hkind; discriminate.
  - apply (Hk (lit "features") (Array [Text (lit "feature1"); Text (lit "feature2")])).
    + apply (bool_decide_unpack _). vm_compute. exact I.
    + apply (Hc [lit "features"]); [by vm_compute|]. by intros [t [?|?]].
Qed.
Print Assumptions C246_examples_refuted.

(** The file with the other examples and one of these. *)
Example C246_ex :
  contains disable_example
    [(lit "common", Table [(lit "version", Integer 2)]);
     (lit "rustc", Table [(lit "sandbox", Table [(lit "kind", Text (lit "Disable"))])])] /\
  decode [(lit "common", Table [(lit "version", Integer 2)]);
          (lit "rustc", Table [(lit "sandbox", Table [(lit "kind", Text (lit "Disable"))])])] = None /\
  exists rc, decode [(lit "common", Table [(lit "version", Integer 2)]);
          (lit "rustc", Table [(lit "sandbox", Table [(lit "kind", Text (lit "Disabled"))])])] = Some rc.
Proof.
  split; [|split; [by vm_compute|]].
  - intros path i Hp _. destruct path as [|k path]; [done|]. rewrite <- Hp. unfold disable_example.
    assert (Hk : str_eqb k (lit "common") = false).
    { destruct (str_eqb k (lit "common")) eqn:E; [|done]. apply str_eqb_spec in E as ->. exfalso.
      revert Hp. unfold disable_example. destruct path; cbn [at_path get]; lits; done. }
    destruct path; cbn [at_path get]; by rewrite Hk.
  - eexists. vm_compute. reflexivity.
Qed.
