(** Properties of the summary. *)
From Coq Require Import Lia.
From Verif Require Import Base BaseFacts ApiMapModel ConfigModel ProblemModel TomlModel EditorModel
  CheckerModel SummaryModel SummarySpec SummaryProofs EditorProps.

(** ** C41: content *)

(** Every package of the index once, in the order of the names, each with exactly the permissions of its
    own code and of its build script. *)
Theorem C41_packages :
  forall (idx : crate_index) (c : config),
  let l := summary idx c in
  map ps_name l ≡ₚ map pk_name idx /\
  StronglySorted (fun p q => str_leb (ps_name p) (ps_name q) = true) l /\
  forall p perm, p ∈ l -> (perm ∈ ps_permissions p <-> granted (cf_permissions c) (ps_name p) perm).
Proof.
  intros idx c. cbn zeta. unfold summary. split_and!.
  - rewrite sort_perm. by rewrite map_map.
  - apply sort_ordered.
  - intros p perm Hp. rewrite sort_perm in Hp. apply elem_of_list_fmap in Hp as (k & -> & _).
    rewrite summarise_spec. done.
Qed.
Print Assumptions C41_packages.

(** The packages listed for a permission are exactly those that have it. *)
Theorem C41_by_permission :
  forall (idx : crate_index) (c : config) (perm name : str),
  (exists names, by_permission (summary idx c) !! perm = Some names /\ name ∈ names) <->
  (name ∈ map pk_name idx /\ granted (cf_permissions c) name perm).
Proof.
  intros idx c perm name. rewrite by_permission_spec. unfold summary. setoid_rewrite sort_perm. split.
  - intros (p & Hp & <- & Hperm). apply elem_of_list_fmap in Hp as (k & -> & Hk).
    apply summarise_spec in Hperm. split; [|done]. apply elem_of_list_fmap. by exists k.
  - intros [Hn Hg]. apply elem_of_list_fmap in Hn as (k & -> & Hk). exists (summarise (cf_permissions c) (pk_name k)).
    split; [apply elem_of_list_fmap; by exists k|]. split; [done|]. by apply summarise_spec.
Qed.
Print Assumptions C41_by_permission.

(** The counts, for API names that do not look like other permissions. *)
Theorem C41_counts :
  forall (idx : crate_index) (c : config) (nothing impure : str -> bool),
  (forall name, nothing name = true <-> forall perm, ~ granted (cf_permissions c) name perm) ->
  (forall name, impure name = true <-> impure_proc_macro (cf_permissions c) name) ->
  (forall sel pc api, cf_permissions c !! sel = Some pc -> api ∈ pc_allow_apis pc -> plain_api api) ->
  summary_counts (summary idx c) =
    HCounts (length idx) (length (List.filter nothing (map pk_name idx)))
      (length (List.filter impure (map pk_name idx))).
Proof.
  intros idx c nothing impure Hn Hi Hplain. unfold summary_counts, summary. f_equal.
  - rewrite sort_perm. apply map_length.
  - rewrite (count_perm _ _ _ (sort_perm _)). apply count_map. intros name. rewrite Hn.
    pose proof (summarise_spec (cf_permissions c) name) as Hs.
    destruct (ps_permissions (summarise (cf_permissions c) name)) as [|x l].
    + split; [|done]. intros _ perm Hg. apply Hs in Hg. by apply elem_of_nil in Hg.
    + split; [done|]. intros H. destruct (H x). apply Hs. left.
  - rewrite (count_perm _ _ _ (sort_perm _)). apply count_map. intros name. rewrite Hi. by apply impure_spec.
Qed.
Print Assumptions C41_counts.

(** ** C107: which sections are printed *)

(** A section is printed if it is selected, if everything is, or if nothing is; in the given order; with
    headers if asked for or if there is more than one section. *)
Theorem C107_sections :
  forall (o : summary_options) (l : list package_summary),
  let out := summary_human o l in
  ((exists h, (h, HByPackage l) ∈ out) <-> wanted o so_by_package) /\
  ((exists h, (h, HByPermission (by_permission l)) ∈ out) <-> wanted o so_by_permission) /\
  ((exists h, (h, HImpure (List.filter proc_macro_with_others l)) ∈ out) <-> wanted o so_impure_proc_macros) /\
  ((exists h, (h, summary_counts l) ∈ out) <-> wanted o so_counts) /\
  forall h s, (h, s) ∈ out -> (h = true <-> so_print_headers o = true \/ 1 < length out).
Proof.
  intros [p q r s f hd j] l.
  assert (Hy : forall (a b : human_section) (h : bool) t, (exists x, (x, a) ∈ (h, b) :: t) <->
    a = b \/ exists x, (x, a) ∈ t).
  { intros a b h t. split.
    - intros [x Hx]. apply elem_of_cons in Hx as [[= -> ->]|Hx]; eauto.
    - intros [->|[x Hx]]; [exists h; left|exists x; by right]. }
  assert (Hz : forall a : human_section, (exists x : bool, (x, a) ∈ []) <-> False).
  { intros a. split; [|done]. intros [x Hx]. by apply elem_of_nil in Hx. }
  unfold wanted, nothing_selected. destruct p, q, r, s, f, hd;
    cbn [summary_human with_defaults num_selected so_by_package so_by_permission so_impure_proc_macros so_counts
      so_full so_print_headers so_json orb Nat.add app length];
    (split_and!;
      [rewrite ?Hy, ?Hz; unfold summary_counts; split; [intros Hx; auto 10; intuition congruence|
         intros Hx; auto 10; intuition congruence]..|
       intros h s' Hin; rewrite ?elem_of_cons in Hin;
       (assert (h = true \/ h = false) as [-> | ->] by (destruct h; auto));
       split; try done; intros Hh; try (right; lia); try (by left);
       try (destruct Hh as [Hh|Hh]; [discriminate Hh|]); try lia;
       repeat (destruct Hin as [Hin|Hin]; [congruence|]); by apply elem_of_nil in Hin]).
Qed.
Print Assumptions C107_sections.

(** The JSON output has the permissions of all packages, and those of the procedural macros with other
    permissions, if these are wanted. *)
Theorem C107_json :
  forall (o : summary_options) (idx : crate_index) (c : config),
  let l := summary idx c in
  (wanted o so_by_package -> exists m, summary_json o l !! lit "permissions_by_package" = Some m /\
     forall name perms, m !! name = Some perms <-> PackageSummary name perms ∈ l) /\
  (wanted o so_impure_proc_macros -> exists m, summary_json o l !! lit "impure_proc_macros" = Some m /\
     forall name perms, m !! name = Some perms <->
       PackageSummary name perms ∈ l /\ proc_macro_with_others (PackageSummary name perms) = true).
Proof.
  intros o idx c. cbn zeta. set (l := summary idx c).
  assert (Hsame : forall p q, p ∈ l -> q ∈ l -> ps_name p = ps_name q -> ps_permissions p = ps_permissions q).
  { intros p q Hp Hq. unfold l, summary in Hp, Hq. rewrite sort_perm in Hp, Hq.
    apply elem_of_list_fmap in Hp as (k1 & -> & _), Hq as (k2 & -> & _).
    cbn [summarise ps_name]. intros Hn. by rewrite Hn. }
  assert (N1 : lit "impure_proc_macros" <> lit "permissions_by_package") by (by apply (bool_decide_unpack _); vm_compute).
  assert (N2 : lit "permission_count" <> lit "permissions_by_package") by (by apply (bool_decide_unpack _); vm_compute).
  assert (N3 : lit "permission_count" <> lit "impure_proc_macros") by (by apply (bool_decide_unpack _); vm_compute).
  assert (Hw : forall field : summary_options -> bool,
    field = so_by_package \/ field = so_impure_proc_macros -> wanted o field -> field (with_defaults o) = true).
  { intros field Hf [H|[H|H]].
    - destruct o as [p q r s f hd j]. destruct Hf as [-> | ->]; cbn in *; rewrite H; apply orb_true_r.
    - destruct o as [p q r s f hd j]. cbn in H. subst f. by destruct Hf as [-> | ->].
    - destruct o as [p q r s f hd j]. destruct H as (H1 & H2 & H3 & H4 & H5). cbn in *. subst.
      by destruct Hf as [-> | ->]. }
  split; intros Hwanted.
  - pose proof (Hw so_by_package (or_introl eq_refl) Hwanted) as E. exists (by_package l). split.
    + unfold summary_json. rewrite E. destruct (so_counts (with_defaults o)); [rewrite lookup_insert_ne by done|];
      (destruct (so_impure_proc_macros (with_defaults o)); [rewrite lookup_insert_ne by done|]);
      (destruct (so_by_permission (with_defaults o)); [rewrite lookup_insert_ne by done|]); apply lookup_insert.
    + intros name perms. by apply by_package_spec.
  - pose proof (Hw so_impure_proc_macros (or_intror eq_refl) Hwanted) as E.
    exists (by_package (List.filter proc_macro_with_others l)). split.
    + unfold summary_json. rewrite E. destruct (so_counts (with_defaults o)); [rewrite lookup_insert_ne by done|];
      apply lookup_insert.
    + intros name perms.
      assert (Hin : forall p, p ∈ List.filter proc_macro_with_others l <-> p ∈ l /\ proc_macro_with_others p = true).
      { intros p. rewrite !elem_of_list_In. apply filter_In. }
      rewrite by_package_spec; [apply Hin|]. intros p q Hp Hq. apply Hin in Hp as [Hp _], Hq as [Hq _].
      by apply Hsame.
Qed.
Print Assumptions C107_json.

(** [foo] is a procedural macro with a build script; [bar] has nothing; there are two versions of [baz]. *)
Definition sum_idx : crate_index :=
  [Package (lit "foo") [1; 0; 0] true true true; Package (lit "bar") [1; 0; 0] false false false;
   Package (lit "baz") [1; 0; 0] false false false; Package (lit "baz") [2; 0; 0] false false false].
Definition sum_doc : table :=
  ed_doc 3 [(lit "foo", Table [(lit "allow_apis", Array [Text (lit "fs")]); (lit "allow_proc_macro", Flag true);
                               (lit "build", Table [(lit "allow_apis", Array [Text (lit "net")])])]);
            (lit "baz", Table [(lit "allow_unsafe", Flag true)])].
Definition sum_config : config := config_of (ed_load sum_idx sum_doc).
Definition sum_all : summary_options := SummaryOptions false false false false false false true.

Example C41_ex :
  ed_load sum_idx sum_doc = Some (Loaded sum_config) /\
  summary sum_idx sum_config =
    [PackageSummary (lit "bar") []; PackageSummary (lit "baz") [lit "unsafe"];
     PackageSummary (lit "baz") [lit "unsafe"];
     PackageSummary (lit "foo") (map lit ["proc_macro"; "fs"; "proc_macro[build]"; "fs[build]"; "net[build]"])] /\
  summary_counts (summary sum_idx sum_config) = HCounts 4 1 1 /\
  by_permission (summary sum_idx sum_config) !! lit "unsafe" = Some [lit "baz"; lit "baz"] /\
  by_package (summary sum_idx sum_config) !! lit "baz" = Some [lit "unsafe"].
Proof. split; [apply config_of_loaded; by vm_compute|by vm_compute]. Qed.

Example C41_ex_plain :
  Forall (fun e : perm_sel * package_config => Forall plain_api (pc_allow_apis e.2))
    (map_to_list (cf_permissions sum_config)).
Proof.
  assert (Forall (fun e : perm_sel * package_config => Forall (fun api =>
      starts_with (lit "proc_macro") api = false /\ ends_with (lit "[build]") api = false) (pc_allow_apis e.2))
    (map_to_list (cf_permissions sum_config))) as H by (vm_compute; by repeat constructor).
  eapply Forall_impl; [exact H|]. intros e He. eapply Forall_impl; [exact He|]. intros api. apply plain_api_spec.
Qed.

Example C107_ex :
  map fst (summary_human (SummaryOptions true false false false false false false) []) = [false] /\
  map fst (summary_human (SummaryOptions true false false true false false false) []) = [true; true] /\
  length (summary_human sum_all []) = 4 /\
  is_Some (summary_json sum_all (summary sum_idx sum_config) !! lit "permissions_by_package").
Proof. by split_and!. Qed.

(** ** C104: JSON by permission *)

(** The claim that the JSON output has the packages by permission if wanted fails: under no name are they
    there when everything is printed. *)
Theorem C104_json_refuted :
  exists (o : summary_options) (idx : crate_index) (c : config),
    wanted o so_by_permission /\
    forall key m, summary_json o (summary idx c) !! key = Some m -> m <> by_permission (summary idx c).
Proof.
  exists sum_all, sum_idx, sum_config. split; [right; right; done|].
  assert (Hkey : forall (l : list package_summary) key m, summary_json sum_all l !! key = Some m ->
    m = by_package l \/ m = by_package (List.filter proc_macro_with_others l)).
  { intros l key m. unfold summary_json.
    cbn [with_defaults num_selected sum_all so_by_package so_by_permission so_impure_proc_macros so_counts so_full
      orb Nat.add].
    generalize (by_package l), (by_package (List.filter proc_macro_with_others l)), (by_permission l).
    intros x y z.
    destruct (decide (key = lit "permission_count")) as [->|?]; [rewrite lookup_insert; intros [= <-]; by left|].
    rewrite lookup_insert_ne by done.
    destruct (decide (key = lit "impure_proc_macros")) as [->|?]; [rewrite lookup_insert; intros [= <-]; by right|].
    rewrite !lookup_insert_ne by done.
    destruct (decide (key = lit "permissions_by_package")) as [->|?]; [rewrite lookup_insert; intros [= <-]; by left|].
    by rewrite lookup_insert_ne. }
  intros key m Hm Hb. assert (m !! lit "unsafe" = None) as H1.
  { destruct (Hkey _ key m Hm) as [-> | ->]; by vm_compute. }
  subst m. assert (is_Some (by_permission (summary sum_idx sum_config) !! lit "unsafe")) as [x H2];
    [eexists; vm_compute; reflexivity|congruence].
Qed.
Print Assumptions C104_json_refuted.

(** Asked for alone, they are presented as procedural macros. *)
Theorem C104_name_refuted :
  exists (o : summary_options) (idx : crate_index) (c : config),
    wanted o so_by_permission /\ ~ wanted o so_impure_proc_macros /\
    (exists m, summary_json o (summary idx c) !! lit "impure_proc_macros" = Some m /\
       m !! lit "unsafe" = Some [lit "baz"; lit "baz"]) /\
    forall key, key <> lit "impure_proc_macros" -> summary_json o (summary idx c) !! key = None.
Proof.
  exists (SummaryOptions false true false false false false true), sum_idx, sum_config. split_and!.
  - by left.
  - intros [H|[H|(_ & _ & H & _)]]; done.
  - eexists. split; [apply lookup_insert|by vm_compute].
  - intros key Hk. unfold summary_json.
    cbn [with_defaults num_selected so_by_package so_by_permission so_impure_proc_macros so_counts so_full
      orb Nat.add]. by rewrite lookup_insert_ne.
Qed.
Print Assumptions C104_name_refuted.

(** ** C105: JSON counts *)

(** The claim that the JSON output has the counts if wanted fails: it has the lists instead. *)
Theorem C105_counts_refuted :
  exists (o : summary_options) (idx : crate_index) (c : config),
    wanted o so_counts /\ ~ wanted o so_by_package /\
    exists m, summary_json o (summary idx c) !! lit "permission_count" = Some m /\
      m !! lit "baz" = Some [lit "unsafe"] /\
      forall key, key <> lit "permission_count" -> summary_json o (summary idx c) !! key = None.
Proof.
  exists (SummaryOptions false false false true false false true), sum_idx, sum_config. split_and!.
  - by left.
  - intros [H|[H|(_ & _ & _ & _ & H)]]; done.
  - eexists. split; [apply lookup_insert|]. split; [by vm_compute|]. intros key Hk. unfold summary_json.
    cbn [with_defaults num_selected so_by_package so_by_permission so_impure_proc_macros so_counts so_full
      orb Nat.add]. by rewrite lookup_insert_ne.
Qed.
Print Assumptions C105_counts_refuted.

(** ** C106: packages without special permissions *)

(** The claim that a package counted among those without special permissions has none fails: permissions of
    tests, and of code used from build scripts and tests, are not looked at. *)
Definition sum_test_doc : table :=
  ed_doc 3 [(lit "foo", Table [(lit "test", Table [(lit "allow_apis", Array [Text (lit "process")])])])].

Theorem C106_no_permissions_refuted :
  exists (idx : crate_index) (d : table) (c : config) (sel : perm_sel) (pc : package_config),
    ed_load idx d = Some (Loaded c) /\
    cf_permissions c !! sel = Some pc /\ lit "process" ∈ pc_allow_apis pc /\
    PackageSummary sel.1 [] ∈ summary idx c.
Proof.
  set (c := config_of (ed_load ed_idx sum_test_doc)).
  assert (H : match cf_permissions c !! (lit "foo", Test) with
              | Some pc => bool_decide (lit "process" ∈ pc_allow_apis pc)
              | None => false
              end = true) by by vm_compute.
  destruct (cf_permissions c !! (lit "foo", Test)) as [pc|] eqn:E; [|done].
  exists ed_idx, sum_test_doc, c, (lit "foo", Test), pc.
  split; [apply config_of_loaded; by vm_compute|]. split; [done|]. split; [by apply bool_decide_eq_true in H|].
  replace (summary ed_idx c) with [PackageSummary (lit "foo") []] by by vm_compute. left.
Qed.
Print Assumptions C106_no_permissions_refuted.

(** ** C108: names of APIs *)

(** The claim that the procedural macros called out are exactly those with other permissions fails for APIs
    whose names look like other permissions. *)
Definition sum_api_doc (allow : list (str * item)) (api : string) : table :=
  [(lit "common", Table [(lit "version", Integer 3)]);
   (lit "api", Table [(lit api, ed_api (lit "std::fs"))]);
   (lit "pkg", Table [(lit "foo", Table ((lit "allow_apis", Array [Text (lit api)]) :: allow))])].

Theorem C108_names_refuted :
  exists (idx : crate_index) (c : config) (p : package_summary),
    p ∈ summary idx c /\ proc_macro_with_others p = true /\
    ~ impure_proc_macro (cf_permissions c) (ps_name p).
Proof.
  set (c := config_of (ed_load ed_idx (sum_api_doc [(lit "allow_unsafe", Flag true)] "proc_macro_server"))).
  assert (Hall : forall sel, match cf_permissions c !! sel with Some pc => pc_allow_proc_macro pc | None => false end = false).
  { intros sel. destruct (cf_permissions c !! sel) as [pc|] eqn:E; [|done].
    apply elem_of_map_to_list in E.
    assert (Forall (fun e : perm_sel * package_config => pc_allow_proc_macro e.2 = false)
      (map_to_list (cf_permissions c))) as Hf by (vm_compute; by repeat constructor).
    rewrite Forall_forall in Hf. exact (Hf _ E). }
  exists ed_idx, c, (summarise (cf_permissions c) (lit "foo")). split_and!.
  - replace (summary ed_idx c) with [summarise (cf_permissions c) (lit "foo")] by by vm_compute. left.
  - by vm_compute.
  - intros [(pc & sc & _ & E & Hp) _]. specialize (Hall (ps_name (summarise (cf_permissions c) (lit "foo")), sc)).
    rewrite E in Hall. congruence.
Qed.
Print Assumptions C108_names_refuted.

Theorem C108_hidden_refuted :
  exists (idx : crate_index) (c : config) (p : package_summary),
    p ∈ summary idx c /\ proc_macro_with_others p = false /\
    impure_proc_macro (cf_permissions c) (ps_name p).
Proof.
  set (c := config_of (ed_load ed_idx (sum_api_doc [(lit "allow_proc_macro", Flag true)] "proc_macro_server"))).
  assert (H : match cf_permissions c !! (lit "foo", All) with
              | Some pc => pc_allow_proc_macro pc && negb (bool_decide (pc_allow_apis pc = []))
              | None => false
              end = true) by by vm_compute.
  destruct (cf_permissions c !! (lit "foo", All)) as [pc|] eqn:E; [|done].
  apply andb_true_iff in H as [H1 H2]. apply negb_true_iff, bool_decide_eq_false in H2.
  exists ed_idx, c, (summarise (cf_permissions c) (lit "foo")). split_and!.
  - replace (summary ed_idx c) with [summarise (cf_permissions c) (lit "foo")] by by vm_compute. left.
  - by vm_compute.
  - split; [exists pc, All; split_and!; [by left|done|done]|]. exists pc. split; [done|]. auto.
Qed.
Print Assumptions C108_hidden_refuted.
