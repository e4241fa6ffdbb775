(** C146-C151: changes of the definitions of APIs that are offered as fixes. *)
From Verif Require Import Base BaseFacts TextModel TextFacts ApiMapModel ApiMapSpec ApiMapProofs ConfigModel ConfigSpec
  ProblemModel CollectModel CollectSpec CollectProofs TomlModel EditorModel EditorSpec EditorMoreProofs EditorProps
  PrefixModel PrefixSpec PrefixProofs.

(** ** C146: which paths are common to all usages *)

Theorem C146_common :
  forall (l : list sym_or_debug),
  match common_prefixes l with
  | Some out =>
      (forall x, x ∈ l -> ~ unreadable x) /\ alphabetical out /\
      exists paths, NoDup paths /\ out ≡ₚ map written paths /\ forall p, p ∈ paths <-> shared l p
  | None => exists x, x ∈ l /\ unreadable x
  end.
Proof. exact common_prefixes_spec. Qed.
Print Assumptions C146_common.

(** A method of [Path], and the implementation of a trait of [std::fs] for [Path]. *)
Definition px_method : sym_or_debug := FromDebug (DebugName [lit "std"; lit "path"; lit "Path"] (lit "read")).
Definition px_trait : sym_or_debug := FromDebug (DebugName [] (lit "<std::path::Path as std::fs::T>::f")).

Example C146_ex :
  common_prefixes [px_method; px_trait] = Some [lit "std"; lit "std::path"; lit "std::path::Path"] /\
  common_prefixes [px_trait] =
    Some [lit "std"; lit "std::fs"; lit "std::fs::T"; lit "std::fs::T::f"; lit "std::path"; lit "std::path::Path"] /\
  common_prefixes [FromSymbol (lit "_ZN3std2fs4readE"); px_trait] = Some [lit "std"; lit "std::fs"] /\
  common_prefixes [px_trait; FromDebug (DebugName [] (lit "{"))] = Some [] /\
  common_prefixes [] = Some [].
Proof. by vm_compute. Qed.

(** ** C147: excluding a path *)


(** Which exclusions are offered. *)
Theorem C147_offered :
  forall (failed_in : nat -> sandbox_config) (exported : nat -> api_config)
         (ends : bool -> api_usage -> sym_or_debug) (p : problem) (u : api_usages) (c : config) (api path : str),
  p = PDisallowedApiUsage u \/ (exists owner, p = POffTreeApiUsage u owner) ->
  ExcludeFromApi api path ∈ fixes_for_problem failed_in exported (prefixes_of ends) p c <->
  api = au_api u /\ (forall x, x ∈ au_usages u -> ~ unreadable (ends false x)) /\
  (exists q, path = written q /\ shared (map (ends false) (au_usages u)) q) /\
  exists x, rc_apis (cf_raw c) !! api = Some x /\ path ∉ ac_include x /\
    exists inc rest, inc ∈ ac_include x /\ path = inc ++ lit "::" ++ rest.
Proof.
  intros failed_in exported ends p u c api path Hp.
  rewrite (exclude_offered _ _ _ _ _ _ _ _ Hp), exclude_fixes_spec, offered_paths. split.
  - intros (-> & (Hr & Hq) & Hx). split_and!; [done| |done|done]. intros x Hin. apply Hr. by apply elem_of_list_fmap_1.
  - intros (-> & Hr & Hq & Hx). split_and!; [done| |done|done].
    intros x Hin. apply elem_of_list_fmap in Hin as (y & -> & Hy). by apply Hr.
Qed.
Print Assumptions C147_offered.

(** Once an offered exclusion is applied and the file is loaded again, exactly the names below the path
    have left the API, and every usage that was complained about refers to such a name. *)
Theorem C147_excluded :
  forall (built_ins : gmap str api_config) (exports : str -> list nat -> option (gmap str api_config))
         (idx : crate_index) (root : str) (usable : sandbox_kind -> bool) (failed_in : nat -> sandbox_config)
         (exported : nat -> api_config) (ends : bool -> api_usage -> sym_or_debug) (p : problem) (u : api_usages)
         (c : config) (d d' : table) (api path : str),
  load_document built_ins exports idx root d = Some (Loaded c) ->
  (forall rc x, decode d = Some rc -> ~ import_source idx exports rc api x) ->
  p = PDisallowedApiUsage u \/ (exists owner, p = POffTreeApiUsage u owner) ->
  ExcludeFromApi api path ∈ fixes_for_problem failed_in exported (prefixes_of ends) p c ->
  apply_edit usable built_ins (ExcludeFromApi api path) d = Some d' ->
  exists q c', path = written q /\ load_document built_ins exports idx root d' = Some (Loaded c') /\
    (plain_path q ->
     (forall x, x ∈ au_usages u -> exists name, has_name (ends false x) name /\ q `prefix_of` name /\
        ~ in_api c' name api) /\
     forall name a, in_api c' name a <-> in_api c name a /\ ~ (a = api /\ q `prefix_of` name)).
Proof.
  intros b ex idx root usable failed_in exported ends p u c d d' api path Hl Hno Hp He Ha.
  apply (C147_offered _ _ _ _ _ _ _ _ Hp) in He as (-> & _ & (q & -> & Hs) & _).
  destruct (C90_definitions b ex idx root usable (au_api u) (written q) d d' c Hl Hno) as (_ & H & _).
  destruct (H Ha) as (c' & Hl' & Hc). exists q, c'. split_and!; [done|done|]. intros Hplain.
  pose proof (exclude_classified c c' (au_api u) _ q eq_refl Hplain Hc) as Hcl. split; [|exact Hcl].
  intros x Hx. destruct Hs as (_ & _ & Hs). destruct (Hs (ends false x)) as (name & Hn & Hq).
  { by apply elem_of_list_fmap_1. }
  exists name. split_and!; [done|done|]. rewrite Hcl. tauto.
Qed.
Print Assumptions C147_excluded.

(** ** C148: including a path *)

Theorem C148_offered :
  forall (failed_in : nat -> sandbox_config) (exported : nat -> api_config)
         (ends : bool -> api_usage -> sym_or_debug) (u : api_usages) (owner : pkg_id) (c : config) (api path : str),
  ExtendApi api path ∈ fixes_for_problem failed_in exported (prefixes_of ends) (POffTreeApiUsage u owner) c <->
  api = au_api u /\ (forall x, x ∈ au_usages u -> ~ unreadable (ends true x)) /\
  (exists q, path = written q /\ shared (map (ends true) (au_usages u)) q) /\
  exists x, rc_apis (cf_raw c) !! api = Some x /\ path ∉ ac_exclude x /\ path ∉ ac_include x /\
    forall inc rest, inc ∈ ac_include x -> path <> inc ++ lit "::" ++ rest.
Proof.
  intros failed_in exported ends u owner c api path.
  rewrite (include_offered _ _ _ _ _ _ _ _ _ eq_refl), include_fixes_spec, offered_paths. split.
  - intros (-> & (Hr & Hq) & Hx). split_and!; [done| |done|done]. intros x Hin. apply Hr. by apply elem_of_list_fmap_1.
  - intros (-> & Hr & Hq & Hx). split_and!; [done| |done|done].
    intros x Hin. apply elem_of_list_fmap in Hin as (y & -> & Hy). by apply Hr.
Qed.
Print Assumptions C148_offered.

(** Once an offered inclusion is applied and the file is loaded again, the API has got exactly those names
    below the path that it does not exclude; every usage comes from some name below the path. *)
Theorem C148_included :
  forall (built_ins : gmap str api_config) (exports : str -> list nat -> option (gmap str api_config))
         (idx : crate_index) (root : str) (usable : sandbox_kind -> bool) (failed_in : nat -> sandbox_config)
         (exported : nat -> api_config) (ends : bool -> api_usage -> sym_or_debug) (u : api_usages) (owner : pkg_id)
         (c : config) (d d' : table) (api path : str),
  load_document built_ins exports idx root d = Some (Loaded c) ->
  (forall rc x, decode d = Some rc -> ~ import_source idx exports rc api x) ->
  ExtendApi api path ∈ fixes_for_problem failed_in exported (prefixes_of ends) (POffTreeApiUsage u owner) c ->
  apply_edit usable built_ins (ExtendApi api path) d = Some d' ->
  exists q c', path = written q /\ load_document built_ins exports idx root d' = Some (Loaded c') /\
    (plain_path q ->
     (forall x, x ∈ au_usages u -> exists name, has_name (ends true x) name /\ q `prefix_of` name /\
        (in_api c' name api <-> ~ excluded_in c api name)) /\
     forall name a, in_api c' name a <->
       in_api c name a \/ (a = api /\ q `prefix_of` name /\ ~ excluded_in c api name)).
Proof.
  intros b ex idx root usable failed_in exported ends u owner c d d' api path Hl Hno He Ha.
  apply C148_offered in He as (-> & _ & (q & -> & Hs) & _).
  destruct (C90_definitions b ex idx root usable (au_api u) (written q) d d' c Hl Hno) as (H & _).
  destruct (H Ha) as (c' & Hl' & Hc). exists q, c'. split_and!; [done|done|]. intros Hplain.
  pose proof (include_classified c c' (au_api u) _ q eq_refl Hplain Hc) as Hcl. split; [|exact Hcl].
  intros x Hx. destruct Hs as (_ & _ & Hs). destruct (Hs (ends true x)) as (name & Hn & Hq).
  { by apply elem_of_list_fmap_1. }
  exists name. split_and!; [done|done|]. rewrite Hcl. split; [|intros Hne; by right].
  intros [Hin|(_ & _ & Hne)]; [|done]. apply in_api_spec in Hin as (y & Ey & _ & Hne).
  intros (z & r & Ez & Hr & Hp). rewrite Ey in Ez. injection Ez as <-. apply Hne. exists r. by rewrite <- covers_split.
Qed.
Print Assumptions C148_included.

Global Instance px_edit_eq_dec : EqDecision edit.
Proof. solve_decision. Defined.

(** Documents that define one API. *)
Definition px_strs (l : list str) : item := Array (map Text l).
Definition px_doc (include exclude : list str) : table :=
  [(lit "common", Table [(lit "version", Integer 3)]);
   (lit "api", Table [(lit "fs", Table [(lit "include", px_strs include); (lit "exclude", px_strs exclude)])]);
   (lit "pkg", Table [(lit "foo", Table [])])].

Definition px_config (d : table) : config := config_of (ed_load ed_idx d).

(** The function [foo::bar::f] calls the trait's function for [Path]. *)
Definition px_from : sym_or_debug := FromDebug (DebugName [lit "foo"; lit "bar"] (lit "f")).
Definition px_ends (from : bool) (_ : api_usage) : sym_or_debug := if from then px_from else px_trait.
Definition px_name : list str := [lit "std"; lit "fs"; lit "T"; lit "f"].
Definition px_usage : api_usage := ApiUsage px_name None 0.
Definition px_usages : api_usages := ApiUsages ed_pkg All (lit "fs") [px_usage].
Definition px_fixes (p : problem) (d : table) : list edit :=
  fixes_for_problem (fun _ => sandbox_default) no_export (prefixes_of px_ends) p (px_config d).
Definition px_after (e : edit) (d : table) : config := px_config (edited_doc e d).

(** No API of a document without imports is imported. *)
Lemma px_no_import (include exclude : list str) (rc : raw_config) (api : str) (x : api_config) :
  decode (px_doc include exclude) = Some rc -> ~ import_source ed_idx nothing_exported rc api x.
Proof. intros _ (pkg & pc & imports & v & exported & a & _ & _ & _ & _ & E & _). discriminate. Qed.

(** Whether the name belongs to [fs]. *)
Definition px_fs (c : config) (name : list str) : bool := bool_decide (lit "fs" ∈ apis_under (rc_apis (cf_raw c)) name).
Lemma px_in (c : config) (name : list str) : px_fs c name = true <-> in_api c name (lit "fs").
Proof. unfold px_fs. rewrite bool_decide_eq_true. apply apis_under_classifies. Qed.

Example C147_ex :
  let d := px_doc [lit "std::fs"] [] in
  let e := ExcludeFromApi (lit "fs") (lit "std::fs::T") in
  bool_decide (e ∈ px_fixes (PDisallowedApiUsage px_usages) d) = true /\
  bool_decide (e ∈ px_fixes (POffTreeApiUsage px_usages ed_pkg) d) = true /\
  bool_decide (ExcludeFromApi (lit "fs") (lit "std::fs") ∈ px_fixes (PDisallowedApiUsage px_usages) d) = false /\
  bool_decide (ExcludeFromApi (lit "fs") (lit "std::path") ∈ px_fixes (PDisallowedApiUsage px_usages) d) = false /\
  px_fs (px_config d) px_name = true /\
  px_fs (px_after e d) px_name = false /\
  px_fs (px_after e d) [lit "std"; lit "fs"; lit "read"] = true.
Proof. split_and!; by vm_compute. Qed.

Example C148_ex :
  let d := px_doc [lit "std::fs"] [] in
  let e := ExtendApi (lit "fs") (lit "foo::bar") in
  bool_decide (e ∈ px_fixes (POffTreeApiUsage px_usages ed_pkg) d) = true /\
  bool_decide (e ∈ px_fixes (PDisallowedApiUsage px_usages) d) = false /\
  px_fs (px_config d) [lit "foo"; lit "bar"; lit "f"] = false /\
  px_fs (px_after e d) [lit "foo"; lit "bar"; lit "f"] = true /\
  px_fs (px_after e d) [lit "foo"; lit "baz"] = false.
Proof. split_and!; by vm_compute. Qed.

(** ** C149: an offered inclusion may have no effect *)

Theorem C149_included_refuted :
  exists (ends : bool -> api_usage -> sym_or_debug) (d d' : table) (c c' : config) (u : api_usages) (owner : pkg_id)
         (api path : str),
    load_document ∅ nothing_exported ed_idx (lit "/w") d = Some (Loaded c) /\
    ExtendApi api path ∈ fixes_for_problem (fun _ => sandbox_default) no_export (prefixes_of ends)
      (POffTreeApiUsage u owner) c /\
    apply_edit any_kind ∅ (ExtendApi api path) d = Some d' /\
    load_document ∅ nothing_exported ed_idx (lit "/w") d' = Some (Loaded c') /\
    forall name api, in_api c' name api <-> in_api c name api.
Proof.
  set (d := px_doc [lit "std::fs"] [lit "foo"]).
  set (e := ExtendApi (lit "fs") (lit "foo::bar")).
  assert (Hl : ed_load ed_idx d = Some (Loaded (px_config d))) by (apply config_of_loaded; by vm_compute).
  assert (Ha : apply_edit any_kind ∅ e d = Some (edited_doc e d)) by (by vm_compute).
  destruct (C90_definitions ∅ nothing_exported ed_idx (lit "/w") any_kind (lit "fs") (lit "foo::bar") d (edited_doc e d)
    (px_config d) Hl) as (H & _).
  { intros rc x. apply px_no_import. }
  destruct (H Ha) as (c' & Hl' & Hc).
  exists px_ends, d, (edited_doc e d), (px_config d), c', px_usages, ed_pkg, (lit "fs"), (lit "foo::bar").
  split_and!; [exact Hl| |exact Ha|exact Hl'|].
  - apply (bool_decide_unpack _). vm_compute. exact I.
  - assert (E : lit "foo::bar" = written [lit "foo"; lit "bar"]) by (by vm_compute).
    assert (Hp : plain_path [lit "foo"; lit "bar"]).
    { split; [done|]. intros x Hx Hc0. revert Hc0. apply (bool_decide_unpack _). revert x Hx. apply Forall_forall.
      repeat (constructor; [by vm_compute|]). constructor. }
    intros name a. rewrite (include_classified _ _ _ _ _ E Hp Hc). split; [|tauto].
    intros [Hin|(-> & [rest ->] & Hne)]; [done|]. destruct Hne.
    exists (ApiConfig [lit "std::fs"] [lit "foo"] []), (lit "foo"). split_and!.
    + by vm_compute.
    + apply elem_of_list_singleton. done.
    + apply covers_split. exists (lit "bar" :: rest). by vm_compute.
Qed.
Print Assumptions C149_included_refuted.

(** ** C150: an offered exclusion may leave the usage in the API *)

Theorem C150_excluded_refuted :
  exists (ends : bool -> api_usage -> sym_or_debug) (d d' : table) (c c' : config) (u : api_usages) (x : api_usage)
         (api path : str),
    load_document ∅ nothing_exported ed_idx (lit "/w") d = Some (Loaded c) /\
    x ∈ au_usages u /\ has_name (ends false x) (us_to_name x) /\ in_api c (us_to_name x) api /\
    ExcludeFromApi api path ∈ fixes_for_problem (fun _ => sandbox_default) no_export (prefixes_of ends)
      (PDisallowedApiUsage u) c /\
    apply_edit any_kind ∅ (ExcludeFromApi api path) d = Some d' /\
    load_document ∅ nothing_exported ed_idx (lit "/w") d' = Some (Loaded c') /\
    in_api c' (us_to_name x) api.
Proof.
  set (d := px_doc [lit "std::fs"; lit "std::path"] []).
  set (e := ExcludeFromApi (lit "fs") (lit "std::path::Path")).
  exists px_ends, d, (edited_doc e d), (px_config d), (px_after e d), px_usages, px_usage, (lit "fs"), (lit "std::path::Path").
  split_and!.
  - apply config_of_loaded. by vm_compute.
  - by apply elem_of_list_singleton.
  - exists [[lit "std"; lit "path"; lit "Path"]; px_name], []. split; [apply names_read_spec; vm_compute; reflexivity|]. left. by do 2 constructor.
  - apply px_in. vm_compute. reflexivity.
  - apply (bool_decide_unpack _). vm_compute. exact I.
  - by vm_compute.
  - apply config_of_loaded. by vm_compute.
  - apply px_in. vm_compute. reflexivity.
Qed.
Print Assumptions C150_excluded_refuted.

(** ** C151: an offered exclusion may change nothing *)

Theorem C151_unchanged_refuted :
  exists (ends : bool -> api_usage -> sym_or_debug) (d : table) (c : config) (u : api_usages) (x : api_usage)
         (api path : str),
    load_document ∅ nothing_exported ed_idx (lit "/w") d = Some (Loaded c) /\
    x ∈ au_usages u /\ has_name (ends false x) (us_to_name x) /\ in_api c (us_to_name x) api /\
    ExcludeFromApi api path ∈ fixes_for_problem (fun _ => sandbox_default) no_export (prefixes_of ends)
      (PDisallowedApiUsage u) c /\
    apply_edit any_kind ∅ (ExcludeFromApi api path) d = Some d.
Proof.
  set (d := px_doc [lit "std::fs"; lit "std::path"] [lit "std::path::Path"]).
  exists px_ends, d, (px_config d), px_usages, px_usage, (lit "fs"), (lit "std::path::Path").
  split_and!.
  - apply config_of_loaded. by vm_compute.
  - by apply elem_of_list_singleton.
  - exists [[lit "std"; lit "path"; lit "Path"]; px_name], []. split; [apply names_read_spec; vm_compute; reflexivity|]. left. by do 2 constructor.
  - apply px_in. vm_compute. reflexivity.
  - apply (bool_decide_unpack _). vm_compute. exact I.
  - by vm_compute.
Qed.
Print Assumptions C151_unchanged_refuted.
