(** C215-C218: what the help of fixes promises. *)
From stdpp Require Import gmap.
From Verif Require Import Base BaseFacts ApiMapModel ConfigModel ConfigSpec ConfigProofs ConfigLoadProofs
  ReloadProofs ProblemModel CheckerSpec CollectModel CollectSpec TomlModel EditorModel EditorSpec EditorProofs
  EditorApiProofs EditorFixProofs ReportModel TitleModel HelpModel HelpSpec HelpProofs EditorProps.

(** ** C215: allowing the use of an API *)

(** The help of a fix that allows the use of an API has one meaning. After the fix the packages of that
    name may use the API in the binaries that the help names, in addition to those in which they could
    use it before. Nothing else becomes permitted or forbidden. *)
Theorem C215_allowed :
  forall (built_ins : gmap str api_config) (exports : str -> list nat -> option (gmap str api_config))
         (idx : crate_index) (root : str) (usable : sandbox_kind -> bool)
         (failed_in : nat -> sandbox_config) (exported : nat -> api_config)
         (prefixes : bool -> list api_usage -> option (list str))
         (version_text : list nat -> str) (unique : pkg_id -> bool)
         (p : problem) (u : api_usages) (c : config) (sel : perm_sel) (api : str) (d d' : table)
         (e : package_config),
  (p = PDisallowedApiUsage u \/ exists owner, p = POffTreeApiUsage u owner) ->
  AllowApiUsage sel api ∈ fixes_for_problem failed_in exported prefixes p c ->
  load_document built_ins exports idx root d = Some (Loaded c) ->
  index_selector idx (pi_name (au_pkg u)) (au_scope u) ->
  is_Some (rc_apis (cf_raw c) !! au_api u) ->
  cf_permissions c !! (pi_name (au_pkg u), au_scope u) = Some e -> au_api u ∉ pc_allow_apis e ->
  apply_edit usable built_ins (AllowApiUsage sel api) d = Some d' ->
  exists c' meaning,
    load_document built_ins exports idx root d' = Some (Loaded c') /\
    (forall m, says (pkg_display (shown_id version_text unique (au_pkg u))) api
                 (allow_help version_text unique (au_pkg u) api sel.2) m <-> m = meaning) /\
    forall binary q a,
      (forall s, scope_in binary q s -> index_selector idx (pi_name q) s) ->
      (may_use c' binary q a <->
       may_use c binary q a \/ a = api /\ pi_name q = pi_name (au_pkg u) /\ meaning binary q).
Proof.
  intros b ex idx root usable failed_in exported prefixes vt un p u c sel api d d' e Hp Hf Hl Hi Ha He Hn Hap.
  destruct (allow_fix_effect b ex idx root usable failed_in exported prefixes p u sel api d d' c e
    Hl Hi Ha He Hn Hp Hf Hap) as (c' & Hl' & Hch & _).
  apply (allow_fix ex failed_in exported prefixes p u sel api c Hp) in Hf as (-> & H1 & H2).
  exists c', (meaning_of sel.2). split; [done|]. split; [intros m; apply help_says|].
  intros binary q a Hq. apply (allow_means c c'); [done|].
  intros s Hs. pose proof (Hq s Hs) as Hidx. pose proof Hidx as (k & Hk & Hkn & _).
  destruct (load_document_inv _ _ _ _ _ _ Hl) as (rc & _ & Hlc).
  destruct (load_config_inv _ _ _ _ _ _ Hlc) as (_ & _ & _ & _ & _ & _ & Hc).
  rewrite Hc. cbn [cf_permissions]. rewrite <- Hkn in *. rewrite (effective_lookup _ _ _ _ Hk).
  rewrite decide_True by (right; done). by eexists.
Qed.
Print Assumptions C215_allowed.

(** The use of [net] in the tests of [foo] is permitted "only in its own tests", but not in those of
    others; the other fix permits it in all tests. *)
Definition hp_net (e : edit) (s : scope) : option bool :=
  (fun l => bool_decide (lit "net" ∈ l)) <$> granted_apis (ed_load ed_idx (edited_doc e (ed_doc 3 ed_foo)))
    (lit "foo", s).

Example C215_ex :
  let u := ed_usage Test (lit "net") in
  let c := config_of (ed_load ed_idx (ed_doc 3 ed_foo)) in
  let own := AllowApiUsage (lit "foo", Test) (lit "net") in
  let all := AllowApiUsage (lit "foo", FromTest) (lit "net") in
  ed_load ed_idx (ed_doc 3 ed_foo) = Some (Loaded c) /\
  own ∈ fixes_for_problem (fun _ => sandbox_default) no_export no_prefixes (PDisallowedApiUsage u) c /\
  all ∈ fixes_for_problem (fun _ => sandbox_default) no_export no_prefixes (PDisallowedApiUsage u) c /\
  index_selector ed_idx (lit "foo") Test /\
  allow_help (fun _ => lit "1.0.0") (fun _ => true) ed_pkg (lit "net") Test =
    lit "Allow `foo` to use `net` API, but only in its own tests" /\
  hp_net own Test = Some true /\ hp_net own FromTest = Some false /\ hp_net own All = Some false /\
  hp_net all Test = Some true /\ hp_net all FromTest = Some true /\ hp_net all All = Some false.
Proof.
  cbn zeta. split; [apply config_of_loaded; by vm_compute|].
  split.
  { apply (proj2 (allow_fix nothing_exported (fun _ => sandbox_default) _ _ _ (ed_usage Test (lit "net")) _ _ _ (or_introl eq_refl))).
    split; [done|]. split; [done|]. left. }
  split.
  { apply (proj2 (allow_fix nothing_exported (fun _ => sandbox_default) _ _ _ (ed_usage Test (lit "net")) _ _ _ (or_introl eq_refl))).
    split; [done|]. split; [done|]. right. left. }
  split; [exists (Package (lit "foo") [1; 0; 0] true true true); split; [left|done]|].
  by vm_compute.
Qed.

(** ** C216: built-in definitions in later versions *)

(** "Changes to the API definition in future versions of cackle will not affect your configuration"
    (config_editor.rs:588-589): once a definition has been copied, a version of cackle with other
    built-in definitions that still has those that the file imports finds the same definition of that
    API, the same settings and the same permissions. *)
Theorem C216_copied :
  forall (built_ins later : gmap str api_config) (exports : str -> list nat -> option (gmap str api_config))
         (idx : crate_index) (root : str) (usable : sandbox_kind -> bool) (api : str) (def : api_config)
         (d d' : table) (rc : raw_config) (c : config),
  decode d = Some rc -> load_document built_ins exports idx root d = Some (Loaded c) ->
  (forall x, ~ import_source idx exports rc api x) -> api ∉ rc_import_std rc ->
  (forall i, i ∈ rc_import_std rc -> is_Some (later !! i)) ->
  built_ins !! api = Some def ->
  apply_edit usable built_ins (InlineStdApi api) d = Some d' ->
  exists c1 c2,
    load_document built_ins exports idx root d' = Some (Loaded c1) /\
    load_document later exports idx root d' = Some (Loaded c2) /\
    changes_api c c1 api (includes_definition def) /\
    same_but_definitions (rc_import_std rc) c1 c2 /\
    rc_apis (cf_raw c2) !! api = rc_apis (cf_raw c1) !! api.
Proof.
  intros b b' ex idx root usable api def d d' rc c Hd Hl Hno Hn Hb' Hb Ha.
  cbn [apply_edit] in Ha. rewrite Hb in Ha.
  destruct (inline_api_effect b ex idx root api def d d' c Hl) as (c1 & L1 & E1); [|done|].
  { intros rc' x Hrc. assert (rc' = rc) as -> by congruence. apply Hno. }
  destruct (inline_imports api def d d' rc Hd Ha) as [m Hd'].
  destruct (load_other b b' ex idx root d' _ c1 Hd' L1 Hb') as (c2 & L2 & S2).
  exists c1, c2. split_and!; try done. by apply S2.
Qed.
Print Assumptions C216_copied.

(** "Subsequent versions of Cackle may add/remove paths from this API" (config_editor.rs:541-542): an
    imported API is defined as the version of cackle that reads the file defines it. *)
Theorem C216_imported :
  forall (built_ins later : gmap str api_config) (exports : str -> list nat -> option (gmap str api_config))
         (idx : crate_index) (root : str) (usable : sandbox_kind -> bool) (api : str) (def' : api_config)
         (d d' : table) (rc : raw_config) (c : config),
  decode d = Some rc -> load_document built_ins exports idx root d = Some (Loaded c) ->
  (forall x, ~ import_source idx exports rc api x) -> api ∉ rc_import_std rc ->
  (forall i, i ∈ rc_import_std rc -> is_Some (later !! i)) ->
  later !! api = Some def' ->
  apply_edit usable built_ins (ImportStdApi api) d = Some d' ->
  exists c1 c2,
    load_document later exports idx root d = Some (Loaded c1) /\
    load_document later exports idx root d' = Some (Loaded c2) /\
    same_but_definitions (rc_import_std rc) c c1 /\
    changes_api c1 c2 api (includes_definition def').
Proof.
  intros b b' ex idx root usable api def' d d' rc c Hd Hl Hno Hn Hall Hb' Ha.
  destruct (load_other b b' ex idx root d rc c Hd Hl Hall) as (c1 & L1 & S1).
  pose proof L1 as (rc' & Hd' & L1')%load_document_inv. assert (rc' = rc) as -> by congruence.
  destruct (import_std_effect b' ex idx root usable api def' d d' rc c1 Hd L1' Hno Hn Hb' Ha) as (c2 & L2 & E2).
  exists c1, c2. eauto 10.
Qed.
Print Assumptions C216_imported.

Definition hp_later : gmap str api_config :=
  {[lit "env" := ApiConfig [lit "std::env"; lit "core::env"] [] []]}.

Example C216_ex :
  let d := ed_doc 3 ed_foo in
  let after := fun b e => d' ← apply_edit any_kind ed_built_ins e d;
    ed_def (load_document b nothing_exported ed_idx (lit "/w") d') (lit "env") in
  after ed_built_ins (InlineStdApi (lit "env")) = Some (ApiConfig [lit "std::env"] [lit "std::env::VarError"] []) /\
  after hp_later (InlineStdApi (lit "env")) = after ed_built_ins (InlineStdApi (lit "env")) /\
  after hp_later (ImportStdApi (lit "env")) = Some (ApiConfig [lit "std::env"; lit "core::env"] [] []).
Proof. by vm_compute. Qed.

(** ** C217: exported definitions in later versions *)

(** "Any changes made to the API definition by the third-party crate will not be used"
    (config_editor.rs:619-620): once a definition has been copied, it does not matter for any API that is
    not imported what packages export, as long as the file can be loaded; neither does it for
    settings and permissions. *)
Theorem C217_copied :
  forall (built_ins : gmap str api_config)
         (exports later : str -> list nat -> option (gmap str api_config))
         (idx : crate_index) (root : str) (usable : sandbox_kind -> bool) (pkg api : str)
         (def : api_config) (d d' : table) (c c2 : config),
  load_document built_ins exports idx root d = Some (Loaded c) ->
  (exists p, p ∈ idx /\ pk_name p = pkg) ->
  (forall q x, api <> q ++ lit "::" ++ x) ->
  apply_edit usable built_ins (InlineApi pkg api def) d = Some d' ->
  load_document built_ins later idx root d' = Some (Loaded c2) ->
  exists c1,
    load_document built_ins exports idx root d' = Some (Loaded c1) /\
    changes_api c c1 api (includes_definition def) /\
    rc_apis (cf_raw c2) !! api = rc_apis (cf_raw c1) !! api /\
    (forall a, (forall q x, a <> q ++ lit "::" ++ x) ->
       rc_apis (cf_raw c2) !! a = rc_apis (cf_raw c1) !! a) /\
    rc_version (cf_raw c2) = rc_version (cf_raw c1) /\
    rc_sandbox (cf_raw c2) = rc_sandbox (cf_raw c1) /\
    rc_rustc_sandbox (cf_raw c2) = rc_rustc_sandbox (cf_raw c1) /\
    cf_permissions c2 = cf_permissions c1.
Proof.
  intros b ex ex' idx root usable pkg api def d d' c c2 Hl Hp Hname Ha L2.
  assert (Hsrc : forall a, (forall q x, a <> q ++ lit "::" ++ x) -> forall e r y, ~ import_source idx e r a y).
  { intros a Hna e r y (q & pc & i & v & m & x & _ & _ & _ & _ & _ & _ & H). by apply (Hna q x). }
  destruct (C87_inline b ex idx root usable pkg api def d d' c Hl Hp) as (c1 & L1 & E1 & _); [|done|].
  { intros rc x _. by apply Hsrc. }
  exists c1. pose proof L1 as (rc & Hd' & _)%load_document_inv.
  destruct (load_exports b ex ex' idx root d' rc c1 c2 Hd' L1 L2) as (H1 & H2 & H3 & H4 & H5 & H6).
  split_and!; try done.
  - apply H6; intros x; by apply Hsrc.
  - intros a Hna. apply H6; intros x; by apply Hsrc.
Qed.
Print Assumptions C217_copied.

Definition hp_exports (pkg : str) (v : list nat) : option (gmap str api_config) :=
  if str_eqb pkg (lit "foo") then Some {[lit "net" := ApiConfig [lit "foo::net"; lit "foo::network"] [] []]} else None.

Example C217_ex :
  let d := ed_doc 3 ed_foo in
  let d' := edited_doc (InlineApi (lit "foo") (lit "net") (ApiConfig [lit "foo::net"] [] [])) d in
  let i := edited_doc (ImportApi (lit "foo") (lit "net")) d in
  let found := fun ex d api => ed_def (load_document ∅ ex ed_idx (lit "/w") d) api in
  found ed_exports d' (lit "net") = Some (ApiConfig [lit "foo::net"; lit "std::net"] [] []) /\
  found hp_exports d' (lit "net") = found ed_exports d' (lit "net") /\
  found hp_exports i (lit "foo::net") = Some (ApiConfig [lit "foo::net"; lit "foo::network"] [] []).
Proof. by vm_compute. Qed.

(** ** C218: several APIs of one package *)

(** Accepting the import of one of two APIs that a package exports has the effect that the other one,
    about which nothing was decided, is neither defined nor offered in later runs. *)
Definition hp_two (pkg : str) (v : list nat) : option (gmap str api_config) :=
  Some {[lit "net" := ApiConfig [lit "foo::net"] [] []; lit "disk" := ApiConfig [lit "foo::disk"] [] []]}.

Theorem C218_refuted :
  exists (idx : crate_index) (d d' : table) (c c' : config) (pkg : pkg_id) (api other : str)
         (def def' : api_config),
    load_document ∅ hp_two idx (lit "/w") d = Some (Loaded c) /\
    (pkg, api, def) ∈ unused_imports hp_two idx (cf_raw c) /\
    (pkg, other, def') ∈ unused_imports hp_two idx (cf_raw c) /\ api <> other /\
    apply_edit any_kind ∅ (ImportApi (pi_name pkg) api) d = Some d' /\
    load_document ∅ hp_two idx (lit "/w") d' = Some (Loaded c') /\
    (forall a x, rc_apis (cf_raw c') !! a = Some x -> lit "foo::disk" ∉ ac_include x) /\
    unused_imports hp_two idx (cf_raw c') = [].
Proof.
  set (idx := [Package (lit "foo") [1; 0; 0] false false false]).
  set (d := ed_doc 3 []). set (d' := edited_doc (ImportApi (lit "foo") (lit "net")) d).
  set (ld := load_document ∅ hp_two idx (lit "/w")).
  exists idx, d, d', (config_of (ld d)), (config_of (ld d')), (PkgId (lit "foo") [1; 0; 0]), (lit "net"), (lit "disk"),
    (ApiConfig [lit "foo::net"] [] []), (ApiConfig [lit "foo::disk"] [] []).
  split; [apply config_of_loaded; by vm_compute|].
  assert (H : forall e, e ∈ unused_imports hp_two idx (cf_raw (config_of (ld d))) <->
    e ∈ [(PkgId (lit "foo") [1; 0; 0], lit "disk", ApiConfig [lit "foo::disk"] [] []);
     (PkgId (lit "foo") [1; 0; 0], lit "net", ApiConfig [lit "foo::net"] [] [])]).
  { intros e.
    assert (Hu : Permutation (unused_imports hp_two idx (cf_raw (config_of (ld d))))
      [(PkgId (lit "foo") [1; 0; 0], lit "disk", ApiConfig [lit "foo::disk"] [] []);
       (PkgId (lit "foo") [1; 0; 0], lit "net", ApiConfig [lit "foo::net"] [] [])]).
    { vm_compute. (reflexivity || apply perm_swap). }
    by rewrite Hu. }
  split; [apply H; right; left|]. split; [apply H; left|]. split; [done|].
  split; [by vm_compute|]. split; [apply config_of_loaded; by vm_compute|].
  split; [|by vm_compute].
  intros a x Hx.
  assert (Hall : forallb (fun e : str * api_config => negb (bool_decide (lit "foo::disk" ∈ ac_include e.2)))
    (map_to_list (rc_apis (cf_raw (config_of (ld d'))))) = true) by by vm_compute.
  rewrite forallb_forall in Hall. apply elem_of_map_to_list, elem_of_list_In in Hx.
  specialize (Hall _ Hx). cbn [snd] in Hall. apply negb_true_iff, bool_decide_eq_false in Hall. done.
Qed.
Print Assumptions C218_refuted.
