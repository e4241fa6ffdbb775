(** Proofs about what the help of fixes promises. *)
From stdpp Require Import gmap.
From Verif Require Import Base BaseFacts ApiMapModel ConfigModel ConfigSpec ConfigProofs ConfigLoadProofs ReloadProofs
  ProblemModel CheckerSpec CollectModel CollectSpec TomlModel EditorModel EditorSpec EditorProofs
  EditorApiProofs EditorFixProofs ReportModel TitleModel HelpModel HelpSpec.

(** ** The text *)
Definition meaning_of (s : scope) : crate_sel -> pkg_id -> Prop :=
  match s with
  | All => fun _ _ => True
  | Build => fun binary p => cs_kind binary = BuildScript /\ cs_pkg binary = p
  | Test => fun binary p => cs_kind binary = TestCrate /\ cs_pkg binary = p
  | FromBuild => fun binary p => cs_kind binary = BuildScript
  | FromTest => fun binary p => cs_kind binary = TestCrate
  end.

Lemma help_shape (vt : list nat -> str) (un : pkg_id -> bool) (p : pkg_id) (api : str) (s : scope) :
  exists tail, allow_help vt un p api s =
    lit "Allow `" ++ pkg_display (shown_id vt un p) ++ lit "` to use `" ++ api ++ lit "` API" ++ tail /\
  tail = match s with
    | All => lit " in any binary"
    | Build => lit ", but only in its own build script"
    | Test => lit ", but only in its own tests"
    | FromBuild => lit ", but only from build scripts"
    | FromTest => lit ", but only from tests"
    end.
Proof.
  eexists. split; [|reflexivity]. unfold allow_help, quoted.
  rewrite <- !app_assoc. reflexivity.
Qed.

Lemma help_says (vt : list nat -> str) (un : pkg_id -> bool) (p : pkg_id) (api : str) (s : scope)
    (m : crate_sel -> pkg_id -> Prop) :
  says (pkg_display (shown_id vt un p)) api (allow_help vt un p api s) m <-> m = meaning_of s.
Proof.
  destruct (help_shape vt un p api s) as (tail & -> & Ht).
  set (x := pkg_display _).
  assert (Hinj : forall t t' : str,
    lit "Allow `" ++ x ++ lit "` to use `" ++ api ++ lit "` API" ++ t =
    lit "Allow `" ++ x ++ lit "` to use `" ++ api ++ lit "` API" ++ t' -> t = t').
  { intros t t' H. by do 5 apply app_inv_head in H. }
  split.
  - remember (lit "Allow `" ++ x ++ lit "` to use `" ++ api ++ lit "` API" ++ tail) as text eqn:E.
    intros H. revert E. destruct H; intros E; symmetry in E.
    + apply (Hinj _ (lit " in any binary")) in E. subst tail. destruct s; try discriminate E; reflexivity.
    + apply (Hinj _ (lit ", but only in its own build script")) in E. subst tail. destruct s; try discriminate E; reflexivity.
    + apply (Hinj _ (lit ", but only in its own tests")) in E. subst tail. destruct s; try discriminate E; reflexivity.
    + apply (Hinj _ (lit ", but only from build scripts")) in E. subst tail. destruct s; try discriminate E; reflexivity.
    + apply (Hinj _ (lit ", but only from tests")) in E. subst tail. destruct s; try discriminate E; reflexivity.
  - intros ->. subst tail. destruct s; cbn [meaning_of].
    + apply says_any.
    + apply says_own_script.
    + apply says_own_tests.
    + apply says_scripts.
    + apply says_tests.
Qed.

(** In a binary the section [s] applies to the code of a package exactly where the text says. *)
Lemma meaning_chain (binary : crate_sel) (p : pkg_id) (s s' : scope) :
  scope_in binary p s' -> (s ∈ chain s' <-> meaning_of s binary p).
Proof.
  unfold scope_in. destruct (cs_kind binary) eqn:Ek;
    [intros ->|intros [[-> ->]|[H ->]]|intros [[-> ->]|[H ->]]];
    destruct s; cbn [meaning_of chain]; rewrite ?Ek, ?elem_of_cons, ?elem_of_list_singleton, ?elem_of_nil;
    (split; [intros G|intros G]); try done; try tauto; try (right; tauto);
    try (repeat (destruct G as [G|G]; try done)); try (destruct G as [? G]; by subst); auto.
Qed.

(** ** Other definitions *)
Section definitions.
  Context (b b' : gmap str api_config).

  Lemma merge_fold_other (imports : list str) (m m' r : gmap str api_config) (S : list str) :
    fold_res (merge_built_in b) imports m = Ok r ->
    (forall i, i ∈ imports -> is_Some (b' !! i)) -> (forall i, i ∈ imports -> i ∈ S) ->
    (forall k, is_Some (m' !! k) <-> is_Some (m !! k)) -> (forall k, k ∉ S -> m' !! k = m !! k) ->
    exists r', fold_res (merge_built_in b') imports m' = Ok r' /\
      (forall k, is_Some (r' !! k) <-> is_Some (r !! k)) /\ (forall k, k ∉ S -> r' !! k = r !! k).
  Proof.
    revert m m'. induction imports as [|i imports IH]; intros m m'; cbn [fold_res].
    - intros [= <-] _ _ H1 H2. by exists m'.
    - unfold merge_built_in at 1 3. destruct (b !! i) as [x|]; [|done]. intros Hr Hb HS H1 H2.
      destruct (Hb i ltac:(left)) as [x' Hx']. rewrite Hx'.
      apply (IH _ _ Hr).
      + intros k Hk. apply Hb. by right.
      + intros k Hk. apply HS. by right.
      + intros k. destruct (decide (k = i)) as [->|Hne].
        * rewrite !lookup_insert. split; by eexists.
        * rewrite !lookup_insert_ne by congruence. apply H1.
      + intros k Hk. destruct (decide (k = i)) as [->|Hne].
        * destruct Hk. apply HS. left.
        * rewrite !lookup_insert_ne by congruence. by apply H2.
  Qed.

  Lemma parse_raw_other (rc r : raw_config) :
    parse_raw b rc = Ok r -> (forall i, i ∈ rc_import_std rc -> is_Some (b' !! i)) ->
    exists m, parse_raw b' rc = Ok (set_apis r m) /\
      (forall k, is_Some (m !! k) <-> is_Some (rc_apis r !! k)) /\
      (forall k, k ∉ rc_import_std rc -> m !! k = rc_apis r !! k).
  Proof.
    unfold parse_raw, merge_built_ins.
    destruct (fold_res (merge_built_in b) (rc_import_std rc) (rc_apis rc)) as [a|] eqn:E; [|done].
    intros [= <-] Hb.
    destruct (merge_fold_other _ _ (rc_apis rc) _ (rc_import_std rc) E Hb) as (m & Hm & H1 & H2); [done..|].
    rewrite Hm. exists m. fold (patched (set_import_std (set_apis rc a) [])).
    rewrite patched_apis. change (rc_apis (set_import_std (set_apis rc a) [])) with a.
    split; [|done]. by rewrite <- patched_set_apis.
  Qed.

  Lemma imports_other (idx : crate_index) (ex : str -> list nat -> option (gmap str api_config))
      (l : list (str * package_config)) (S : list str) (a a1 a' : gmap str api_config) :
    fold_res (import_package idx ex) l a = Ok a1 ->
    (forall k, is_Some (a' !! k) <-> is_Some (a !! k)) -> (forall k, k ∉ S -> a' !! k = a !! k) ->
    exists a1', fold_res (import_package idx ex) l a' = Ok a1' /\
      (forall k, is_Some (a1' !! k) <-> is_Some (a1 !! k)) /\ (forall k, k ∉ S -> a1' !! k = a1 !! k).
  Proof.
    revert a a'. induction l as [|[pkg pc] l IH]; intros a a'; cbn [fold_res].
    - intros [= <-] H1 H2. by exists a'.
    - destruct (import_package idx ex a (pkg, pc)) as [a2|] eqn:E; [|done]. intros Hr H1 H2.
      apply import_package_iff in E as (I1 & I2 & I3).
      assert (exists a2', import_package idx ex a' (pkg, pc) = Ok a2' /\
        (forall k, is_Some (a2' !! k) <-> is_Some (a2 !! k)) /\ (forall k, k ∉ S -> a2' !! k = a2 !! k))
        as (a2' & -> & J1 & J2).
      { assert (Hfresh : forall q d, source_in idx ex [(pkg, pc)] q d -> a' !! q = None).
        { intros q d Hs. apply I2 in Hs. destruct (a' !! q) eqn:Eq; [|done].
          assert (is_Some (a !! q)) as [? Hq] by (apply H1; by eexists). congruence. }
        destruct (import_package idx ex a' (pkg, pc)) as [a2'|e] eqn:E'.
        - exists a2'. split; [done|]. apply import_package_iff in E' as (K1 & K2 & K3).
          assert (Hk : forall k, k ∉ S \/ (exists d, source_in idx ex [(pkg, pc)] k d) -> a2' !! k = a2 !! k).
          { intros k Hk. apply option_eq. intros d. rewrite K1, I1.
            destruct Hk as [Hk|[d' Hk]]; [by rewrite H2|].
            rewrite (Hfresh _ _ Hk), (I2 _ _ Hk). done. }
          split; [|intros k Hk; apply Hk; by left] || (split; [|intros k Hn; apply Hk; by left]).
          intros k. split.
          + intros [d Hd]. pose proof Hd as [H|H]%K1.
            * assert (is_Some (a !! k)) as [d0 ?] by (apply H1; by eexists). exists d0. apply I1. by left.
            * exists d. apply I1. by right.
          + intros [d Hd]. pose proof Hd as [H|H]%I1.
            * assert (is_Some (a' !! k)) as [d0 ?] by (apply H1; by eexists). exists d0. apply K1. by left.
            * exists d. apply K1. by right.
        - exfalso. unfold import_package in E'. destruct (pc_import pc) as [[|i imports]|] eqn:EI; try done.
          destruct (I3 _ eq_refl) as (v & Hv & [exported Hx]); [done|].
          pose proof (proj2 (newest_version_iff _ _ _) Hv) as Hv2. rewrite Hv2, Hx in E'.
          apply import_api_fold_err in E' as (api & d & Hin & Hi & [d' Hd] & _); [|apply NoDup_fst_map_to_list].
          rewrite (Hfresh (pkg ++ lit "::" ++ api) d) in Hd; [done|].
          exists pkg, pc, (i :: imports), v, exported, api.
          apply elem_of_map_to_list in Hin. split; [left|done]. }
      by apply (IH _ _ Hr).
  Qed.

  (** Loading the same document with other built-in definitions. *)
  Lemma load_other (ex : str -> list nat -> option (gmap str api_config)) (idx : crate_index) (root : str)
      (d : table) (rc : raw_config) (c : config) :
    decode d = Some rc -> load_document b ex idx root d = Some (Loaded c) ->
    (forall i, i ∈ rc_import_std rc -> is_Some (b' !! i)) ->
    exists c', load_document b' ex idx root d = Some (Loaded c') /\
      same_but_definitions (rc_import_std rc) c c'.
  Proof.
    intros Hd (rc' & Hd' & Hl)%load_document_inv Hb. assert (rc' = rc) as -> by congruence.
    destruct (load_config_inv _ _ _ _ _ _ Hl) as (r1 & r2 & H1 & H2 & H3 & Hval & Hc).
    destruct (parse_raw_other rc r1 H1 Hb) as (m & Hp & P1 & P2).
    unfold load_document. rewrite Hd. cbn [fmap option_fmap option_map]. unfold load_config. rewrite Hp.
    unfold load_imports in *. cbn [rc_packages rc_apis set_apis].
    destruct (fold_res (import_package idx ex) (map_to_list (rc_packages r1)) (rc_apis r1)) as [a1|] eqn:E; [|done].
    destruct (imports_other idx ex _ (rc_import_std rc) _ _ m E P1 P2) as (a1' & -> & Q1 & Q2).
    assert (r2 = set_packages (set_apis r1 a1)
      ((fun pc => set_import pc ((fun _ => []) <$> pc_import pc)) <$> rc_packages r1)) as -> by congruence.
    rewrite make_paths_absolute_total in H3 |- *. cbn [rc_packages set_packages set_apis] in H3 |- *.
    assert (cf_raw c = set_packages (set_apis r1 a1) (abs_package root <$>
      ((fun pc => set_import pc ((fun _ => []) <$> pc_import pc)) <$> rc_packages r1))) as Hr.
    { injection H3 as <-. done. }
    match goal with |- context [validate ?r] => assert (validate r = []) as -> end.
    { apply validate_spec in Hval as [V1 V2]. apply validate_spec. rewrite Hr in V1, V2. split; [done|].
      intros pkg s sec Hs. destruct (V2 pkg s sec Hs) as (W1 & W2 & W3). split_and!; [|done..].
      intros a Ha. cbn [rc_apis set_apis set_packages] in *. apply Q1. by apply W1. }
    eexists. split; [reflexivity|]. rewrite Hc, Hr. unfold same_but_definitions.
    cbn [cf_raw cf_permissions rc_version rc_explicit_build_scripts rc_sandbox rc_rustc_sandbox rc_apis
         set_packages set_apis].
    split_and!; done.
  Qed.
End definitions.

(** Loading the same document with packages that export other APIs. *)
Lemma load_exports (b : gmap str api_config) (ex ex' : str -> list nat -> option (gmap str api_config))
    (idx : crate_index) (root : str) (d : table) (rc : raw_config) (c c' : config) :
  decode d = Some rc -> load_document b ex idx root d = Some (Loaded c) ->
  load_document b ex' idx root d = Some (Loaded c') ->
  rc_version (cf_raw c') = rc_version (cf_raw c) /\
  rc_explicit_build_scripts (cf_raw c') = rc_explicit_build_scripts (cf_raw c) /\
  rc_sandbox (cf_raw c') = rc_sandbox (cf_raw c) /\
  rc_rustc_sandbox (cf_raw c') = rc_rustc_sandbox (cf_raw c) /\
  cf_permissions c' = cf_permissions c /\
  forall api, (forall x, ~ import_source idx ex rc api x) -> (forall x, ~ import_source idx ex' rc api x) ->
    rc_apis (cf_raw c') !! api = rc_apis (cf_raw c) !! api.
Proof.
  intros Hd (rc1 & Hd1 & Hl)%load_document_inv (rc2 & Hd2 & Hl')%load_document_inv.
  assert (rc1 = rc) as -> by congruence. assert (rc2 = rc) as -> by congruence.
  destruct (load_config_inv _ _ _ _ _ _ Hl) as (r1 & r2 & H1 & H2 & H3 & _ & Hc).
  destruct (load_config_inv _ _ _ _ _ _ Hl') as (r1' & r2' & H1' & H2' & H3' & _ & Hc').
  assert (r1' = r1) as -> by congruence.
  assert (Hapi : forall api, (forall x, ~ import_source idx ex rc api x) ->
    (forall x, ~ import_source idx ex' rc api x) -> rc_apis (cf_raw c') !! api = rc_apis (cf_raw c) !! api).
  { assert (Hp : forall e api x, import_source idx e r1 api x -> import_source idx e rc api x).
    { intros e api x. unfold import_source. by rewrite (parse_raw_packages _ _ _ H1). }
    intros api N N'. transitivity (rc_apis r1 !! api).
    - symmetry. apply (apis_before_imports ex' idx root r1 r2' c' api H2' H3').
      intros x Hx. by apply (N' x), Hp.
    - apply (apis_before_imports ex idx root r1 r2 c api H2 H3). intros x Hx. by apply (N x), Hp. }
  rewrite make_paths_absolute_total in H3, H3'.
  assert (R : exists m, cf_raw c' = set_apis (cf_raw c) m).
  { unfold load_imports in H2, H2'.
    destruct (fold_res (import_package idx ex) _ _) as [a|]; [|done].
    destruct (fold_res (import_package idx ex') _ _) as [a'|]; [|done].
    injection H2 as <-. injection H2' as <-. injection H3 as H3. injection H3' as H3'.
    exists a'. rewrite <- H3, <- H3'. done. }
  destruct R as [m R]. split_and!; [by rewrite R..| |done].
  rewrite Hc, Hc'. cbn [cf_permissions]. apply perms_same; by rewrite R.
Qed.

(** ** Copied definitions *)
Lemma inline_imports (api : str) (def : api_config) (d d' : table) (rc : raw_config) :
  decode d = Some rc -> inline_api api def d = Some d' ->
  exists m, decode d' = Some (set_apis rc m).
Proof.
  intros Hd Hi. eexists.
  by apply (decode_in_api api _ _ d d' rc (implements_inline (ac_include def) (ac_exclude def)) Hd).
Qed.

(** ** Uses *)
Lemma may_use_iff (c : config) (binary : crate_sel) (p : pkg_id) (api : str) (s : scope) :
  scope_in binary p s -> (may_use c binary p api <-> permitted c (pi_name p, s) api).
Proof.
  intros Hs. split; [|by exists s].
  intros (s' & Hs' & H). assert (s' = s) as ->; [|done].
  unfold scope_in in *. destruct (cs_kind binary); [congruence|..];
    destruct Hs as [[? ->]|[? ->]], Hs' as [[? ->]|[? ->]]; done.
Qed.

Lemma scope_exists (binary : crate_sel) (p : pkg_id) : exists s, scope_in binary p s.
Proof.
  unfold scope_in. destruct (cs_kind binary); [by eexists|..];
    destruct (decide (p = cs_pkg binary)); eauto.
Qed.

Lemma allow_means (c c' : config) (pkg api : str) (s : scope) (binary : crate_sel) (p : pkg_id) :
  changes_only c c' pkg s AApis (fun e e' => adds api (pc_allow_apis e) (pc_allow_apis e')) ->
  (forall s', scope_in binary p s' -> is_Some (cf_permissions c !! (pi_name p, s'))) ->
  forall a, may_use c' binary p a <->
    may_use c binary p a \/ a = api /\ pi_name p = pkg /\ meaning_of s binary p.
Proof.
  intros [_ H] Hsome a. destruct (scope_exists binary p) as [s' Hs'].
  rewrite !(may_use_iff _ _ _ _ s') by done. rewrite <- (meaning_chain binary p s s') by done.
  specialize (H (pi_name p, s')). destruct (Hsome s' Hs') as [e He]. unfold permitted. rewrite He in *.
  destruct (cf_permissions c' !! (pi_name p, s')) as [e'|]; [|done].
  destruct H as (_ & H1 & H2). cbn [fst snd] in *.
  assert (G : (exists e0, Some e' = Some e0 /\ a ∈ pc_allow_apis e0) <-> a ∈ pc_allow_apis e').
  { split; [intros (? & [= <-] & ?); done|by eexists]. }
  assert (G' : (exists e0, Some e = Some e0 /\ a ∈ pc_allow_apis e0) <-> a ∈ pc_allow_apis e).
  { split; [intros (? & [= <-] & ?); done|by eexists]. }
  rewrite G, G'.
  destruct (decide (pi_name p = pkg)) as [Hp|Hp]; [destruct (decide (s ∈ chain s')) as [Hc|Hc]|].
  - rewrite (H1 (conj Hp Hc) a). tauto.
  - cbn [agree] in H2. rewrite H2; [|tauto]. tauto.
  - cbn [agree] in H2. rewrite H2; [|tauto]. tauto.
Qed.
