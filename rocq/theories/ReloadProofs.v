(** What loading does after the packages of a configuration were changed. *)
From stdpp Require Import sorting.
From Verif Require Import Base BaseFacts ApiMapModel ConfigModel ConfigSpec ConfigProofs ConfigLoadProofs.

(** ** Absolute paths *)
Definition abs_sandbox (root : str) (s : sandbox_config) : sandbox_config :=
  SandboxConfig (sb_kind s) (sb_extra_args s) (sb_allow_network s)
    (map (path_join root) (sb_bind_writable s)) (map (path_join root) (sb_make_writable s))
    (sb_pass_env s).

Fixpoint abs_package (root : str) (pc : package_config) : package_config :=
  PackageConfig (pc_allow_unsafe pc) (pc_allow_extern pc) (pc_allow_build_instructions pc)
    (pc_allow_apis pc) (pc_allow_proc_macro pc)
    (match pc_build pc with None => None | Some b => Some (abs_package root b) end)
    (match pc_test pc with None => None | Some b => Some (abs_package root b) end)
    (pc_from pc) (abs_sandbox root (pc_sandbox pc)) (pc_import pc).

Lemma abs_package_unfold (root : str) (pc : package_config) :
  abs_package root pc =
  PackageConfig (pc_allow_unsafe pc) (pc_allow_extern pc) (pc_allow_build_instructions pc)
    (pc_allow_apis pc) (pc_allow_proc_macro pc) (abs_package root <$> pc_build pc)
    (abs_package root <$> pc_test pc) (pc_from pc) (abs_sandbox root (pc_sandbox pc)) (pc_import pc).
Proof. by destruct pc. Qed.

Lemma absolute_paths_total (root : str) (ps : list str) :
  absolute_paths (Some root) ps = Ok (map (path_join root) ps).
Proof.
  induction ps as [|p ps IH]; cbn [absolute_paths map]; [done|]. rewrite IH.
  unfold path_join. by destruct (is_absolute p).
Qed.

Lemma package_absolute_total (root : str) : forall pc, package_absolute (Some root) pc = Ok (abs_package root pc).
Proof.
  fix IH 1. intros pc. rewrite package_absolute_unfold, abs_package_unfold.
  unfold sandbox_absolute. rewrite !absolute_paths_total.
  destruct pc as [a b c d e f g h i j]; cbn [pc_build pc_test pc_sandbox pc_from pc_import
    pc_allow_unsafe pc_allow_extern pc_allow_build_instructions pc_allow_apis pc_allow_proc_macro].
  assert (Ho : forall o : option package_config,
    match o with Some x => package_absolute (Some root) x = Ok (abs_package root x) | None => True end ->
    opt_package_absolute (Some root) o = Ok (abs_package root <$> o)).
  { intros [x|] H; cbn; [by rewrite H|done]. }
  rewrite (Ho f), (Ho g).
  - done.
  - destruct g as [x|]; [apply IH|done].
  - destruct f as [x|]; [apply IH|done].
Qed.

Lemma make_paths_absolute_total (root : str) (rc : raw_config) :
  make_paths_absolute (Some root) rc = Ok (set_packages rc (abs_package root <$> rc_packages rc)).
Proof.
  assert (Hf : forall l m, exists m', fold_res (absolute_package_entry (Some root)) l m = Ok m').
  { induction l as [|[k v] l IH]; intros m; cbn [fold_res]; [eauto|].
    unfold absolute_package_entry at 1. cbn [snd fst]. by rewrite package_absolute_total. }
  assert (H : exists rc', make_paths_absolute (Some root) rc = Ok rc').
  { unfold make_paths_absolute. destruct (Hf (map_to_list (rc_packages rc)) (rc_packages rc)) as [m ->]. eauto. }
  destruct H as [rc' H]. rewrite H. f_equal.
  assert (Hp : rc_packages rc' = abs_package root <$> rc_packages rc).
  { apply map_eq. intros k. rewrite lookup_fmap.
    pose proof (make_paths_absolute_lookup (Some root) rc rc' k H) as Hk.
    destruct (rc_packages rc !! k) as [pc|]; [|done].
    destruct Hk as (pc' & H1 & H2). rewrite package_absolute_total in H1. rewrite H2. cbn. congruence. }
  unfold make_paths_absolute in H. destruct (fold_res _ _ _) as [m|]; [|done].
  assert (rc' = set_packages rc m) as -> by congruence. cbn in Hp. by rewrite Hp.
Qed.

(** ** Imports *)
Lemma import_package_iff (idx : crate_index) (ex : str -> list nat -> option (gmap str api_config))
    (apis apis' : gmap str api_config) (pkg : str) (pc : package_config) :
  import_package idx ex apis (pkg, pc) = Ok apis' <->
  (forall q d, apis' !! q = Some d <-> apis !! q = Some d \/ source_in idx ex [(pkg, pc)] q d) /\
  (forall q d, source_in idx ex [(pkg, pc)] q d -> apis !! q = None) /\
  (forall imports, pc_import pc = Some imports -> imports <> [] ->
     exists v, is_newest idx pkg v /\ is_Some (ex pkg v)).
Proof.
  split; [apply import_package_ok|]. intros (H1 & H2 & H3).
  destruct (import_package idx ex apis (pkg, pc)) as [a|e] eqn:E.
  - f_equal. apply import_package_ok in E as (G1 & _). apply map_eq. intros q.
    apply option_eq. intros d. by rewrite G1, H1.
  - exfalso. unfold import_package in E. destruct (pc_import pc) as [[|i imports]|] eqn:EI; try done.
    destruct (H3 _ eq_refl) as (v & Hv & [exported Hx]); [done|].
    pose proof (proj2 (newest_version_iff _ _ _) Hv) as Hv2. rewrite Hv2, Hx in E.
    apply import_api_fold_err in E as (api & d & Hin & Hi & [d' Hd] & _); [|apply NoDup_fst_map_to_list].
    rewrite (H2 (pkg ++ lit "::" ++ api) d) in Hd; [done|].
    exists pkg, pc, (i :: imports), v, exported, api.
    apply elem_of_map_to_list in Hin. split; [left|done].
Qed.

Lemma imports_swap (idx : crate_index) (ex : str -> list nat -> option (gmap str api_config))
    (e1 e2 : str * package_config) (a a1 a2 : gmap str api_config) :
  import_package idx ex a e1 = Ok a1 -> import_package idx ex a1 e2 = Ok a2 ->
  exists a1', import_package idx ex a e2 = Ok a1' /\ import_package idx ex a1' e1 = Ok a2.
Proof.
  destruct e1 as [k1 p1], e2 as [k2 p2].
  intros (A1 & A2 & A3)%import_package_iff (B1 & B2 & B3)%import_package_iff.
  assert (Hsub : forall q, a1 !! q = None -> a !! q = None).
  { intros q Hq. destruct (a !! q) as [d|] eqn:E; [|done].
    assert (a1 !! q = Some d) by (apply A1; by left). congruence. }
  destruct (import_package idx ex a (k2, p2)) as [a1'|e] eqn:E.
  - exists a1'. split; [done|]. apply import_package_iff in E as (C1 & C2 & C3).
    apply import_package_iff. split_and!; [|..|done].
    + intros q d. rewrite B1, A1, C1. tauto.
    + intros q d Hs. destruct (a1' !! q) as [d'|] eqn:Eq; [|done].
      apply C1 in Eq as [Eq|Eq]; [rewrite (A2 _ _ Hs) in Eq; done|].
      apply B2 in Eq. assert (a1 !! q = Some d) by (apply A1; by right). congruence.
  - exfalso. unfold import_package in E. destruct (pc_import p2) as [[|i imports]|] eqn:EI; try done.
    destruct (B3 _ eq_refl) as (v & Hv & [exported Hx]); [done|].
    pose proof (proj2 (newest_version_iff _ _ _) Hv) as Hv2. rewrite Hv2, Hx in E.
    apply import_api_fold_err in E as (api & d & Hin & Hi & [d' Hd] & _); [|apply NoDup_fst_map_to_list].
    rewrite (Hsub (k2 ++ lit "::" ++ api)) in Hd; [done|].
    apply (B2 _ d). exists k2, p2, (i :: imports), v, exported, api.
    apply elem_of_map_to_list in Hin. split; [left|done].
Qed.

Lemma imports_permutation (idx : crate_index) (ex : str -> list nat -> option (gmap str api_config))
    (l l' : list (str * package_config)) :
  l ≡ₚ l' -> forall a a', fold_res (import_package idx ex) l a = Ok a' ->
  fold_res (import_package idx ex) l' a = Ok a'.
Proof.
  induction 1 as [|e l l' _ IH|e1 e2 l|l l' l'' _ IH1 _ IH2]; intros a a'; cbn [fold_res].
  - done.
  - destruct (import_package idx ex a e); [apply IH|done].
  - destruct (import_package idx ex a e2) as [b|] eqn:E1; [|done].
    destruct (import_package idx ex b e1) as [c|] eqn:E2; [|done].
    intros H. destruct (imports_swap idx ex e2 e1 a b c E1 E2) as (b' & -> & ->). done.
  - intros H. by apply IH2, IH1.
Qed.

(** Only what packages import matters. *)
Definition imports_of (pc : package_config) : option (list str) :=
  match pc_import pc with None | Some [] => None | Some imports => Some imports end.

Definition importing (e : str * package_config) : option (str * package_config) :=
  match pc_import e.2 with
  | None | Some [] => None
  | Some imports => Some (e.1, set_import package_default (Some imports))
  end.

Lemma fold_importing (idx : crate_index) (ex : str -> list nat -> option (gmap str api_config))
    (l : list (str * package_config)) (a : gmap str api_config) :
  fold_res (import_package idx ex) l a = fold_res (import_package idx ex) (omap importing l) a.
Proof.
  revert a. induction l as [|[k pc] l IH]; intros a; [done|]. cbn [fold_res omap list_omap].
  unfold importing at 1. cbn [snd fst].
  destruct (pc_import pc) as [[|i imports]|] eqn:E.
  - unfold import_package at 1. rewrite E. apply IH.
  - cbn [fold_res]. unfold import_package at 1 3. rewrite E. cbn [pc_import set_import].
    destruct (newest_version idx k) as [v|]; [|done]. destruct (ex k v); [|done].
    destruct (fold_res _ _ _); [apply IH|done].
  - unfold import_package at 1. rewrite E. apply IH.
Qed.

Lemma importing_fst (l : list (str * package_config)) (k : str) (x : package_config) :
  (k, x) ∈ omap importing l -> k ∈ l.*1.
Proof.
  intros ([k' pc] & Hin & He)%elem_of_list_omap. unfold importing in He. cbn [snd fst] in He.
  destruct (pc_import pc) as [[|]|]; try done.
  apply elem_of_list_fmap. exists (k', pc). split; [cbn; congruence|done].
Qed.

Lemma importing_NoDup (l : list (str * package_config)) : NoDup l.*1 -> NoDup (omap importing l).
Proof.
  induction l as [|[k pc] l IH]; [intros _; constructor|]. cbn [fmap list_fmap fst].
  intros [Hk Hnd]%NoDup_cons. cbn [omap list_omap]. destruct (importing (k, pc)) as [[k' x]|] eqn:E; [|auto].
  apply NoDup_cons. split; [|auto]. intros Hin%importing_fst.
  unfold importing in E. cbn [snd fst] in E. destruct (pc_import pc) as [[|]|]; try done.
  assert (k' = k) as -> by congruence. done.
Qed.

Lemma importing_same (m m' : gmap str package_config) :
  (forall k, m !! k ≫= imports_of = m' !! k ≫= imports_of) ->
  omap importing (map_to_list m) ≡ₚ omap importing (map_to_list m').
Proof.
  intros H. apply NoDup_Permutation.
  - apply importing_NoDup, NoDup_fst_map_to_list.
  - apply importing_NoDup, NoDup_fst_map_to_list.
  - assert (Hi : forall k pc, importing (k, pc) = (fun l => (k, set_import package_default (Some l))) <$> imports_of pc).
    { intros k pc. unfold importing, imports_of. cbn [fst snd]. by destruct (pc_import pc) as [[|]|]. }
    assert (Hx : forall (m1 m2 : gmap str package_config), (forall k, m1 !! k ≫= imports_of = m2 !! k ≫= imports_of) ->
      forall x, x ∈ omap importing (map_to_list m1) -> x ∈ omap importing (map_to_list m2)).
    { intros m1 m2 Hm x ([k pc] & Hin & He)%elem_of_list_omap. apply elem_of_map_to_list in Hin.
      specialize (Hm k). rewrite Hin in Hm. cbn [mbind option_bind] in Hm. rewrite Hi in He.
      destruct (m2 !! k) as [pc2|] eqn:E2; cbn [mbind option_bind] in Hm.
      - apply elem_of_list_omap. exists (k, pc2). split; [by apply elem_of_map_to_list|].
        by rewrite Hi, <- Hm.
      - by rewrite Hm in He. }
    intros x. split; apply Hx; auto.
Qed.

Lemma imports_of_same (m m' : gmap str package_config) :
  (forall k, m !! k ≫= pc_import = m' !! k ≫= pc_import) ->
  forall k, m !! k ≫= imports_of = m' !! k ≫= imports_of.
Proof.
  intros H k. specialize (H k). unfold imports_of.
  destruct (m !! k) as [x|], (m' !! k) as [y|]; cbn [mbind option_bind] in *; try done; by rewrite ?H, <- ?H.
Qed.

Definition clear_import (pc : package_config) : package_config :=
  set_import pc ((fun _ => []) <$> pc_import pc).

Lemma load_imports_same (idx : crate_index) (ex : str -> list nat -> option (gmap str api_config))
    (rc r : raw_config) (m : gmap str package_config) :
  (forall k, rc_packages rc !! k ≫= imports_of = m !! k ≫= imports_of) ->
  load_imports idx ex rc = Ok r ->
  load_imports idx ex (set_packages rc m) = Ok (set_packages r (clear_import <$> m)).
Proof.
  intros H. unfold load_imports. cbn [rc_packages set_packages rc_apis].
  rewrite (fold_importing idx ex (map_to_list (rc_packages rc))), (fold_importing idx ex (map_to_list m)).
  destruct (fold_res _ (omap importing (map_to_list (rc_packages rc))) _) as [a|] eqn:E; [|done].
  intros [= <-]. by rewrite (imports_permutation _ _ _ _ (importing_same _ _ H) _ _ E).
Qed.

(** ** Loading *)
Lemma merge_built_ins_set_packages (b : gmap str api_config) (rc : raw_config) (m : gmap str package_config) :
  merge_built_ins b (set_packages rc m) =
    match merge_built_ins b rc with Ok rc' => Ok (set_packages rc' m) | Err e => Err e end.
Proof. unfold merge_built_ins. cbn [rc_import_std rc_apis set_packages]. by destruct (fold_res _ _ _). Qed.

Lemma apply_fn_set_packages (n : nat) (rc : raw_config) (m : gmap str package_config) :
  apply_fn n (set_packages rc m) = set_packages (apply_fn n rc) m.
Proof. destruct n as [|[|[|n]]]; cbn; try done. by destruct (sb_kind (rc_rustc_sandbox rc)). Qed.

Lemma apply_fns_set_packages (l : list nat) (rc : raw_config) (m : gmap str package_config) :
  foldl (fun rc n => apply_fn n rc) (set_packages rc m) l =
  set_packages (foldl (fun rc n => apply_fn n rc) rc l) m.
Proof.
  revert rc. induction l as [|n l IH]; intros rc; [done|]. cbn [foldl].
  by rewrite apply_fn_set_packages, IH.
Qed.

Lemma parse_raw_set_packages (b : gmap str api_config) (rc r : raw_config) (m : gmap str package_config) :
  parse_raw b rc = Ok r -> parse_raw b (set_packages rc m) = Ok (set_packages r m).
Proof.
  unfold parse_raw. rewrite merge_built_ins_set_packages.
  destruct (merge_built_ins b rc) as [r0|]; [|done]. intros [= <-].
  unfold apply_runtime_patches. rewrite apply_fns_set_packages. done.
Qed.

(** What becomes of the configuration of a package. *)
Definition finished (root : str) (pc : package_config) : package_config :=
  abs_package root (clear_import pc).

Lemma set_packages_twice (rc : raw_config) (m m' : gmap str package_config) :
  set_packages (set_packages rc m) m' = set_packages rc m'.
Proof. done. Qed.

Lemma load_imports_packages (idx : crate_index) (ex : str -> list nat -> option (gmap str api_config))
    (rc r : raw_config) :
  load_imports idx ex rc = Ok r -> rc_packages r = clear_import <$> rc_packages rc.
Proof. unfold load_imports. destruct (fold_res _ _ _); [|done]. by intros [= <-]. Qed.

Lemma loaded_packages (b : gmap str api_config) (ex : str -> list nat -> option (gmap str api_config))
    (idx : crate_index) (root : str) (rc : raw_config) (c : config) :
  load_config b ex idx (Some root) rc = Loaded c ->
  rc_packages (cf_raw c) = finished root <$> rc_packages rc.
Proof.
  intros (r1 & r2 & H1 & H2 & H3 & _)%load_config_inv.
  rewrite make_paths_absolute_total in H3.
  assert (cf_raw c = set_packages r2 (abs_package root <$> rc_packages r2)) as -> by congruence.
  cbn [rc_packages set_packages]. rewrite (load_imports_packages _ _ _ _ H2).
  rewrite (parse_raw_packages _ _ _ H1). by rewrite <- map_fmap_compose.
Qed.

Definition with_permissions (idx : crate_index) (rc : raw_config) : config :=
  Config rc (perms_with_inheritance rc idx) (perms_from_config rc).

Lemma reload (b : gmap str api_config) (ex : str -> list nat -> option (gmap str api_config))
    (idx : crate_index) (root : str) (rc : raw_config) (c : config) (m : gmap str package_config) :
  load_config b ex idx (Some root) rc = Loaded c ->
  (forall k, rc_packages rc !! k ≫= imports_of = m !! k ≫= imports_of) ->
  let rc' := set_packages (cf_raw c) (finished root <$> m) in
  load_config b ex idx (Some root) (set_packages rc m) =
    match validate rc' with [] => Loaded (with_permissions idx rc') | ps => Invalid ps end.
Proof.
  intros Hl Hm. cbn zeta. destruct (load_config_inv _ _ _ _ _ _ Hl) as (r1 & r2 & H1 & H2 & H3 & _).
  unfold load_config. rewrite (parse_raw_set_packages b rc r1 m H1).
  rewrite (load_imports_same idx ex r1 r2 m); [|by rewrite (parse_raw_packages _ _ _ H1)|done].
  rewrite make_paths_absolute_total in H3 |- *.
  assert (cf_raw c = set_packages r2 (abs_package root <$> rc_packages r2)) as -> by congruence.
  rewrite !set_packages_twice. cbn [rc_packages set_packages].
  rewrite <- map_fmap_compose. change (abs_package root ∘ clear_import) with (finished root).
  done.
Qed.
