From Verif Require Import Base BaseFacts ApiMapModel ConfigModel ConfigSpec ConfigProofs.

(** ** C04 *)
Lemma validate_apis_nil known used l :
  validate_apis known used l = [] <->
  (forall a, a ∈ l -> is_Some (known !! a)) /\ NoDup l /\ (forall a, a ∈ l -> a ∉ used).
Proof.
  revert used. induction l as [|a l IH]; intros used; cbn [validate_apis].
  - split; [|done]. intros _. split_and!.
    + by intros a Ha%elem_of_nil.
    + constructor.
    + by intros a Ha%elem_of_nil.
  - rewrite !app_nil, IH. split.
    + intros (H1 & H2 & H3 & H4 & H5).
      destruct (known !! a) eqn:E; [|done].
      destruct (bool_decide (a ∈ used)) eqn:E2; [done|].
      apply bool_decide_eq_false in E2.
      split_and!.
      * intros b [->|Hb]%elem_of_cons; eauto.
      * constructor; [|done]. intros Ha. destruct (H5 a Ha). set_solver.
      * intros b [->|Hb]%elem_of_cons; [done|]. intros Hu. destruct (H5 b Hb). set_solver.
    + intros (H1 & H2 & H3). apply NoDup_cons in H2 as [H2 H4].
      split_and!.
      * destruct (H1 a) as [c ->]; [left|]. done.
      * rewrite bool_decide_eq_false_2; [done|]. apply H3. left.
      * intros b Hb. apply H1. by right.
      * done.
      * intros b Hb. rewrite elem_of_union, elem_of_singleton.
        intros [->|Hu]; [done|]. apply (H3 b); [by right|done].
Qed.

Lemma when_nil {A} (o : option A) p : when o p = [] <-> o = None.
Proof. by destruct o. Qed.

Lemma concat_nil {A} (l : list (list A)) : concat l = [] <-> forall x, x ∈ l -> x = [].
Proof.
  induction l as [|x l IH]; cbn.
  - split; [|done]. by intros _ x ?%elem_of_nil.
  - rewrite app_nil, IH. split.
    + intros [-> H] y [->|Hy]%elem_of_cons; auto.
    + intros H. split; [apply H; left|]. intros y Hy. apply H. by right.
Qed.

Lemma validate_spec rc : validate rc = [] <-> well_formed rc.
Proof.
  unfold validate, well_formed. rewrite app_nil, concat_nil.
  assert (HV : (if Z.ltb (rc_version rc) 1 || Z.ltb max_version (rc_version rc)
     then [UnsupportedVersion (rc_version rc)] else []) = [] <-> (1 <= rc_version rc <= 3)%Z).
  { unfold max_version. destruct (Z.ltb_spec (rc_version rc) 1), (Z.ltb_spec 3 (rc_version rc));
      cbn; split; try done; lia. }
  rewrite HV. apply and_iff_compat_l. split.
  - intros H pkg s sec Hsec.
    assert (Hst : exists sec', perms_from_config rc !! (pkg, s) = Some sec' /\
       pc_allow_apis sec' = pc_allow_apis sec /\ (s <> All -> sec' = sec)).
    { rewrite perms_from_config_lookup. unfold stripped. destruct s; eauto 10.
      rewrite Hsec. cbn. eexists. split; [done|]. split; [done|]. done. }
    destruct Hst as (sec' & Hl & Ha & Hs).
    specialize (H (validate_section (rc_apis rc) ((pkg, s), sec'))).
    assert (validate_section (rc_apis rc) ((pkg, s), sec') = []) as HN.
    { apply H. apply elem_of_list_fmap. eexists. split; [done|].
      by apply elem_of_map_to_list. }
    unfold validate_section in HN. cbn in HN.
    rewrite !app_nil, !when_nil, validate_apis_nil in HN.
    destruct HN as ((H1 & H2 & _) & H3 & H4 & H5). rewrite Ha in *.
    split_and!; try done. intros Hne. specialize (Hs Hne) as ->. done.
  - intros H x Hx. apply elem_of_list_fmap in Hx as ([[pkg s] sec'] & -> & Hin).
    apply elem_of_map_to_list in Hin. rewrite perms_from_config_lookup in Hin.
    unfold validate_section. cbn. rewrite !app_nil, !when_nil, validate_apis_nil.
    unfold stripped in Hin.
    assert (Hc : exists sec, section rc pkg s = Some sec /\
      pc_allow_apis sec' = pc_allow_apis sec /\ (s <> All -> sec' = sec) /\
      (s = All -> subsections_absent sec')).
    { destruct s; try (by exists sec').
      apply fmap_Some in Hin as (sec & Hsec & ->). by exists sec. }
    destruct Hc as (sec & Hsec & Ha & Hne & Hall).
    destruct (H pkg s sec Hsec) as (H1 & H2 & H3). rewrite Ha.
    split_and!; try done.
    all: destruct (decide (s = All)) as [HA|HA];
         [by apply (Hall HA)|rewrite (Hne HA); by apply (H3 HA)].
Qed.

(** ** fold_res *)
Lemma fold_res_app {S A} (f : S -> A -> res S) l1 l2 s :
  fold_res f (l1 ++ l2) s =
    match fold_res f l1 s with Ok s' => fold_res f l2 s' | Err e => Err e end.
Proof.
  revert s. induction l1 as [|a l1 IH]; intros s; cbn; [done|].
  destruct (f s a); [apply IH|done].
Qed.

(** ** C05 *)
Lemma is_absolute_spec p : is_absolute p = true <-> absolute p.
Proof.
  unfold absolute. destruct p as [|a p]; cbn.
  - split; [done|]. by intros [? ?].
  - split.
    + intros H. exists p. destruct a as [[] [] [] [] [] [] [] []]; done.
    + intros [r [= -> ->]]. done.
Qed.

Lemma path_join_absolute root p : absolute root -> absolute (path_join root p).
Proof.
  intros [r ->]. unfold path_join. destruct (is_absolute p) eqn:E.
  - by apply is_absolute_spec.
  - destruct (last ("/"%char :: r)) as [c|] eqn:E2.
    + destruct (Ascii.eqb c "/"%char); cbn; eexists; reflexivity.
    + by apply last_None in E2.
Qed.

Lemma absolute_paths_ok root ps ps' :
  absolute root ->
  absolute_paths (Some root) ps = Ok ps' ->
  ps' = map (path_join root) ps /\ forall p, p ∈ ps' -> absolute p.
Proof.
  intros Hroot. revert ps'. induction ps as [|p ps IH]; intros ps'; cbn [absolute_paths].
  - intros [= <-]. split; [done|]. by intros ? ?%elem_of_nil.
  - assert ((if is_absolute p then Ok p else Ok (path_join root p)) = Ok (path_join root p)) as ->.
    { destruct (is_absolute p) eqn:E; [|done]. unfold path_join. by rewrite E. }
    destruct (absolute_paths (Some root) ps) as [ps2|]; [|done].
    intros [= <-]. destruct (IH ps2 eq_refl) as [-> H]. split; [done|].
    intros q [->|Hq]%elem_of_cons; [|auto]. by apply path_join_absolute.
Qed.

Lemma sandbox_absolute_ok root s s' :
  absolute root ->
  sandbox_absolute (Some root) s = Ok s' ->
  s' = SandboxConfig (sb_kind s) (sb_extra_args s) (sb_allow_network s)
         (map (path_join root) (sb_bind_writable s))
         (map (path_join root) (sb_make_writable s)) (sb_pass_env s) /\
  sandbox_paths_absolute s'.
Proof.
  intros Hroot. unfold sandbox_absolute.
  destruct (absolute_paths (Some root) (sb_bind_writable s)) as [b|] eqn:E1; [|done].
  destruct (absolute_paths (Some root) (sb_make_writable s)) as [m|] eqn:E2; [|done].
  intros [= <-].
  destruct (absolute_paths_ok _ _ _ Hroot E1) as [-> H1].
  destruct (absolute_paths_ok _ _ _ Hroot E2) as [-> H2].
  done.
Qed.

Definition opt_package_absolute (root : option str) (o : option package_config)
    : res (option package_config) :=
  match o with
  | None => Ok None
  | Some b => match package_absolute root b with Ok b' => Ok (Some b') | Err e => Err e end
  end.

Lemma package_absolute_unfold root pc :
  package_absolute root pc =
  match sandbox_absolute root (pc_sandbox pc) with
  | Err e => Err e
  | Ok s =>
      match opt_package_absolute root (pc_build pc) with
      | Err e => Err e
      | Ok b =>
          match opt_package_absolute root (pc_test pc) with
          | Err e => Err e
          | Ok t =>
              Ok (PackageConfig (pc_allow_unsafe pc) (pc_allow_extern pc)
                    (pc_allow_build_instructions pc) (pc_allow_apis pc)
                    (pc_allow_proc_macro pc) b t (pc_from pc) s (pc_import pc))
          end
      end
  end.
Proof. by destruct pc. Qed.

Lemma package_absolute_ok root pc pc' :
  absolute root ->
  package_absolute (Some root) pc = Ok pc' ->
  sandbox_absolute (Some root) (pc_sandbox pc) = Ok (pc_sandbox pc') /\
  opt_package_absolute (Some root) (pc_build pc) = Ok (pc_build pc') /\
  opt_package_absolute (Some root) (pc_test pc) = Ok (pc_test pc') /\
  pc_from pc' = pc_from pc.
Proof.
  intros Hroot. rewrite package_absolute_unfold.
  destruct (sandbox_absolute (Some root) (pc_sandbox pc)) as [s|]; [|done].
  destruct (opt_package_absolute (Some root) (pc_build pc)) as [b|]; [|done].
  destruct (opt_package_absolute (Some root) (pc_test pc)) as [t|]; [|done].
  intros [= <-]. done.
Qed.

Lemma fold_insert_lookup (root : option str) (l : list (str * package_config))
    (m m' : gmap str package_config) (pkg : str) :
  NoDup l.*1 ->
  (forall k v, (k, v) ∈ l -> m !! k = Some v) ->
  fold_res (absolute_package_entry root) l m = Ok m' ->
  (forall v, (pkg, v) ∈ l -> exists v', package_absolute root v = Ok v' /\ m' !! pkg = Some v') /\
  (pkg ∉ l.*1 -> m' !! pkg = m !! pkg).
Proof.
  revert m. induction l as [|[k v] l IH]; intros m Hnd Hm; cbn [fold_res].
  - intros [= <-]. split; [|done]. by intros v ?%elem_of_nil.
  - cbn in Hnd. apply NoDup_cons in Hnd as [Hk Hnd].
    unfold absolute_package_entry at 1. cbn.
    destruct (package_absolute root v) as [v'|] eqn:E; [|done].
    intros H. destruct (IH (<[k:=v']> m)) as [H1 H2]; try done.
    { intros k2 v2 Hin. rewrite lookup_insert_ne.
      - apply Hm. by right.
      - intros <-. apply Hk. apply elem_of_list_fmap. exists (k, v2). done. }
    split.
    + intros w [[= -> ->]|Hin]%elem_of_cons.
      * exists v'. split; [done|]. rewrite H2 by done. by rewrite lookup_insert.
      * eauto.
    + cbn. rewrite not_elem_of_cons. intros [Hne Hni].
      rewrite H2 by done. by rewrite lookup_insert_ne by congruence.
Qed.

Lemma make_paths_absolute_lookup root rc rc' pkg :
  make_paths_absolute root rc = Ok rc' ->
  match rc_packages rc !! pkg with
  | None => rc_packages rc' !! pkg = None
  | Some pc => exists pc', package_absolute root pc = Ok pc' /\ rc_packages rc' !! pkg = Some pc'
  end.
Proof.
  unfold make_paths_absolute. destruct (fold_res _ _ _) as [m'|] eqn:E; [|done].
  intros [= <-]. cbn.
  destruct (fold_insert_lookup root (map_to_list (rc_packages rc)) (rc_packages rc) m' pkg)
    as [H1 H2].
  - apply NoDup_fst_map_to_list.
  - intros k v H. by apply elem_of_map_to_list in H.
  - done.
  - destruct (rc_packages rc !! pkg) as [pc|] eqn:EL.
    + apply H1. by apply elem_of_map_to_list.
    + rewrite H2; [done|]. intros Hin. apply elem_of_list_fmap in Hin as ([k v] & -> & Hin).
      apply elem_of_map_to_list in Hin. cbn in *. congruence.
Qed.

Lemma make_paths_absolute_frame root rc rc' :
  make_paths_absolute root rc = Ok rc' ->
  rc_version rc' = rc_version rc /\ rc_apis rc' = rc_apis rc /\
  rc_sandbox rc' = rc_sandbox rc /\ rc_rustc_sandbox rc' = rc_rustc_sandbox rc /\
  rc_explicit_build_scripts rc' = rc_explicit_build_scripts rc.
Proof.
  unfold make_paths_absolute. destruct (fold_res _ _ _); [|done]. by intros [= <-].
Qed.

Lemma own_sections_absolute root rc rc' pkg s sec' :
  absolute root ->
  make_paths_absolute (Some root) rc = Ok rc' ->
  s ∈ [All; Build; Test] ->
  section rc' pkg s = Some sec' ->
  sandbox_paths_absolute (pc_sandbox sec') /\
  exists sec, section rc pkg s = Some sec /\
    sb_bind_writable (pc_sandbox sec') = map (path_join root) (sb_bind_writable (pc_sandbox sec)) /\
    sb_make_writable (pc_sandbox sec') = map (path_join root) (sb_make_writable (pc_sandbox sec)).
Proof.
  intros Hroot HM Hs Hsec.
  pose proof (make_paths_absolute_lookup _ _ _ pkg HM) as HL.
  unfold section in *. destruct (rc_packages rc !! pkg) as [pc|].
  - destruct HL as (pc' & HP & HL). rewrite HL in Hsec.
    destruct (package_absolute_ok _ _ _ Hroot HP) as (H1 & H2 & H3 & _).
    assert (Hsub : forall o o', opt_package_absolute (Some root) o = Ok o' -> o' = Some sec' ->
      sandbox_paths_absolute (pc_sandbox sec') /\
      exists sec, o = Some sec /\
        sb_bind_writable (pc_sandbox sec') = map (path_join root) (sb_bind_writable (pc_sandbox sec)) /\
        sb_make_writable (pc_sandbox sec') = map (path_join root) (sb_make_writable (pc_sandbox sec))).
    { intros o o' Ho ->. destruct o as [c|]; cbn in Ho; [|done].
      destruct (package_absolute (Some root) c) as [c'|] eqn:Ec; [|done].
      injection Ho as ->.
      destruct (package_absolute_ok _ _ _ Hroot Ec) as (Hc & _).
      destruct (sandbox_absolute_ok _ _ _ Hroot Hc) as [Heq Habs].
      split; [done|]. exists c. split; [done|]. by rewrite Heq. }
    rewrite !elem_of_cons, elem_of_nil in Hs.
    destruct Hs as [->|[->|[->|[]]]].
    + injection Hsec as <-. destruct (sandbox_absolute_ok _ _ _ Hroot H1) as [Heq Habs].
      split; [done|]. exists pc. split; [done|]. by rewrite Heq.
    + eauto.
    + eauto.
  - rewrite HL in Hsec. done.
Qed.

(** ** C06 *)
Lemma merge_built_ins_set_version b rc v :
  merge_built_ins b (set_version rc v) =
    match merge_built_ins b rc with Ok rc' => Ok (set_version rc' v) | Err e => Err e end.
Proof. unfold merge_built_ins. cbn. by destruct (fold_res _ _ _). Qed.

Lemma merge_built_ins_set_rustc b rc s :
  merge_built_ins b (set_rustc_sandbox rc s) =
    match merge_built_ins b rc with Ok rc' => Ok (set_rustc_sandbox rc' s) | Err e => Err e end.
Proof. unfold merge_built_ins. cbn. by destruct (fold_res _ _ _). Qed.

Lemma merge_built_ins_frame b rc rc' :
  merge_built_ins b rc = Ok rc' ->
  rc_version rc' = rc_version rc /\ rc_packages rc' = rc_packages rc /\
  rc_sandbox rc' = rc_sandbox rc /\ rc_rustc_sandbox rc' = rc_rustc_sandbox rc /\
  rc_explicit_build_scripts rc' = rc_explicit_build_scripts rc /\ rc_import_std rc' = [].
Proof. unfold merge_built_ins. destruct (fold_res _ _ _); [|done]. by intros [= <-]. Qed.

Lemma update_fn_merge b n rc :
  merge_built_ins b (update_fn n rc) =
    match merge_built_ins b rc with Ok rc' => Ok (update_fn n rc') | Err e => Err e end.
Proof.
  destruct n as [|[|[|n]]]; cbn; try (by destruct (merge_built_ins b rc)).
  destruct (sb_kind (rc_rustc_sandbox rc)) eqn:E.
  - destruct (merge_built_ins b rc) as [rc'|] eqn:EM; [|done].
    destruct (merge_built_ins_frame _ _ _ EM) as (_ & _ & _ & -> & _). by rewrite E.
  - rewrite merge_built_ins_set_rustc.
    destruct (merge_built_ins b rc) as [rc'|] eqn:EM; [|done].
    destruct (merge_built_ins_frame _ _ _ EM) as (_ & _ & _ & -> & _). by rewrite E.
Qed.

(** The runtime patches of the configuration before and after the edit agree. *)
Lemma patches_preserve rc (n : nat) :
  n ∈ [2; 3] -> rc_version rc = (Z.of_nat n - 1)%Z ->
  apply_runtime_patches (preserve_edit n rc) = set_version (apply_runtime_patches rc) (Z.of_nat n).
Proof.
  intros Hn Hv. unfold apply_runtime_patches.
  rewrite !elem_of_cons, elem_of_nil in Hn. destruct Hn as [->|[->|[]]].
  - rewrite Hv.
    change (first_patch (rc_version (preserve_edit 2 rc))) with (first_patch 2).
    change (first_patch (Z.of_nat 2 - 1)) with (first_patch 1).
    vm_compute (first_patch 2). vm_compute (first_patch 1).
    cbn. unfold preserve_edit, update_fn.
    by destruct (sb_kind (rc_rustc_sandbox rc)).
  - rewrite Hv.
    change (first_patch (rc_version (preserve_edit 3 rc))) with (first_patch 3).
    change (first_patch (Z.of_nat 3 - 1)) with (first_patch 2).
    vm_compute (first_patch 3). vm_compute (first_patch 2).
    done.
Qed.

Lemma parse_raw_preserve b rc (n : nat) :
  n ∈ [2; 3] -> rc_version rc = (Z.of_nat n - 1)%Z ->
  parse_raw b (preserve_edit n rc) =
    match parse_raw b rc with
    | Ok rc' => Ok (set_version rc' (Z.of_nat n))
    | Err e => Err e
    end.
Proof.
  intros Hn Hv. unfold parse_raw. unfold preserve_edit at 1.
  rewrite merge_built_ins_set_version, update_fn_merge.
  destruct (merge_built_ins b rc) as [rc'|] eqn:E; [|done].
  destruct (merge_built_ins_frame _ _ _ E) as (Hv' & _).
  change (set_version (update_fn n rc') (Z.of_nat n)) with (preserve_edit n rc').
  rewrite patches_preserve by (done || congruence). done.
Qed.

Lemma load_imports_set_version idx ex rc v :
  load_imports idx ex (set_version rc v) =
    match load_imports idx ex rc with Ok rc' => Ok (set_version rc' v) | Err e => Err e end.
Proof. unfold load_imports. cbn. by destruct (fold_res _ _ _). Qed.

Lemma make_paths_absolute_set_version root rc v :
  make_paths_absolute root (set_version rc v) =
    match make_paths_absolute root rc with Ok rc' => Ok (set_version rc' v) | Err e => Err e end.
Proof. unfold make_paths_absolute. cbn. by destruct (fold_res _ _ _). Qed.

Lemma well_formed_set_version rc (n : nat) :
  n ∈ [2; 3] -> well_formed rc -> well_formed (set_version rc (Z.of_nat n)).
Proof.
  intros Hn [H1 H2]. split; [|done]. cbn.
  rewrite !elem_of_cons, elem_of_nil in Hn. destruct Hn as [->|[->|[]]]; lia.
Qed.

Lemma load_config_inv b ex idx root file c :
  load_config b ex idx root file = Loaded c ->
  exists r1 r2,
    parse_raw b file = Ok r1 /\ load_imports idx ex r1 = Ok r2 /\
    make_paths_absolute root r2 = Ok (cf_raw c) /\ validate (cf_raw c) = [] /\
    c = Config (cf_raw c) (perms_with_inheritance (cf_raw c) idx) (perms_from_config (cf_raw c)).
Proof.
  unfold load_config.
  destruct (parse_raw b file) as [r1|] eqn:E1; [|done].
  destruct (load_imports idx ex r1) as [r2|] eqn:E2; [|done].
  destruct (make_paths_absolute root r2) as [r3|] eqn:E3; [|done].
  destruct (validate r3) eqn:E4; [|done].
  intros [= <-]. exists r1, r2. done.
Qed.

Lemma load_preserve b ex idx root file c (n : nat) :
  n ∈ [2; 3] -> rc_version file = (Z.of_nat n - 1)%Z ->
  load_config b ex idx root file = Loaded c ->
  load_config b ex idx root (preserve_edit n file) =
    Loaded (Config (set_version (cf_raw c) (Z.of_nat n)) (cf_permissions c)
              (cf_permissions_no_inheritance c)).
Proof.
  intros Hn Hv Hload.
  destruct (load_config_inv _ _ _ _ _ _ Hload) as (r1 & r2 & H1 & H2 & H3 & H4 & H5).
  unfold load_config. rewrite parse_raw_preserve by done. rewrite H1.
  rewrite load_imports_set_version, H2, make_paths_absolute_set_version, H3.
  assert (validate (set_version (cf_raw c) (Z.of_nat n)) = []) as ->.
  { apply validate_spec. apply well_formed_set_version; [done|]. by apply validate_spec. }
  rewrite H5. done.
Qed.

(** ** C07 *)

Lemma version_leb_refl v : version_leb v v = true.
Proof. induction v as [|x v IH]; cbn [version_leb]; [done|]. by rewrite Nat.ltb_irrefl, Nat.eqb_refl. Qed.

Lemma version_leb_total a b : version_leb a b = false -> version_leb b a = true.
Proof.
  revert b. induction a as [|x a IH]; intros [|y b]; cbn [version_leb]; try done.
  destruct (Nat.ltb_spec x y), (Nat.eqb_spec x y), (Nat.ltb_spec y x), (Nat.eqb_spec y x);
    try done; try lia. apply IH.
Qed.

Lemma version_leb_trans a b c :
  version_leb a b = true -> version_leb b c = true -> version_leb a c = true.
Proof.
  revert b c. induction a as [|x a IH]; intros [|y b] [|z c]; cbn [version_leb]; try done.
  destruct (Nat.ltb_spec x y), (Nat.eqb_spec x y), (Nat.ltb_spec y z), (Nat.eqb_spec y z),
    (Nat.ltb_spec x z), (Nat.eqb_spec x z); try done; try lia. apply IH.
Qed.

Lemma insert_version_perm v l : insert_version v l ≡ₚ v :: l.
Proof.
  induction l as [|w l IH]; cbn; [done|]. destruct (version_leb v w); [done|].
  rewrite IH. constructor.
Qed.

Lemma sort_versions_perm l : sort_versions l ≡ₚ l.
Proof.
  induction l as [|v l IH]; cbn; [done|]. rewrite insert_version_perm. by constructor.
Qed.

Lemma last_cons_some {A} (x : A) l y : last (x :: l) = Some y -> l = [] /\ y = x \/ last l = Some y.
Proof. destruct l; cbn; [left; split; congruence|auto]. Qed.

Lemma insert_version_last v l :
  StronglySorted (fun a b => version_leb a b = true) l ->
  StronglySorted (fun a b => version_leb a b = true) (insert_version v l).
Proof.
  induction 1 as [|w l Hs IH Hf]; cbn.
  - repeat constructor.
  - destruct (version_leb v w) eqn:E.
    + constructor.
      * by constructor.
      * constructor; [done|]. eapply Forall_impl; [exact Hf|].
        intros x Hx. by eapply version_leb_trans.
    + constructor; [done|]. rewrite insert_version_perm. constructor; [|done].
      by apply version_leb_total.
Qed.

Lemma sort_versions_sorted l :
  StronglySorted (fun a b => version_leb a b = true) (sort_versions l).
Proof. induction l as [|v l IH]; cbn; [constructor|]. by apply insert_version_last. Qed.

Lemma sorted_last_max l m :
  StronglySorted (fun a b => version_leb a b = true) l -> last l = Some m ->
  m ∈ l /\ forall x, x ∈ l -> version_leb x m = true.
Proof.
  induction 1 as [|w l Hs IH Hf]; [done|]. intros Hl.
  apply last_cons_some in Hl as [[-> ->]|Hl].
  - split; [left|]. intros x [->|Hx]%elem_of_cons; [apply version_leb_refl|].
    by apply elem_of_nil in Hx.
  - destruct (IH Hl) as [Hm Hmax]. split; [by right|].
    intros x [->|Hx]%elem_of_cons; [|auto].
    by apply (proj1 (Forall_forall _ _) Hf).
Qed.

Lemma newest_version_spec idx name v :
  newest_version idx name = Some v ->
  (exists p, p ∈ idx /\ pk_name p = name /\ pk_version p = v) /\
  (forall p, p ∈ idx -> pk_name p = name -> version_leb (pk_version p) v = true).
Proof.
  unfold newest_version, versions_of. intros H.
  apply sorted_last_max in H as [H1 H2]; [|apply sort_versions_sorted].
  rewrite sort_versions_perm in H1. split.
  - apply elem_of_list_fmap in H1 as (p & -> & Hp). apply elem_of_list_filter in Hp as [? ?].
    eauto.
  - intros p Hp Hn. apply H2. rewrite sort_versions_perm. apply elem_of_list_fmap.
    exists p. split; [done|]. by apply elem_of_list_filter.
Qed.

Lemma newest_version_None idx name :
  newest_version idx name = None <-> ~ exists p, p ∈ idx /\ pk_name p = name.
Proof.
  unfold newest_version, versions_of. rewrite last_None. split.
  - intros H (p & Hp & Hn).
    assert (Hin : pk_version p ∈ sort_versions (map pk_version (filter (fun p => pk_name p = name) idx))).
    { rewrite sort_versions_perm. apply elem_of_list_fmap. exists p. split; [done|].
      by apply elem_of_list_filter. }
    rewrite H in Hin. by apply elem_of_nil in Hin.
  - intros H. destruct (filter _ idx) as [|p l] eqn:E; [done|].
    destruct H. exists p.
    assert (p ∈ filter (fun p => pk_name p = name) idx) as Hp by (rewrite E; left).
    by apply elem_of_list_filter in Hp as [? ?].
Qed.

Lemma version_leb_spec a b : version_leb a b = true <-> version_le a b.
Proof.
  revert b. induction a as [|x a IH]; intros b; cbn [version_leb].
  - split; [intros _; left; apply prefix_nil|done].
  - destruct b as [|y b].
    + split; [done|]. intros [H|(c & u & v & a' & b' & _ & H & _)].
      * by apply prefix_nil_not in H.
      * by destruct c.
    + destruct (Nat.ltb_spec x y) as [Hlt|Hge].
      * split; [|done]. intros _. right. by exists [], x, y, a, b.
      * destruct (Nat.eqb_spec x y) as [->|Hne].
        -- rewrite IH. split.
           ++ intros [H|(c & u & v & a' & b' & -> & -> & H)]; [left; by apply prefix_cons|].
              right. by exists (y :: c), u, v, a', b'.
           ++ intros [H|(c & u & v & a' & b' & H1 & H2 & H)].
              ** left. by apply prefix_cons_inv_2 in H.
              ** destruct c as [|z c]; cbn in H1, H2.
                 --- injection H1 as <- _. injection H2 as <- _. lia.
                 --- injection H1 as <- ->. injection H2 as ->. right. by exists c, u, v, a', b'.
        -- split; [done|]. intros [H|(c & u & v & a' & b' & H1 & H2 & H)].
           ++ by apply prefix_cons_inv_1 in H.
           ++ destruct c as [|z c]; cbn in H1, H2.
              ** injection H1 as <- _. injection H2 as <- _. lia.
              ** injection H1 as <- ->. injection H2 as <- ->. done.
Qed.

Lemma version_leb_antisym a b : version_leb a b = true -> version_leb b a = true -> a = b.
Proof.
  revert b. induction a as [|x a IH]; intros [|y b]; cbn [version_leb]; try done.
  destruct (Nat.ltb_spec x y), (Nat.ltb_spec y x), (Nat.eqb_spec x y), (Nat.eqb_spec y x); try done; try lia.
  subst. intros ? ?. f_equal. by apply IH.
Qed.

Lemma newest_version_iff idx name v : newest_version idx name = Some v <-> is_newest idx name v.
Proof.
  split.
  - intros [H1 H2]%newest_version_spec. split; [done|]. intros p ? ?. by apply version_leb_spec, H2.
  - intros [(p & Hp & Hn & Hv) Hmax]. destruct (newest_version idx name) as [w|] eqn:E.
    + apply newest_version_spec in E as [(q & Hq & Hqn & Hqv) Hmax']. f_equal.
      apply version_leb_antisym.
      * rewrite <- Hqv. by apply version_leb_spec, Hmax.
      * rewrite <- Hv. by apply Hmax'.
    + apply newest_version_None in E. destruct E. eauto.
Qed.

Definition built_in_source (built_ins : gmap str api_config) (sel : api_config -> list str)
    (imports : list str) (api path : str) : Prop :=
  exists b, api ∈ imports /\ built_ins !! api = Some b /\ path ∈ sel b.

Lemma merge_built_in_fold built_ins imports apis apis' :
  fold_res (merge_built_in built_ins) imports apis = Ok apis' ->
  (forall i, i ∈ imports -> is_Some (built_ins !! i)) /\
  (forall api, is_Some (apis' !! api) <-> is_Some (apis !! api) \/ api ∈ imports) /\
  (forall api path,
     (path ∈ ac_include (default api_config_default (apis' !! api)) <->
        path ∈ ac_include (default api_config_default (apis !! api)) \/
        built_in_source built_ins ac_include imports api path) /\
     (path ∈ ac_exclude (default api_config_default (apis' !! api)) <->
        path ∈ ac_exclude (default api_config_default (apis !! api)) \/
        built_in_source built_ins ac_exclude imports api path)).
Proof.
  unfold built_in_source. revert apis. induction imports as [|i imports IH]; intros apis; cbn [fold_res].
  - intros [= <-]. split_and!.
    + by intros ? ?%elem_of_nil.
    + intros api. rewrite elem_of_nil. tauto.
    + intros api path. split; (split; [auto|]);
        (intros [?|(b & Hb & _)]; [done|by apply elem_of_nil in Hb]).
  - unfold merge_built_in at 1. destruct (built_ins !! i) as [b|] eqn:E; [|done].
    intros H. destruct (IH _ H) as (H1 & H2 & H3). split_and!.
    + intros j [->|Hj]%elem_of_cons; eauto.
    + intros api. rewrite H2, elem_of_cons.
      destruct (decide (api = i)) as [->|Hne].
      * rewrite lookup_insert. split; [auto|]. intros _. left. eauto.
      * rewrite lookup_insert_ne by congruence. tauto.
    + intros api path. destruct (H3 api path) as [H4 H5]. rewrite H4, H5.
      destruct (decide (api = i)) as [->|Hne].
      * rewrite lookup_insert. cbn. rewrite !elem_of_app.
        split; split; intros HX.
        -- destruct HX as [[?|?]|(b' & ? & ? & ?)]; [by left|right|right].
           ++ exists b. rewrite elem_of_cons. auto.
           ++ exists b'. rewrite elem_of_cons. auto.
        -- destruct HX as [?|(b' & Hb' & HE & ?)]; [by left; left|].
           rewrite E in HE. injection HE as <-. left. by right.
        -- destruct HX as [[?|?]|(b' & ? & ? & ?)]; [by left|right|right].
           ++ exists b. rewrite elem_of_cons. auto.
           ++ exists b'. rewrite elem_of_cons. auto.
        -- destruct HX as [?|(b' & Hb' & HE & ?)]; [by left; left|].
           rewrite E in HE. injection HE as <-. left. by right.
      * rewrite lookup_insert_ne by congruence.
        split; (apply or_iff_compat_l; split; intros (b' & HX & ?); exists b';
          rewrite elem_of_cons in *; tauto).
Qed.

Lemma merge_built_in_fold_err built_ins imports apis e :
  fold_res (merge_built_in built_ins) imports apis = Err e ->
  exists i, i ∈ imports /\ built_ins !! i = None /\ e = UnknownStdApi i.
Proof.
  revert apis. induction imports as [|i imports IH]; intros apis; cbn [fold_res]; [done|].
  unfold merge_built_in at 1. destruct (built_ins !! i) as [b|] eqn:E.
  - intros H. destruct (IH _ H) as (j & Hj & ?). exists j. split; [by right|done].
  - intros [= <-]. exists i. split; [left|done].
Qed.

(** Imports from one package. *)
Lemma import_api_fold pkg imports l apis apis' :
  NoDup l.*1 ->
  fold_res (import_api pkg imports) l apis = Ok apis' ->
  (forall q d, apis' !! q = Some d <->
     apis !! q = Some d \/
     exists api, (api, d) ∈ l /\ api ∈ imports /\ q = pkg ++ lit "::" ++ api) /\
  (forall api d, (api, d) ∈ l -> api ∈ imports -> apis !! (pkg ++ lit "::" ++ api) = None).
Proof.
  revert apis. induction l as [|[api d] l IH]; intros apis Hnd; cbn [fold_res].
  - intros [= <-]. split.
    + intros q d. split; [auto|]. intros [?|(a & Ha & _)]; [done|]. by apply elem_of_nil in Ha.
    + by intros ? ? ?%elem_of_nil.
  - cbn in Hnd. apply NoDup_cons in Hnd as [Hn Hnd].
    unfold import_api at 1. destruct (mem_str api imports) eqn:E.
    + apply mem_str_spec in E.
      destruct (apis !! (pkg ++ lit "::" ++ api)) as [?|] eqn:EL; [done|].
      intros H. destruct (IH _ Hnd H) as [H1 H2]. split.
      * intros q d'. rewrite H1. destruct (decide (q = pkg ++ lit "::" ++ api)) as [->|Hne].
        -- rewrite lookup_insert, EL. split.
           ++ intros [[= ->]|(a & Ha & ? & Heq)].
              ** right. exists api. split; [left|done].
              ** right. exists a. split; [by right|done].
           ++ intros [?|(a & Ha & ? & Heq)]; [done|].
              apply elem_of_cons in Ha as [[= -> ->]|Ha]; [by left|].
              right. eauto.
        -- rewrite lookup_insert_ne by congruence. split.
           ++ intros [?|(a & Ha & ? & Heq)]; [by left|]. right. exists a. split; [by right|done].
           ++ intros [?|(a & Ha & ? & Heq)]; [by left|].
              apply elem_of_cons in Ha as [[= -> ->]|Ha]; [done|]. right. eauto.
      * intros a d' [[= -> ->]|Ha]%elem_of_cons Hi; [done|].
        specialize (H2 a d' Ha Hi).
        destruct (decide (a = api)) as [->|Hne].
        -- by rewrite lookup_insert in H2.
        -- rewrite lookup_insert_ne in H2; [done|].
           intros Heq%app_inv_head%app_inv_head. congruence.
    + intros H. destruct (IH _ Hnd H) as [H1 H2].
      assert (Hni : api ∉ imports).
      { intros Hi. apply mem_str_spec in Hi. congruence. }
      split.
      * intros q d'. rewrite H1. apply or_iff_compat_l. split.
        -- intros (a & Ha & ? & ->). exists a. split; [by right|done].
        -- intros (a & [[= -> ->]|Ha]%elem_of_cons & ? & ->); [done|]. eauto.
      * intros a d' [[= -> ->]|Ha]%elem_of_cons Hi; [done|]. eauto.
Qed.

Definition source_in (idx : crate_index)
    (exports : str -> list nat -> option (gmap str api_config))
    (l : list (str * package_config)) (name : str) (def : api_config) : Prop :=
  exists pkg pc imports v exported api,
    (pkg, pc) ∈ l /\ pc_import pc = Some imports /\
    api ∈ imports /\ is_newest idx pkg v /\
    exports pkg v = Some exported /\ exported !! api = Some def /\
    name = pkg ++ lit "::" ++ api.

Lemma source_in_cons idx ex pkg pc l name def :
  source_in idx ex ((pkg, pc) :: l) name def <->
  (exists imports v exported api,
    pc_import pc = Some imports /\ api ∈ imports /\ is_newest idx pkg v /\
    ex pkg v = Some exported /\ exported !! api = Some def /\ name = pkg ++ lit "::" ++ api)
  \/ source_in idx ex l name def.
Proof.
  unfold source_in. split.
  - intros (pkg' & pc' & i & v & x & a & Hin & H). apply elem_of_cons in Hin as [[= -> ->]|Hin].
    + left. exists i, v, x, a. done.
    + right. exists pkg', pc', i, v, x, a. done.
  - intros [(i & v & x & a & H)|(pkg' & pc' & i & v & x & a & Hin & H)].
    + exists pkg, pc, i, v, x, a. split; [left|done].
    + exists pkg', pc', i, v, x, a. split; [by right|done].
Qed.

Lemma import_package_ok idx ex apis pkg pc apis' :
  import_package idx ex apis (pkg, pc) = Ok apis' ->
  (forall q d, apis' !! q = Some d <-> apis !! q = Some d \/ source_in idx ex [(pkg, pc)] q d) /\
  (forall q d, source_in idx ex [(pkg, pc)] q d -> apis !! q = None) /\
  (forall imports, pc_import pc = Some imports -> imports <> [] ->
     exists v, is_newest idx pkg v /\ is_Some (ex pkg v)).
Proof.
  assert (Hnone : (pc_import pc = None \/ pc_import pc = Some []) ->
            forall q d, ~ source_in idx ex [(pkg, pc)] q d).
  { intros Hi q d Hs. apply source_in_cons in Hs as [(i & v & x & a & HI & Ha & _)|Hs].
    - destruct Hi as [Hi|Hi]; rewrite Hi in HI; [done|]. injection HI as <-.
      by apply elem_of_nil in Ha.
    - destruct Hs as (? & ? & ? & ? & ? & ? & Hx & _). by apply elem_of_nil in Hx. }
  unfold import_package. destruct (pc_import pc) as [[|i imports]|] eqn:EI.
  - intros [= <-]. assert (Hn := Hnone (or_intror eq_refl)). split_and!.
    + intros q d. split; [auto|]. intros [?|?]; [done|]. by destruct (Hn q d).
    + intros q d Hs. by destruct (Hn q d).
    + intros ? [= <-] ?. done.
  - destruct (newest_version idx pkg) as [v|] eqn:EV; [|done].
    pose proof (proj1 (newest_version_iff _ _ _) EV) as EV2.
    destruct (ex pkg v) as [exported|] eqn:EE; [|done].
    intros H. apply import_api_fold in H as [H1 H2]; [|apply NoDup_fst_map_to_list].
    assert (HS : forall q d, source_in idx ex [(pkg, pc)] q d <->
      exists api, (api, d) ∈ map_to_list exported /\ api ∈ (i :: imports) /\
        q = pkg ++ lit "::" ++ api).
    { intros q d. rewrite source_in_cons. split.
      - intros [(i' & v' & x & a & HI & Ha & HV & HE & HX & ->)|Hs].
        + rewrite EI in HI. injection HI as <-. apply newest_version_iff in HV. rewrite EV in HV. injection HV as <-.
          rewrite EE in HE. injection HE as <-. exists a.
          split; [by apply elem_of_map_to_list|done].
        + destruct Hs as (? & ? & ? & ? & ? & ? & Hx & _). by apply elem_of_nil in Hx.
      - intros (api & Hin & Hi & ->). left. exists (i :: imports), v, exported, api.
        apply elem_of_map_to_list in Hin. done. }
    split_and!.
    + intros q d. rewrite H1, HS. done.
    + intros q d Hs. apply HS in Hs as (api & Hin & Hi & ->). eauto.
    + intros ? _ _. eauto.
  - intros [= <-]. assert (Hn := Hnone (or_introl eq_refl)). split_and!.
    + intros q d. split; [auto|]. intros [?|?]; [done|]. by destruct (Hn q d).
    + intros q d Hs. by destruct (Hn q d).
    + intros ? ?. done.
Qed.

Lemma import_packages_fold idx ex l apis apis' :
  fold_res (import_package idx ex) l apis = Ok apis' ->
  (forall q d, apis' !! q = Some d <-> apis !! q = Some d \/ source_in idx ex l q d) /\
  (forall q d, source_in idx ex l q d -> apis !! q = None) /\
  (forall pkg pc imports, (pkg, pc) ∈ l -> pc_import pc = Some imports -> imports <> [] ->
     exists v, is_newest idx pkg v /\ is_Some (ex pkg v)).
Proof.
  revert apis. induction l as [|[pkg pc] l IH]; intros apis; cbn [fold_res].
  - intros [= <-].
    assert (Hn : forall q d, ~ source_in idx ex [] q d).
    { intros q d (? & ? & ? & ? & ? & ? & Hx & _). by apply elem_of_nil in Hx. }
    split_and!.
    + intros q d. split; [auto|]. intros [?|?]; [done|]. by destruct (Hn q d).
    + intros q d Hs. by destruct (Hn q d).
    + by intros ? ? ? ?%elem_of_nil.
  - destruct (import_package idx ex apis (pkg, pc)) as [apis1|] eqn:E; [|done].
    intros H. destruct (IH _ H) as (H1 & H2 & H3).
    destruct (import_package_ok _ _ _ _ _ _ E) as (G1 & G2 & G3).
    assert (HC : forall q d, source_in idx ex ((pkg, pc) :: l) q d <->
      source_in idx ex [(pkg, pc)] q d \/ source_in idx ex l q d).
    { intros q d. rewrite !source_in_cons. split; [tauto|].
      intros [[?|Hs]|?]; [tauto| |tauto].
      destruct Hs as (? & ? & ? & ? & ? & ? & Hx & _). by apply elem_of_nil in Hx. }
    split_and!.
    + intros q d. rewrite H1, G1, HC. tauto.
    + intros q d Hs. apply HC in Hs as [Hs|Hs]; [eauto|].
      specialize (H2 q d Hs). destruct (apis !! q) eqn:EQ; [|done].
      assert (apis1 !! q = Some a) by (apply G1; by left). congruence.
    + intros pkg' pc' imports [[= -> ->]|Hin]%elem_of_cons; eauto.
Qed.

Lemma import_source_in idx ex rc q d :
  import_source idx ex rc q d <-> source_in idx ex (map_to_list (rc_packages rc)) q d.
Proof.
  unfold import_source, source_in. split;
    intros (pkg & pc & i & v & x & a & H & H'); exists pkg, pc, i, v, x, a;
    (split; [|done]); by apply elem_of_map_to_list.
Qed.

Lemma load_imports_ok idx ex rc rc' :
  load_imports idx ex rc = Ok rc' ->
  (forall q d, rc_apis rc' !! q = Some d <->
     rc_apis rc !! q = Some d \/ import_source idx ex rc q d) /\
  (forall q d, import_source idx ex rc q d -> rc_apis rc !! q = None) /\
  (forall pkg pc imports, rc_packages rc !! pkg = Some pc -> pc_import pc = Some imports ->
     imports <> [] -> exists v, is_newest idx pkg v /\ is_Some (ex pkg v)).
Proof.
  unfold load_imports. destruct (fold_res _ _ _) as [apis|] eqn:E; [|done].
  intros [= <-]. cbn.
  destruct (import_packages_fold _ _ _ _ _ E) as (H1 & H2 & H3). split_and!.
  - intros q d. by rewrite H1, import_source_in.
  - intros q d Hs. apply import_source_in in Hs. eauto.
  - intros pkg pc imports Hp. apply elem_of_map_to_list in Hp. eauto.
Qed.

(** Errors of load_imports have a reason. *)
Lemma import_api_fold_err pkg imports l apis e :
  NoDup l.*1 ->
  fold_res (import_api pkg imports) l apis = Err e ->
  exists api d, (api, d) ∈ l /\ api ∈ imports /\ is_Some (apis !! (pkg ++ lit "::" ++ api)) /\
    e = ApiDefinedTwice pkg api.
Proof.
  revert apis. induction l as [|[api d] l IH]; intros apis Hnd; cbn [fold_res]; [done|].
  cbn in Hnd. apply NoDup_cons in Hnd as [Hn Hnd].
  unfold import_api at 1. destruct (mem_str api imports) eqn:E.
  - apply mem_str_spec in E.
    destruct (apis !! (pkg ++ lit "::" ++ api)) as [?|] eqn:EL.
    + intros [= <-]. exists api, d. split; [left|]. split; [done|]. split; [eauto|done].
    + intros H. destruct (IH _ Hnd H) as (a & d' & Ha & Hi & Hs & ->).
      exists a, d'. split; [by right|]. split; [done|]. split; [|done].
      rewrite lookup_insert_ne in Hs; [done|].
      intros Heq%app_inv_head%app_inv_head. subst a.
      apply Hn. apply elem_of_list_fmap. exists (api, d'). done.
  - intros H. destruct (IH _ Hnd H) as (a & d' & Ha & ?). exists a, d'. split; [by right|done].
Qed.

(** Two different origins for the same qualified name. *)
Lemma load_imports_err idx ex rc e :
  load_imports idx ex rc = Err e ->
  (exists pkg pc i imports, rc_packages rc !! pkg = Some pc /\
     pc_import pc = Some (i :: imports) /\
     (((~ exists p, p ∈ idx /\ pk_name p = pkg) /\ e = ImportPackageNotFound pkg) \/
      exists v, is_newest idx pkg v /\ ex pkg v = None /\ e = ExportsUnavailable pkg))
  \/
  (exists pkg api, e = ApiDefinedTwice pkg api /\
     (exists d, import_source idx ex rc (pkg ++ lit "::" ++ api) d) /\
     (is_Some (rc_apis rc !! (pkg ++ lit "::" ++ api)) \/
      exists pkg' api', pkg' <> pkg /\ pkg' ++ lit "::" ++ api' = pkg ++ lit "::" ++ api /\
        is_Some (rc_packages rc !! pkg'))).
Proof.
  unfold load_imports. destruct (fold_res _ _ _) as [apis|e'] eqn:E; [done|].
  intros [= ->].
  assert (HG : forall l apis, NoDup l.*1 ->
    (forall x, x ∈ l -> x ∈ map_to_list (rc_packages rc)) ->
    (forall q, is_Some (apis !! q) -> is_Some (rc_apis rc !! q) \/
       exists pkg' api', pkg' ∉ l.*1 /\ q = pkg' ++ lit "::" ++ api' /\
         is_Some (rc_packages rc !! pkg')) ->
    fold_res (import_package idx ex) l apis = Err e ->
    (exists pkg pc i imports, rc_packages rc !! pkg = Some pc /\
     pc_import pc = Some (i :: imports) /\
     (((~ exists p, p ∈ idx /\ pk_name p = pkg) /\ e = ImportPackageNotFound pkg) \/
      exists v, is_newest idx pkg v /\ ex pkg v = None /\ e = ExportsUnavailable pkg))
    \/
    (exists pkg api, e = ApiDefinedTwice pkg api /\
       (exists d, import_source idx ex rc (pkg ++ lit "::" ++ api) d) /\
     (is_Some (rc_apis rc !! (pkg ++ lit "::" ++ api)) \/
      exists pkg' api', pkg' <> pkg /\ pkg' ++ lit "::" ++ api' = pkg ++ lit "::" ++ api /\
        is_Some (rc_packages rc !! pkg')))).
  { clear E. induction l as [|[pkg pc] l IH]; intros apis Hnd Hsub Hap; cbn [fold_res]; [done|].
    cbn in Hnd. apply NoDup_cons in Hnd as [Hn Hnd].
    assert (Hpc : rc_packages rc !! pkg = Some pc).
    { apply elem_of_map_to_list. apply Hsub. left. }
    destruct (import_package idx ex apis (pkg, pc)) as [apis1|e1] eqn:E1.
    - apply IH; [done| |].
      + intros x Hx. apply Hsub. by right.
      + intros q Hq. destruct (import_package_ok _ _ _ _ _ _ E1) as (G1 & _ & _).
        destruct Hq as [d Hq]. apply G1 in Hq as [Hq|Hq].
        * destruct (Hap q) as [?|(pkg' & api' & Hni & -> & ?)]; [eauto|by left|].
          right. exists pkg', api'. split; [|done].
          cbn in Hni. apply not_elem_of_cons in Hni. tauto.
        * apply source_in_cons in Hq as [(i & v & x & a & _ & _ & _ & _ & _ & ->)|Hs].
          -- right. exists pkg, a. split; [done|]. split; [done|]. eauto.
          -- destruct Hs as (? & ? & ? & ? & ? & ? & Hx & _). by apply elem_of_nil in Hx.
    - intros [= ->]. unfold import_package in E1.
      destruct (pc_import pc) as [[|i imports]|] eqn:EI; [done| |done].
      destruct (newest_version idx pkg) as [v|] eqn:EV.
      + pose proof (proj1 (newest_version_iff _ _ _) EV) as EV2. destruct (ex pkg v) as [exported|] eqn:EE.
        * right. apply import_api_fold_err in E1 as (api & d & Hin & Hi & Hs & ->);
            [|apply NoDup_fst_map_to_list].
          exists pkg, api. split; [done|]. split.
          -- exists d. exists pkg, pc, (i :: imports), v, exported, api.
             apply elem_of_map_to_list in Hin. done.
          -- destruct (Hap _ Hs) as [?|(pkg' & api' & Hni & Heq & ?)]; [by left|].
             right. exists pkg', api'. split; [|done].
             intros ->. cbn in Hni. apply not_elem_of_cons in Hni. tauto.
        * left. exists pkg, pc, i, imports. split; [done|]. split; [done|].
          right. exists v. injection E1 as <-. done.
      + left. exists pkg, pc, i, imports. split; [done|]. split; [done|].
        left. injection E1 as <-. split; [|done]. by apply newest_version_None. }
  apply HG in E; try done.
  - apply NoDup_fst_map_to_list.
  - intros q Hq. by left.
Qed.

(** The newest version is a maximum. *)

Lemma apply_fn_apis n rc : rc_apis (apply_fn n rc) = rc_apis rc.
Proof. destruct n as [|[|[|n]]]; cbn; try done. by destruct (sb_kind _). Qed.

Lemma apply_fns_apis l rc : rc_apis (foldl (fun rc n => apply_fn n rc) rc l) = rc_apis rc.
Proof.
  revert rc. induction l as [|n l IH]; intros rc; [done|].
  change (rc_apis (foldl (fun rc n => apply_fn n rc) (apply_fn n rc) l) = rc_apis rc).
  rewrite IH. apply apply_fn_apis.
Qed.

Lemma patches_apis rc : rc_apis (apply_runtime_patches rc) = rc_apis rc.
Proof. apply apply_fns_apis. Qed.

Lemma parse_raw_apis built_ins file rc :
  parse_raw built_ins file = Ok rc ->
  (forall api, is_Some (rc_apis rc !! api) <->
     is_Some (rc_apis file !! api) \/ api ∈ rc_import_std file) /\
  (forall api path,
     (path ∈ ac_include (default api_config_default (rc_apis rc !! api)) <->
        path ∈ ac_include (default api_config_default (rc_apis file !! api)) \/
        exists b, api ∈ rc_import_std file /\ built_ins !! api = Some b /\ path ∈ ac_include b) /\
     (path ∈ ac_exclude (default api_config_default (rc_apis rc !! api)) <->
        path ∈ ac_exclude (default api_config_default (rc_apis file !! api)) \/
        exists b, api ∈ rc_import_std file /\ built_ins !! api = Some b /\ path ∈ ac_exclude b)).
Proof.
  unfold parse_raw, merge_built_ins.
  destruct (fold_res _ _ _) as [apis|] eqn:E; [|done].
  intros [= <-]. unfold set_rustc_sandbox. cbn [rc_apis].
  rewrite patches_apis. cbn [rc_apis set_import_std set_apis].
  destruct (merge_built_in_fold _ _ _ _ E) as (_ & H2 & H3). done.
Qed.

Lemma parse_raw_error built_ins file :
  (exists e, parse_raw built_ins file = Err e) <->
  exists i, i ∈ rc_import_std file /\ built_ins !! i = None.
Proof.
  unfold parse_raw, merge_built_ins.
  destruct (fold_res _ _ _) as [apis|e] eqn:E.
  - split; [by intros [? ?]|]. intros (i & Hi & Hn).
    destruct (merge_built_in_fold _ _ _ _ E) as (H1 & _).
    destruct (H1 i Hi). congruence.
  - split; [|eauto]. intros _.
    apply merge_built_in_fold_err in E as (i & Hi & Hn & _). eauto.
Qed.

Lemma apply_fns_version l rc :
  rc_version (foldl (fun rc n => apply_fn n rc) rc l) = rc_version rc.
Proof.
  revert rc. induction l as [|n l IH]; intros rc; [done|].
  change (rc_version (foldl (fun rc n => apply_fn n rc) (apply_fn n rc) l) = rc_version rc).
  rewrite IH. destruct n as [|[|[|n]]]; cbn; try done. by destruct (sb_kind _).
Qed.

Lemma apply_fns_packages l rc :
  rc_packages (foldl (fun rc n => apply_fn n rc) rc l) = rc_packages rc.
Proof.
  revert rc. induction l as [|n l IH]; intros rc; [done|].
  change (rc_packages (foldl (fun rc n => apply_fn n rc) (apply_fn n rc) l) = rc_packages rc).
  rewrite IH. destruct n as [|[|[|n]]]; cbn; try done. by destruct (sb_kind _).
Qed.

Lemma parse_raw_packages b file r : parse_raw b file = Ok r -> rc_packages r = rc_packages file.
Proof.
  unfold parse_raw. destruct (merge_built_ins b file) as [r0|] eqn:E; [|done].
  intros [= <-]. cbn [rc_packages set_rustc_sandbox].
  unfold apply_runtime_patches. rewrite apply_fns_packages.
  by destruct (merge_built_ins_frame _ _ _ E) as (_ & ? & _).
Qed.

Lemma load_imports_section idx ex rc rc' pkg s sec' :
  load_imports idx ex rc = Ok rc' -> section rc' pkg s = Some sec' ->
  exists sec, section rc pkg s = Some sec /\ pc_sandbox sec' = pc_sandbox sec.
Proof.
  unfold load_imports. destruct (fold_res _ _ _) as [apis|]; [|done]. intros [= <-].
  unfold section. cbn [rc_packages set_packages set_apis]. rewrite lookup_fmap.
  destruct (rc_packages rc !! pkg) as [pc|]; [|done]. cbn [fmap option_fmap option_map].
  destruct s; cbn; [intros [= <-]; eauto|eauto..].
Qed.

Lemma path_join_resolved root p : absolute root -> resolved root p (path_join root p).
Proof.
  intros [r0 ->]. unfold resolved, path_join, absolute.
  destruct p as [|c p].
  - cbn [is_absolute]. right. split; [by intros [? ?]|].
    destruct (last _) as [d|] eqn:El; [|by apply last_None in El].
    destruct (Ascii.eqb_spec d "/"%char) as [->|]; [|by left]. right.
    apply last_Some in El as [r Hr]. rewrite Hr. eauto.
  - destruct (decide (c = "/"%char)) as [->|Hc].
    + left. split; [by eexists|done].
    + assert (is_absolute (c :: p) = false) as ->.
      { cbn. destruct c as [[] [] [] [] [] [] [] []]; try done. }
      right. split; [by intros [? [= -> _]]|].
      destruct (last _) as [d|] eqn:El; [|by apply last_None in El].
      destruct (Ascii.eqb_spec d "/"%char) as [->|]; [|by left]. right.
      apply last_Some in El as [r Hr]. rewrite Hr. eauto.
Qed.

Lemma loaded_own_sections b ex idx root file c pkg s sec' :
  absolute root -> load_config b ex idx (Some root) file = Loaded c ->
  s ∈ [All; Build; Test] -> section (cf_raw c) pkg s = Some sec' ->
  sandbox_paths_absolute (pc_sandbox sec') /\
  exists sec, section file pkg s = Some sec /\
    Forall2 (resolved root) (sb_bind_writable (pc_sandbox sec)) (sb_bind_writable (pc_sandbox sec')) /\
    Forall2 (resolved root) (sb_make_writable (pc_sandbox sec)) (sb_make_writable (pc_sandbox sec')).
Proof.
  intros Hroot H Hs Hsec.
  destruct (load_config_inv _ _ _ _ _ _ H) as (r1 & r2 & H1 & H2 & H3 & _).
  destruct (own_sections_absolute _ _ _ _ _ _ Hroot H3 Hs Hsec) as (Habs & sec2 & Hsec2 & Hb & Hm).
  split; [done|].
  destruct (load_imports_section _ _ _ _ _ _ _ H2 Hsec2) as (sec & Hsec1 & Hsb).
  exists sec. split.
  - revert Hsec1. unfold section. by rewrite (parse_raw_packages _ _ _ H1).
  - rewrite Hb, Hm, Hsb. clear -Hroot.
    split; (induction (_ (pc_sandbox sec)) as [|p l IH]; constructor; [by apply path_join_resolved|done]).
Qed.

Lemma loaded_version b ex idx root file c :
  load_config b ex idx root file = Loaded c -> rc_version (cf_raw c) = rc_version file.
Proof.
  intros H. destruct (load_config_inv _ _ _ _ _ _ H) as (r1 & r2 & H1 & H2 & H3 & _).
  destruct (make_paths_absolute_frame _ _ _ H3) as (-> & _).
  unfold load_imports in H2. destruct (fold_res _ _ _); [|done]. injection H2 as <-.
  cbn [rc_version set_packages set_apis].
  unfold parse_raw in H1. destruct (merge_built_ins b file) as [r0|] eqn:E; [|done].
  injection H1 as <-. cbn [rc_version set_rustc_sandbox].
  unfold apply_runtime_patches. rewrite apply_fns_version.
  by destruct (merge_built_ins_frame _ _ _ E).
Qed.
