(** Proofs about what is reported about packages themselves. *)
From Verif Require Import Base BaseFacts ApiMapModel ConfigModel ConfigSpec ConfigProofs ConfigLoadProofs ReloadProofs
  ProblemModel CheckerModel CheckerSpec CheckerProofs CheckerSysProofs TomlModel EditorModel EditorSpec
  EditorApiProofs EditorProofs CollectModel VetSpec.

(** ** Procedural macros *)

Lemma loaded_effective (b : gmap str api_config) (ex : str -> list nat -> option (gmap str api_config))
    (idx : crate_index) (root : str) (file : raw_config) (c : config) (p : package) :
  load_config b ex idx (Some root) file = Loaded c -> p ∈ idx ->
  cf_permissions c !! (pk_name p, All) = Some (eff (cf_raw c) (pk_name p) All).
Proof.
  intros Hl Hp. destruct (load_config_inv _ _ _ _ _ _ Hl) as (_ & _ & _ & _ & _ & _ & Hc).
  rewrite Hc. cbn [cf_permissions]. rewrite (effective_lookup (cf_raw c) idx p All Hp).
  destruct (decide _) as [_|H]; [done|]. destruct H. right. exists p. split_and!; [done|done|].
  cbn. tauto.
Qed.

Lemma loaded_section (b : gmap str api_config) (ex : str -> list nat -> option (gmap str api_config))
    (idx : crate_index) (root : str) (file : raw_config) (c : config) (pkg : str) :
  load_config b ex idx (Some root) file = Loaded c ->
  rc_packages (cf_raw c) !! pkg = finished root <$> (rc_packages file !! pkg).
Proof. intros Hl. by rewrite (loaded_packages _ _ _ _ _ _ Hl), lookup_fmap. Qed.

Lemma eff_macro (rc : raw_config) (pkg : str) :
  pc_allow_proc_macro (eff rc pkg All) = default false (pc_allow_proc_macro <$> rc_packages rc !! pkg).
Proof.
  unfold eff, eff_all, sec0, stripped, section. cbn [pc_allow_proc_macro package_inherit].
  destruct (rc_packages rc !! pkg) as [pc|]; cbn; by rewrite ?orb_false_r.
Qed.

Lemma eff_import (rc : raw_config) (pkg : str) :
  pc_import (eff rc pkg All) = rc_packages rc !! pkg ≫= pc_import.
Proof.
  unfold eff, eff_all, sec0, stripped, section. cbn [pc_import package_inherit].
  by destruct (rc_packages rc !! pkg) as [pc|].
Qed.

Lemma macros_reported (b : gmap str api_config) (ex : str -> list nat -> option (gmap str api_config))
    (root : str) (file : raw_config) (c : config) (env : environment) (ck : checker) (q : problem) :
  load_config b ex (en_index env) (Some root) file = Loaded c -> ck_config ck = c ->
  q ∈ base_problems env ck <->
  exists p, p ∈ en_index env /\ pk_is_proc_macro p = true /\ ~ may_be_macro file (pk_name p) /\
    q = PIsProcMacro (PkgId (pk_name p) (pk_version p)).
Proof.
  intros Hl Hck. unfold base_problems. rewrite elem_of_list_omap, Hck.
  assert (Hm : forall p, p ∈ en_index env ->
     match cf_permissions c !! (pk_name p, All) with Some e => pc_allow_proc_macro e | None => false end = true
     <-> may_be_macro file (pk_name p)).
  { intros p Hp. rewrite (loaded_effective _ _ _ _ _ _ p Hl Hp), eff_macro,
      (loaded_section _ _ _ _ _ _ (pk_name p) Hl).
    unfold may_be_macro. destruct (rc_packages file !! pk_name p) as [pc|]; cbn.
    - split; [eauto|]. intros (sec & E & H). assert (sec = pc) as -> by congruence. done.
    - split; [done|]. intros (sec & E & _). done. }
  split.
  - intros (p & Hp & E). exists p. destruct (pk_is_proc_macro p); [|done]. specialize (Hm p Hp).
    destruct (match cf_permissions c !! (pk_name p, All) with Some e => pc_allow_proc_macro e | None => false end);
      [done|].
    split_and!; [done|done| |congruence]. intros H. apply Hm in H. done.
  - intros (p & Hp & Hmac & Hno & ->). exists p. split; [done|]. rewrite Hmac.
    specialize (Hm p Hp).
    destruct (match cf_permissions c !! (pk_name p, All) with Some e => pc_allow_proc_macro e | None => false end);
      [|done].
    destruct Hno. by apply Hm.
Qed.

(** ** Possible exports *)

Lemma usage_no_export (env : environment) (ck : checker) (u : api_usages) (p : pkg_id) (api sym : str) ps :
  (api_used env ck u).2 = Some ps -> PPossibleExportedApi p api sym ∉ ps.
Proof.
  unfold api_used. destruct (is_allowed _ _ _); cbn [snd].
  { intros E. assert (ps = []) as -> by congruence. by intros ?%elem_of_nil. }
  destruct (partition_usages _ _ _ _ _) as [[on off]|]; cbn [snd]; [|done]. intros E Hin.
  injection E as <-. apply elem_of_app in Hin as [Hin|Hin].
  - apply elem_of_list_fmap in Hin as (e & He & _). discriminate He.
  - destruct on; [by apply elem_of_nil in Hin|]. apply elem_of_list_singleton in Hin. discriminate Hin.
Qed.

Lemma usage_config (env : environment) (ck : checker) (u : api_usages) :
  ck_config (api_used env ck u).1 = ck_config ck.
Proof.
  unfold api_used. destruct (is_allowed _ _ _); [done|].
  by destruct (partition_usages _ _ _ _ _) as [[on off]|].
Qed.

Lemma report_no_export (env : environment) (p : pkg_id) (api sym : str) (us : list api_usages) :
  forall (ck ck' : checker) (acc ps : list problem),
  report_usages env ck us acc = (ck', Some ps) ->
  ck_config ck' = ck_config ck /\
  (PPossibleExportedApi p api sym ∈ ps <-> PPossibleExportedApi p api sym ∈ acc).
Proof.
  induction us as [|u us IH]; intros ck ck' acc ps H; cbn [report_usages] in H.
  - injection H as <- <-. done.
  - pose proof (usage_no_export env ck u p api sym) as Hn. pose proof (usage_config env ck u) as Hc.
    destruct (api_used env ck u) as [ck1 [ps1|]]; [|done]. cbn [fst snd] in Hn, Hc.
    destruct (IH _ _ _ _ H) as [E Hi]. split; [congruence|]. rewrite Hi, elem_of_app.
    specialize (Hn _ eq_refl). tauto.
Qed.

Lemma exports_reported (b : gmap str api_config) (ex : str -> list nat -> option (gmap str api_config))
    (root : str) (file : raw_config) (c : config) (env : environment) (ck ck' : checker) (o : scan_outputs)
    (ps : list problem) (p : pkg_id) (api sym : str) :
  load_config b ex (en_index env) (Some root) file = Loaded c -> ck_config ck = c -> so_base o = [] ->
  (exists q, q ∈ en_index env /\ pk_name q = pi_name p) ->
  scan_problems env ck o = (ck', Some ps) ->
  PPossibleExportedApi p api sym ∈ ps <->
  PossibleExport p api sym ∈ so_possible o /\ ~ imports_stated file (pi_name p) /\
  ~ export_settled (rc_apis (cf_raw c)) (pi_name p) api.
Proof.
  intros Hl Hck Hb (q & Hq & Hqn) Hs. unfold scan_problems in Hs.
  destruct (report_usages env ck (so_usages o) (so_base o)) as [ck1 [ps1|]] eqn:E; [|done].
  destruct (report_no_export env p api sym _ _ _ _ _ E) as [Hcfg Hn].
  rewrite Hb, elem_of_nil in Hn. injection Hs as <- <-. rewrite Hcfg, Hck, elem_of_app.
  assert (Hone : forall x : possible_export, PPossibleExportedApi p api sym ∈ possible_export_problem c x <->
    x = PossibleExport p api sym /\ ~ imports_stated file (pi_name p) /\
    ~ export_settled (rc_apis (cf_raw c)) (pi_name p) api).
  { intros [p' api' sym']. unfold possible_export_problem. cbn [pe_pkg pe_api pe_symbol].
    split.
    - intros Hin.
      assert (Hx : PPossibleExportedApi p api sym = PPossibleExportedApi p' api' sym').
      { destruct (match cf_permissions c !! (pi_name p', All) with
                  | Some pc => match pc_import pc with Some _ => true | None => false end
                  | None => false end); [by apply elem_of_nil in Hin|].
        destruct (match rc_apis (cf_raw c) !! api' with
                  | Some a => mem_str (pi_name p') (ac_no_auto_detect a) ||
                              mem_str (pi_name p' ++ lit "::" ++ api') (ac_include a)
                  | None => false end); [by apply elem_of_nil in Hin|].
        by apply elem_of_list_singleton in Hin. }
      assert (p' = p) as -> by congruence. assert (api' = api) as -> by congruence.
      assert (sym' = sym) as -> by congruence. split; [done|].
      rewrite <- Hqn in Hin |- *. rewrite (loaded_effective _ _ _ _ _ _ q Hl Hq), eff_import,
        (loaded_section _ _ _ _ _ _ (pk_name q) Hl) in Hin.
      split.
      + intros (sec & Hsec & Hi). rewrite Hsec in Hin. cbn in Hin. destruct (pc_import sec); [|done].
        cbn in Hin. by apply elem_of_nil in Hin.
      + intros (a & Ha & Hd). rewrite Ha in Hin.
        destruct (match (finished root <$> rc_packages file !! pk_name q) ≫= pc_import with Some _ => true | None => false end);
          [by apply elem_of_nil in Hin|].
        assert (mem_str (pk_name q) (ac_no_auto_detect a) || mem_str (pk_name q ++ lit "::" ++ api) (ac_include a) = true) as Hm.
        { apply orb_true_iff. rewrite !mem_str_spec. exact Hd. }
        rewrite Hm in Hin. by apply elem_of_nil in Hin.
    - intros (Hx & Hno & Hset). assert (p' = p) as -> by congruence. assert (api' = api) as -> by congruence.
      assert (sym' = sym) as -> by congruence.
      rewrite <- Hqn in Hno, Hset |- *. rewrite (loaded_effective _ _ _ _ _ _ q Hl Hq), eff_import,
        (loaded_section _ _ _ _ _ _ (pk_name q) Hl).
      assert ((finished root <$> rc_packages file !! pk_name q) ≫= pc_import = None) as ->.
      { destruct (rc_packages file !! pk_name q) as [sec|] eqn:Es; [|done]. cbn.
        destruct (pc_import sec) eqn:Ei; [|done]. destruct Hno. exists sec. split; [done|congruence]. }
      destruct (rc_apis (cf_raw c) !! api) as [a|] eqn:Ea; [|by left].
      assert (mem_str (pk_name q) (ac_no_auto_detect a) || mem_str (pk_name q ++ lit "::" ++ api) (ac_include a) = false) as ->;
        [|by left].
      apply not_true_iff_false. rewrite orb_true_iff, !mem_str_spec. intros H. apply Hset. by exists a. }
  split.
  - intros [H|H]; [tauto|]. apply elem_of_list_In, in_concat in H as (l & Hin & H).
    apply in_map_iff in Hin as (x & <- & Hx). apply elem_of_list_In in H. apply Hone in H as (-> & H).
    split; [by apply elem_of_list_In|done].
  - intros (Hx & H). right. apply elem_of_list_In, in_concat.
    exists (possible_export_problem c (PossibleExport p api sym)). split.
    + apply in_map_iff. exists (PossibleExport p api sym). split; [done|]. by apply elem_of_list_In.
    + apply elem_of_list_In, Hone. done.
Qed.

(** ** The files of packages *)

Lemma record_paths_lookup (p : pkg_id) (paths : list str) : forall (m : gmap str (list pkg_id)) (path : str),
  let ids := default [] (m !! path) in
  let ids' := default [] (foldl (record_path p) m paths !! path) in
  (forall q, q ∈ ids' <-> q ∈ ids \/ path ∈ paths /\ q = p) /\ (NoDup ids -> NoDup ids') /\
  (is_Some (foldl (record_path p) m paths !! path) <-> is_Some (m !! path) \/ path ∈ paths).
Proof.
  induction paths as [|x paths IH]; intros m path; cbn [foldl].
  - cbn zeta. split_and!; [intros q|done|]; rewrite elem_of_nil; tauto.
  - cbn zeta in IH |- *. destruct (IH (record_path p m x) path) as (H1 & H2 & H3).
    assert (G : (forall q, q ∈ default [] (record_path p m x !! path) <->
        q ∈ default [] (m !! path) \/ path = x /\ q = p) /\
      (NoDup (default [] (m !! path)) -> NoDup (default [] (record_path p m x !! path))) /\
      (is_Some (record_path p m x !! path) <-> is_Some (m !! path) \/ path = x)).
    { unfold record_path. destruct (decide (path = x)) as [->|Hne].
      - rewrite lookup_insert. cbn [default from_option id]. case_bool_decide as Hin.
        + split_and!; [|done|].
          * intros q. split; [by left|]. intros [H|[_ ->]]; done.
          * split; [by right|]. by eexists.
        + split_and!.
          * intros q. rewrite elem_of_app, elem_of_list_singleton. tauto.
          * intros Hnd. apply NoDup_app. split_and!; [done| |apply NoDup_singleton].
            intros y Hy ->%elem_of_list_singleton. done.
          * split; [by right|]. by eexists.
      - rewrite lookup_insert_ne by done. split_and!; [intros q|done|]; tauto. }
    destruct G as (G1 & G2 & G3). split_and!.
    + intros q. rewrite H1, G1, elem_of_cons. tauto.
    + intros Hnd. by apply H2, G2.
    + rewrite H3, G3, elem_of_cons. tauto.
Qed.

Lemma api_used_paths (env : environment) (ck : checker) (u : api_usages) :
  ck_paths (api_used env ck u).1 = ck_paths ck.
Proof.
  unfold api_used. destruct (is_allowed _ _ _); [done|].
  by destruct (partition_usages _ _ _ _ _) as [[on off]|].
Qed.

Lemma report_paths (env : environment) (us : list api_usages) : forall (ck : checker) (acc : list problem),
  ck_paths (report_usages env ck us acc).1 = ck_paths ck.
Proof.
  induction us as [|u us IH]; intros ck acc; cbn [report_usages]; [done|].
  pose proof (api_used_paths env ck u) as H. destruct (api_used env ck u) as [ck1 [ps|]]; cbn [fst] in *; [|done].
  rewrite IH. exact H.
Qed.

Lemma scan_problems_paths (env : environment) (ck : checker) (o : scan_outputs) :
  ck_paths (scan_problems env ck o).1 = ck_paths ck.
Proof.
  unfold scan_problems. pose proof (report_paths env (so_usages o) ck (so_base o)) as H.
  destruct (report_usages env ck (so_usages o) (so_base o)) as [ck1 [ps|]]; exact H.
Qed.

Lemma complete_paths (env : environment) (scan : scanner) (ck : checker) (cs : check_state) (info : rustc_output) :
  ck_paths (rustc_complete env scan ck cs info).1.1.1 =
  foldl (record_path (cs_pkg (ro_sel info))) (ck_paths ck) (ro_paths info).
Proof.
  unfold rustc_complete. cbn zeta.
  destruct (take_link_info _ _) as [[li rest]|]; [|done].
  set (ck1 := set_outstanding (record_crate_paths ck info) rest).
  assert (H : ck_paths (check_linker_invocation env scan ck1 li cs).1.1.1 = ck_paths ck1).
  { unfold check_linker_invocation, check_object_paths.
    set (cs1 := match cs with Some (_, apis) => _ | None => None end).
    destruct cs1 as [[o apis]|].
    - pose proof (scan_problems_paths env ck1 o) as H. by destruct (scan_problems env ck1 o) as [ck2 [ps|]].
    - destruct (scan ck1 li) as [o|]; [|done].
      pose proof (scan_problems_paths env ck1 o) as H. by destruct (scan_problems env ck1 o) as [ck2 [ps|]]. }
  destruct (check_linker_invocation env scan ck1 li cs) as [[[ck2 cs2] [[|q ps]|]] log]; exact H.
Qed.

Lemma sys_step_paths (env : environment) (scan : scanner) (requests : nat -> rustc_output) (s : system) (e : event) :
  ck_paths (sy_checker (sys_step env scan requests s e).1) =
  match e with
  | EComplete h => foldl (record_path (cs_pkg (ro_sel (requests h)))) (ck_paths (sy_checker s)) (ro_paths (requests h))
  | _ => ck_paths (sy_checker s)
  end.
Proof.
  destruct e as [li|h|c]; [done| |done]. cbn [sys_step].
  pose proof (complete_paths env scan (sy_checker s) (sy_states s !! h) (requests h)) as H.
  destruct (rustc_complete env scan (sy_checker s) (sy_states s !! h) (requests h)) as [[[ck cs] r] log].
  exact H.
Qed.

Lemma run_paths (env : environment) (scan : scanner) (requests : nat -> rustc_output) (path : str) (es : list event) :
  forall s, NoDup (default [] (ck_paths (sy_checker s) !! path)) ->
  let m := ck_paths (sy_checker (sys_run env scan requests s es).1) in
  (forall p, p ∈ default [] (m !! path) <->
     p ∈ default [] (ck_paths (sy_checker s) !! path) \/ compiled_for requests es path p) /\
  NoDup (default [] (m !! path)) /\
  (is_Some (m !! path) <-> is_Some (ck_paths (sy_checker s) !! path) \/ exists p, compiled_for requests es path p).
Proof.
  induction es as [|e es IH]; intros s Hnd; cbn zeta.
  - cbn [sys_run fst]. split_and!; [intros p|done|].
    + split; [by left|]. intros [H|(h & H & _)]; [done|]. by apply elem_of_nil in H.
    + split; [by left|]. intros [H|(p & h & H & _)]; [done|]. by apply elem_of_nil in H.
  - cbn [sys_run]. pose proof (sys_step_paths env scan requests s e) as Hp.
    destruct (sys_step env scan requests s e) as [s1 o]. cbn [fst] in Hp.
    specialize (IH s1).
    assert (Hstep : (forall p, p ∈ default [] (ck_paths (sy_checker s1) !! path) <->
        p ∈ default [] (ck_paths (sy_checker s) !! path) \/ compiled_for requests [e] path p) /\
      NoDup (default [] (ck_paths (sy_checker s1) !! path)) /\
      (is_Some (ck_paths (sy_checker s1) !! path) <->
         is_Some (ck_paths (sy_checker s) !! path) \/ exists p, compiled_for requests [e] path p)).
    { assert (Hother : (forall h, e <> EComplete h) -> forall p, ~ compiled_for requests [e] path p).
      { intros Hne p (h & H%elem_of_list_singleton & _). by apply (Hne h). }
      destruct e as [li|h|c].
      - rewrite Hp. pose proof (Hother ltac:(intros h' [=])) as H. split_and!; [intros p|exact Hnd|].
        + specialize (H p). tauto.
        + split; [by left|]. intros [?|[p Hc]]; [done|]. by destruct (H p).
      - rewrite Hp. destruct (record_paths_lookup (cs_pkg (ro_sel (requests h))) (ro_paths (requests h))
          (ck_paths (sy_checker s)) path) as (H1 & H2 & H3).
        assert (Hc : forall p, compiled_for requests [EComplete h] path p <->
          path ∈ ro_paths (requests h) /\ p = cs_pkg (ro_sel (requests h))).
        { intros p. split.
          - intros (h' & Hh%elem_of_list_singleton & H4 & H5). assert (h' = h) as -> by congruence. done.
          - intros [H4 ->]. exists h. split_and!; [left|done|done]. }
        split_and!.
        + intros p. rewrite H1, Hc. done.
        + by apply H2.
        + rewrite H3. split; intros [H|H]; [by left| |by left|].
          * right. exists (cs_pkg (ro_sel (requests h))). by apply Hc.
          * right. destruct H as [p H%Hc]. tauto.
      - rewrite Hp. pose proof (Hother ltac:(intros h' [=])) as H. split_and!; [intros p|exact Hnd|].
        + specialize (H p). tauto.
        + split; [by left|]. intros [?|[p Hc]]; [done|]. by destruct (H p). }
    destruct Hstep as (G1 & G2 & G3). specialize (IH G2). cbn zeta in IH.
    destruct (sys_run env scan requests s1 es) as [s2 os]. cbn [fst] in IH |- *.
    destruct IH as (I1 & I2 & I3).
    assert (Hcons : forall p, compiled_for requests (e :: es) path p <->
       compiled_for requests [e] path p \/ compiled_for requests es path p).
    { intros p. split.
      - intros (h & H & H'). apply elem_of_cons in H as [H|H].
        + left. exists h. split; [|done]. rewrite H. left.
        + right. by exists h.
      - intros [(h & H%elem_of_list_singleton & H')|(h & H & H')].
        + exists h. split; [|done]. rewrite H. left.
        + exists h. split; [|done]. by right. }
    split_and!; [|done|].
    + intros p. rewrite I1, G1, Hcons. tauto.
    + rewrite I3, G3. split.
      * intros [[H|[p H]]|[p H]]; [by left|right; exists p; apply Hcons; by left|right; exists p; apply Hcons; by right].
      * intros [H|[p H]]; [by left; left|]. apply Hcons in H as [H|H]; [left; right; by exists p|right; by exists p].
Qed.

Lemma files_of_packages (env : environment) (scan : scanner) (requests : nat -> rustc_output) (es : list event)
    (path : str) :
  let ck := sy_checker (after env scan requests es) in
  ((exists p, compiled_for requests es path p) ->
   exists ids, pkg_ids_for_source env ck path = Some ids /\ NoDup ids /\
     forall p, p ∈ ids <-> compiled_for requests es path p) /\
  ((forall p, ~ compiled_for requests es path p) ->
   (en_in_rust_std env path = true -> pkg_ids_for_source env ck path = Some []) /\
   (en_in_rust_std env path = false -> forall p, en_package_for_path env path = Some p ->
      pkg_ids_for_source env ck path = Some [p]) /\
   (en_in_rust_std env path = false -> en_package_for_path env path = None ->
      pkg_ids_for_source env ck path = None)).
Proof.
  cbn zeta. unfold after.
  destruct (run_paths env scan requests path es sys_init) as (H1 & H2 & H3).
  { cbn. rewrite lookup_empty. constructor. }
  assert (Hinit : ck_paths (sy_checker sys_init) !! path = None) by apply lookup_empty.
  rewrite Hinit in H1, H3.
  unfold pkg_ids_for_source. destruct (ck_paths _ !! path) as [ids|] eqn:E; cbn [default from_option id] in H1, H2.
  - split.
    + intros _. exists ids. split_and!; [done|done|]. intros p. rewrite H1, elem_of_nil. tauto.
    + intros Hno. exfalso. destruct H3 as [H3 _]. destruct (H3 ltac:(by eexists)) as [[? ?]|[p Hp]]; [done|].
      by apply (Hno p).
  - split.
    + intros Hex. exfalso. destruct H3 as [_ H3]. destruct (H3 ltac:(by right)) as [? ?]. done.
    + intros _. split_and!.
      * intros ->. done.
      * intros -> p ->. done.
      * intros -> ->. done.
Qed.

(** ** The sandbox of rustc *)

Lemma load_imports_rustc (idx : crate_index) (ex : str -> list nat -> option (gmap str api_config)) (rc rc' : raw_config) :
  load_imports idx ex rc = Ok rc' -> rc_rustc_sandbox rc' = rc_rustc_sandbox rc /\ rc_version rc' = rc_version rc.
Proof. unfold load_imports. destruct (fold_res _ _ _); [|done]. by intros [= <-]. Qed.

Lemma patched_rustc (rc : raw_config) :
  (1 <= rc_version rc <= 3)%Z ->
  let s := rc_rustc_sandbox rc in
  let s' := rc_rustc_sandbox (apply_runtime_patches rc) in
  rc_sandbox (apply_runtime_patches rc) = rc_sandbox rc /\
  sb_kind s' = match sb_kind s with
               | Some k => Some k
               | None => if bool_decide (rc_version rc = 1%Z) then Some Disabled else None
               end /\
  sb_extra_args s' = sb_extra_args s /\ sb_allow_network s' = sb_allow_network s /\
  sb_bind_writable s' = sb_bind_writable s /\ sb_make_writable s' = sb_make_writable s /\
  sb_pass_env s' = sb_pass_env s.
Proof.
  intros Hv. cbn zeta. unfold apply_runtime_patches.
  assert (H : rc_version rc = 1%Z \/ rc_version rc = 2%Z \/ rc_version rc = 3%Z) by lia.
  destruct H as [H|[H|H]]; rewrite H.
  - vm_compute (first_patch 1). cbn [drop foldl version_numbers apply_fn].
    destruct (sb_kind (rc_rustc_sandbox rc)) eqn:E; cbn [apply_fn]; [by rewrite E|].
    cbn. done.
  - vm_compute (first_patch 2). cbn [drop foldl version_numbers apply_fn].
    destruct (sb_kind (rc_rustc_sandbox rc)); done.
  - vm_compute (first_patch 3). cbn [drop foldl version_numbers].
    destruct (sb_kind (rc_rustc_sandbox rc)); done.
Qed.

Lemma rustc_sandbox_loaded (b : gmap str api_config) (ex : str -> list nat -> option (gmap str api_config))
    (idx : crate_index) (root : option str) (file : raw_config) (c : config) :
  load_config b ex idx root file = Loaded c ->
  let own := rc_rustc_sandbox file in
  let common := rc_sandbox file in
  let used := rc_rustc_sandbox (cf_raw c) in
  sb_kind used = match sb_kind own with
                 | Some k => Some k
                 | None => if bool_decide (rc_version file = 1%Z) then Some Disabled else sb_kind common
                 end /\
  sb_allow_network used = first_set [sb_allow_network own; sb_allow_network common] /\
  (forall x, x ∈ sb_bind_writable used <-> x ∈ sb_bind_writable own \/ x ∈ sb_bind_writable common) /\
  (forall x, x ∈ sb_make_writable used <-> x ∈ sb_make_writable own \/ x ∈ sb_make_writable common) /\
  (forall x, x ∈ sb_extra_args used <-> x ∈ sb_extra_args own \/ x ∈ sb_extra_args common) /\
  sb_pass_env used = sb_pass_env own.
Proof.
  intros Hl. cbn zeta. destruct (load_config_inv _ _ _ _ _ _ Hl) as (r1 & r2 & H1 & H2 & H3 & H4 & _).
  apply validate_spec in H4 as [H4 _].
  destruct (make_paths_absolute_frame _ _ _ H3) as (Hv3 & _ & _ & -> & _).
  destruct (load_imports_rustc _ _ _ _ H2) as [-> Hv2].
  unfold parse_raw in H1. destruct (merge_built_ins b file) as [r0|] eqn:E; [|done].
  destruct (merge_built_ins_frame _ _ _ E) as (Hv & _ & Hs & Hr & _).
  assert (Hv1 : rc_version r1 = rc_version r0).
  { injection H1 as <-. cbn [rc_version set_rustc_sandbox]. unfold apply_runtime_patches. apply apply_fns_version. }
  assert (Hrange : (1 <= rc_version r0 <= 3)%Z) by (rewrite <- Hv1, <- Hv2, <- Hv3; done).
  destruct (patched_rustc r0 Hrange) as (P0 & P1 & P2 & P3 & P4 & P5 & P6).
  injection H1 as <-. cbn [rc_rustc_sandbox set_rustc_sandbox].
  rewrite <- Hv, <- Hs, <- Hr. unfold sandbox_inherit.
  cbn [sb_kind sb_extra_args sb_allow_network sb_bind_writable sb_make_writable sb_pass_env].
  rewrite P0, P1, P2, P3, P4, P5, P6. split_and!.
  - destruct (sb_kind (rc_rustc_sandbox r0)); [done|]. by case_bool_decide.
  - cbn [first_set]. destruct (sb_allow_network (rc_rustc_sandbox r0)); [done|].
    by destruct (sb_allow_network (rc_sandbox r0)).
  - intros x. by rewrite merge_elem.
  - intros x. by rewrite merge_elem.
  - intros x. by rewrite merge_elem.
  - done.
Qed.

(** ** A newer version *)

Lemma set_rustc_same (rc : raw_config) : set_rustc_sandbox rc (rc_rustc_sandbox rc) = rc.
Proof. by destruct rc. Qed.

Lemma apply_fns_rustc (l : list nat) : forall rc : raw_config,
  exists s, foldl (fun rc n => apply_fn n rc) rc l = set_rustc_sandbox rc s.
Proof.
  induction l as [|n l IH]; intros rc; cbn [foldl].
  - exists (rc_rustc_sandbox rc). by rewrite set_rustc_same.
  - assert (exists s, apply_fn n rc = set_rustc_sandbox rc s) as [s ->].
    { destruct n as [|[|[|n]]]; cbn [apply_fn]; try (by exists (rc_rustc_sandbox rc); rewrite set_rustc_same).
      destruct (sb_kind (rc_rustc_sandbox rc)); [|by eexists].
      exists (rc_rustc_sandbox rc); by rewrite set_rustc_same. }
    destruct (IH (set_rustc_sandbox rc s)) as [s' ->]. by exists s'.
Qed.

Lemma load_imports_set_rustc (idx : crate_index) (ex : str -> list nat -> option (gmap str api_config))
    (rc : raw_config) (s : sandbox_config) :
  load_imports idx ex (set_rustc_sandbox rc s) =
    match load_imports idx ex rc with Ok rc' => Ok (set_rustc_sandbox rc' s) | Err e => Err e end.
Proof. unfold load_imports. cbn. by destruct (fold_res _ _ _). Qed.

Lemma make_paths_absolute_set_rustc (root : option str) (rc : raw_config) (s : sandbox_config) :
  make_paths_absolute root (set_rustc_sandbox rc s) =
    match make_paths_absolute root rc with Ok rc' => Ok (set_rustc_sandbox rc' s) | Err e => Err e end.
Proof. unfold make_paths_absolute. cbn. by destruct (fold_res _ _ _). Qed.

Lemma load_set_version (b : gmap str api_config) (ex : str -> list nat -> option (gmap str api_config))
    (idx : crate_index) (root : option str) (rc : raw_config) (c : config) (n : nat) :
  n ∈ [2; 3] -> load_config b ex idx root rc = Loaded c ->
  exists s, load_config b ex idx root (set_version rc (Z.of_nat n)) =
    Loaded (Config (set_rustc_sandbox (set_version (cf_raw c) (Z.of_nat n)) s) (cf_permissions c)
              (cf_permissions_no_inheritance c)).
Proof.
  intros Hn Hl. destruct (load_config_inv _ _ _ _ _ _ Hl) as (r1 & r2 & H1 & H2 & H3 & H4 & H5).
  unfold parse_raw in H1. destruct (merge_built_ins b rc) as [r0|] eqn:E; [|done].
  unfold apply_runtime_patches in H1.
  destruct (apply_fns_rustc (drop (first_patch (rc_version r0)) version_numbers) r0) as [s0 Es0].
  rewrite Es0 in H1. cbn zeta in H1.
  set (s1 := sandbox_inherit _ _) in H1.
  assert (r1 = set_rustc_sandbox r0 s1) as -> by (injection H1 as <-; done). clear H1.
  rewrite load_imports_set_rustc in H2.
  destruct (load_imports idx ex r0) as [q2|] eqn:E2; [|done].
  assert (r2 = set_rustc_sandbox q2 s1) as -> by (injection H2 as <-; done). clear H2.
  rewrite make_paths_absolute_set_rustc in H3.
  destruct (make_paths_absolute root q2) as [q3|] eqn:E3; [|done].
  assert (Hraw : cf_raw c = set_rustc_sandbox q3 s1) by (injection H3 as ->; done).
  unfold load_config, parse_raw. rewrite merge_built_ins_set_version, E. unfold apply_runtime_patches.
  destruct (apply_fns_rustc (drop (first_patch (rc_version (set_version r0 (Z.of_nat n)))) version_numbers)
    (set_version r0 (Z.of_nat n))) as [s2 ->]. cbn zeta.
  set (s3 := sandbox_inherit _ _). exists s3.
  change (set_rustc_sandbox (set_rustc_sandbox (set_version r0 (Z.of_nat n)) s2) s3)
    with (set_rustc_sandbox (set_version r0 (Z.of_nat n)) s3).
  clearbody s1 s3.
  rewrite load_imports_set_rustc, load_imports_set_version, E2.
  rewrite make_paths_absolute_set_rustc, make_paths_absolute_set_version, E3.
  assert (validate (set_rustc_sandbox (set_version q3 (Z.of_nat n)) s3) = []) as ->.
  { apply validate_spec. apply validate_spec in H4. rewrite Hraw in H4.
    exact (well_formed_set_version _ n Hn H4). }
  rewrite H5, Hraw. done.
Qed.

Lemma version_range (b : gmap str api_config) (ex : str -> list nat -> option (gmap str api_config))
    (idx : crate_index) (root : option str) (rc : raw_config) (c : config) :
  load_config b ex idx root rc = Loaded c -> (1 <= rc_version (cf_raw c) <= 3)%Z.
Proof.
  intros (r1 & r2 & _ & _ & _ & H4 & _)%load_config_inv. by apply validate_spec in H4 as [H4 _].
Qed.

Lemma version_announced (b : gmap str api_config) (ex : str -> list nat -> option (gmap str api_config))
    (idx : crate_index) (root : option str) (rc : raw_config) (c : config) (ck : checker) :
  load_config b ex idx root rc = Loaded c -> ck_config ck = c ->
  (check_for_new_config_version ck = [] <-> rc_version rc = 3%Z) /\
  forall q, q ∈ check_for_new_config_version ck ->
    q = PNewConfigVersionAvailable (rc_version rc + 1) /\ (rc_version rc = 1%Z \/ rc_version rc = 2%Z).
Proof.
  intros Hl Hck. pose proof (version_range _ _ _ _ _ _ Hl) as Hr.
  unfold check_for_new_config_version. rewrite Hck. cbn zeta.
  rewrite (loaded_version _ _ _ _ _ _ Hl) in *. unfold max_version.
  destruct (Z.ltb_spec (rc_version rc) 3).
  - split; [split; [done|lia]|]. intros q ->%elem_of_list_singleton. split; [done|lia].
  - split; [split; [lia|done]|]. intros q H0. by apply elem_of_nil in H0.
Qed.

Lemma version_fixes (b : gmap str api_config) (ex : str -> list nat -> option (gmap str api_config))
    (idx : crate_index) (root : str) (d d' : table) (c : config) (ck : checker) (usable : sandbox_kind -> bool)
    failed_in no_export prefixes (q : problem) (e : edit) :
  load_document b ex idx root d = Some (Loaded c) -> ck_config ck = c ->
  q ∈ check_for_new_config_version ck ->
  e ∈ fixes_for_problem failed_in no_export prefixes q c ->
  apply_edit usable b e d = Some d' ->
  exists c', load_document b ex idx root d' = Some (Loaded c') /\
    rc_version (cf_raw c') = (rc_version (cf_raw c) + 1)%Z /\
    cf_permissions c' = cf_permissions c /\ rc_apis (cf_raw c') = rc_apis (cf_raw c).
Proof.
  intros Hl Hck Hq He Ha. pose proof Hl as (rc & Hd & Hlc)%load_document_inv.
  destruct (version_announced _ _ _ _ _ _ ck Hlc Hck) as [_ H]. destruct (H q Hq) as [-> Hv]. clear H.
  rewrite (loaded_version _ _ _ _ _ _ Hlc). cbn [fixes_for_problem] in He.
  assert (Hn : exists n : nat, n ∈ [2; 3] /\ rc_version rc = (Z.of_nat n - 1)%Z /\
    (e = UpdateConfigVersion n \/ e = UpdateConfigVersionPreserveBehaviour n)).
  { destruct Hv as [Hv|Hv]; rewrite Hv in He |- *.
    - change (e ∈ [UpdateConfigVersion 2; UpdateConfigVersionPreserveBehaviour 2]) in He. exists 2. split; [by left|]. split; [done|]. rewrite !elem_of_cons, elem_of_nil in He.
      destruct He as [He|[He|[]]]; [by left|by right].
    - change (e ∈ [UpdateConfigVersion 3; UpdateConfigVersionPreserveBehaviour 3]) in He.
      exists 3. split; [by right; left|]. split; [done|]. rewrite !elem_of_cons, elem_of_nil in He.
      destruct He as [He|[He|[]]]; [by left|by right]. }
  destruct Hn as (n & Hn & Hv' & [-> | ->]).
  - cbn [apply_edit] in Ha. pose proof (decode_version _ _ _ _ Hd Ha) as Hd'.
    destruct (load_set_version _ _ _ _ _ _ n Hn Hlc) as [s Hl'].
    eexists. split; [unfold load_document; rewrite Hd'; cbn [fmap option_fmap option_map]; by rewrite Hl'|].
    split_and!; [cbn; lia|done|done].
  - pose proof (decode_preserve _ d d' rc usable b Hd Ha) as Hd'.
    pose proof (load_preserve _ _ _ _ _ _ n Hn Hv' Hlc) as Hl'.
    eexists. split; [unfold load_document; rewrite Hd'; cbn [fmap option_fmap option_map]; by rewrite Hl'|].
    split_and!; [cbn; lia|done|done].
Qed.

(** ** The fixes for a possible export *)

Lemma export_settled_not (env : environment) (ck ck' : checker) (o : scan_outputs) (ps : list problem)
    (p : pkg_id) (api sym : str) :
  so_base o = [] -> scan_problems env ck o = (ck', Some ps) ->
  export_settled (rc_apis (cf_raw (ck_config ck))) (pi_name p) api ->
  PPossibleExportedApi p api sym ∉ ps.
Proof.
  intros Hb Hs (a & Ha & Hd) Hin. unfold scan_problems in Hs.
  destruct (report_usages env ck (so_usages o) (so_base o)) as [ck1 [ps1|]] eqn:E; [|done].
  destruct (report_no_export env p api sym _ _ _ _ _ E) as [Hcfg Hn].
  rewrite Hb, elem_of_nil in Hn. injection Hs as <- <-. rewrite Hcfg, elem_of_app in Hin.
  destruct Hin as [H|H]; [tauto|]. apply elem_of_list_In, in_concat in H as (l & Hx & H).
  apply in_map_iff in Hx as ([p' api' sym'] & <- & _). apply elem_of_list_In in H.
  unfold possible_export_problem in H. cbn [pe_pkg pe_api pe_symbol] in H.
  destruct (match cf_permissions (ck_config ck) !! (pi_name p', All) with
            | Some pc => match pc_import pc with Some _ => true | None => false end
            | None => false end); [by apply elem_of_nil in H|].
  destruct (match rc_apis (cf_raw (ck_config ck)) !! api' with
            | Some a => mem_str (pi_name p') (ac_no_auto_detect a) ||
                        mem_str (pi_name p' ++ lit "::" ++ api') (ac_include a)
            | None => false end) eqn:Em; [by apply elem_of_nil in H|].
  apply elem_of_list_singleton in H.
  assert (p' = p) as -> by congruence. assert (api' = api) as -> by congruence.
  rewrite Ha in Em. apply orb_false_iff in Em as [E1 E2].
  destruct Hd as [Hd|Hd]; apply mem_str_spec in Hd; congruence.
Qed.

Lemma export_fixes (b : gmap str api_config) (ex : str -> list nat -> option (gmap str api_config))
    (root : str) (d d' : table) (c : config) (usable : sandbox_kind -> bool) failed_in no_export prefixes
    (env : environment) (p : pkg_id) (api sym : str) (e : edit) :
  load_document b ex (en_index env) root d = Some (Loaded c) ->
  (forall rc x, decode d = Some rc -> ~ import_source (en_index env) ex rc api x) ->
  e ∈ fixes_for_problem failed_in no_export prefixes (PPossibleExportedApi p api sym) c ->
  apply_edit usable b e d = Some d' ->
  exists c', load_document b ex (en_index env) root d' = Some (Loaded c') /\ same_grants c c' /\
    forall ck ck' o ps sym', ck_config ck = c' -> so_base o = [] -> scan_problems env ck o = (ck', Some ps) ->
      PPossibleExportedApi p api sym' ∉ ps.
Proof.
  intros Hl Hno He Ha. cbn [fixes_for_problem] in He.
  rewrite !elem_of_cons, elem_of_nil in He. destruct He as [->|[->|[]]].
  - destruct (extend_effect _ _ _ _ _ _ _ _ _ _ Hl Hno Ha) as (c' & Hl' & _ & _ & _ & _ & Hg & _ & x' & Hx & Hadd & _).
    exists c'. split_and!; [done|done|]. intros ck ck' o ps sym' Hck Hb Hs.
    apply (export_settled_not env ck ck' o ps p api sym' Hb Hs). rewrite Hck. exists x'. split; [done|]. right.
    apply Hadd. by left.
  - destruct (no_detect_effect _ _ _ _ _ _ _ _ _ _ Hl Hno Ha) as (c' & Hl' & _ & _ & _ & _ & Hg & _ & x' & Hx & _ & _ & Hadd).
    exists c'. split_and!; [done|done|]. intros ck ck' o ps sym' Hck Hb Hs.
    apply (export_settled_not env ck ck' o ps p api sym' Hb Hs). rewrite Hck. exists x'. split; [done|]. left.
    apply Hadd. by left.
Qed.
