(** Proofs about the fixes that are offered for problems. *)
From Verif Require Import Base BaseFacts TextModel ApiMapModel ConfigModel ConfigSpec ConfigProofs
  ConfigLoadProofs ProblemModel BuildScriptModel BuildScriptSpec BuildScriptProofs TomlModel TomlProofs
  EditorModel ReloadProofs EditorSpec EditorProofs EditorMoreProofs EditorApiProofs.

(** ** Adding to an array twice *)

(** Where a value stops the search for its place. *)
Fixpoint settled (v : str) (l : list item) : Prop :=
  match l with
  | [] => False
  | Text e :: l => e = v \/ (str_leb v e = false /\ settled v l)
  | _ :: l => settled v l
  end.

Lemma str_leb_refl (v : str) : str_leb v v = true.
Proof. destruct (str_leb_spec v v) as [H1 H2]. by destruct (str_leb v v); [|destruct H2; auto]. Qed.

Lemma insert_settled (v : str) (l : list item) : settled v (insert_value v l).
Proof.
  induction l as [|i l IH]; cbn [insert_value]; [by left|].
  destruct i as [e| | | | | |]; try exact IH. destruct (str_leb v e) eqn:E.
  - destruct (str_eqb e v) eqn:E2; [left; by apply str_eqb_spec|by left].
  - right. auto.
Qed.

Lemma insert_keeps_settled (v w : str) (l : list item) : settled v l -> settled v (insert_value w l).
Proof.
  induction l as [|i l IH]; cbn [insert_value settled]; [done|].
  destruct i as [e| | | | | |]; try exact IH. intros H.
  destruct (str_leb w e) eqn:E.
  - destruct (str_eqb e w) eqn:E2; [done|]. destruct (decide (w = v)) as [->|Hne]; [by left|].
    right. split; [|done]. apply not_true_iff_false. intros Hvw. apply str_leb_spec in Hvw as [->|Hvw]; [done|].
    apply str_leb_spec in E as [->|E]; [by rewrite str_eqb_refl in E2|].
    destruct H as [->|[H _]].
    + destruct (bytes_lt_irrefl v). by eapply bytes_lt_trans.
    + assert (str_leb v e = true); [|congruence]. apply str_leb_spec. right. by eapply bytes_lt_trans.
  - destruct H as [H|[H1 H2]]; [by left|]. right. auto.
Qed.

Lemma settled_insert (v : str) (l : list item) : settled v l -> insert_value v l = l.
Proof.
  induction l as [|i l IH]; cbn [insert_value settled]; [done|].
  destruct i as [e| | | | | |]; try (intros H; by rewrite IH). intros [->|[H1 H2]].
  - by rewrite str_leb_refl, str_eqb_refl.
  - by rewrite H1, IH.
Qed.

Lemma foldl_keeps_settled (v : str) (vs : list str) (l : list item) :
  settled v l -> settled v (foldl (fun l v => insert_value v l) l vs).
Proof. revert l. induction vs as [|w vs IH]; intros l H; cbn [foldl]; [done|]. by apply IH, insert_keeps_settled. Qed.

Lemma foldl_settled (v : str) (vs : list str) (l : list item) :
  v ∈ vs -> settled v (foldl (fun l v => insert_value v l) l vs).
Proof.
  revert l. induction vs as [|w vs IH]; intros l H; cbn [foldl]; [by apply elem_of_nil in H|].
  apply elem_of_cons in H as [<-|H]; [|by apply IH]. apply foldl_keeps_settled, insert_settled.
Qed.

Lemma settled_foldl (vs : list str) (l : list item) :
  (forall v, v ∈ vs -> settled v l) -> foldl (fun l v => insert_value v l) l vs = l.
Proof.
  induction vs as [|w vs IH]; intros H; cbn [foldl]; [done|].
  rewrite (settled_insert w l) by (apply H; left). apply IH. intros v Hv. apply H. by right.
Qed.

Lemma add_to_array_twice (k : str) (vs : list str) (t t' : table) :
  add_to_array k vs t = Some t' -> add_to_array k vs t' = Some t'.
Proof.
  unfold add_to_array. destruct vs as [|v vs]; [done|].
  assert (Hl : forall l, let l' := foldl (fun l v => insert_value v l) l (v :: vs) in
    foldl (fun l v => insert_value v l) l' (v :: vs) = l').
  { intros l. apply settled_foldl. intros w Hw. by apply foldl_settled. }
  set (vs' := v :: vs) in *.
  intros H.
  assert (exists l, t' = put k (Array (foldl (fun l v => insert_value v l) l vs')) t) as [l ->].
  { destruct (get k t) as [[]|]; try done; injection H as <-; [by eexists|by exists []]. }
  rewrite get_put, str_eqb_refl, Hl. f_equal. apply put_same. by rewrite get_put, str_eqb_refl.
Qed.

(** ** Allowing an API *)

Lemma with_parents_chain (s s' : scope) : s' ∈ with_parents 5 s <-> s' ∈ chain s.
Proof. destruct s; vm_compute with_parents; done. Qed.

Lemma chain_trans (s s' s'' : scope) : s' ∈ chain s -> s'' ∈ chain s' -> s'' ∈ chain s.
Proof. destruct s, s'; cbn [chain]; rewrite ?elem_of_cons, ?elem_of_nil; intuition congruence. Qed.

Lemma index_selector_parent (idx : crate_index) (name : str) (s s' : scope) :
  index_selector idx name s -> s' ∈ chain s -> index_selector idx name s'.
Proof.
  intros (p & H1 & H2 & H3) Hs. exists p. split; [done|]. split; [done|].
  destruct s, s'; cbn [chain] in Hs; rewrite ?elem_of_cons, ?elem_of_nil in Hs; try done; intuition congruence.
Qed.

Section fix_effects.
  Context (b : gmap str api_config) (ex : str -> list nat -> option (gmap str api_config))
    (idx : crate_index) (root : str) (usable : sandbox_kind -> bool).
  Context (failed_in : nat -> sandbox_config) (exported : nat -> api_config)
    (prefixes : bool -> list api_usage -> option (list str)).

  Lemma loaded_permissions (d : table) (c : config) (name : str) (s : scope) :
    load_document b ex idx root d = Some (Loaded c) -> index_selector idx name s ->
    cf_permissions c !! (name, s) = Some (eff (cf_raw c) name s).
  Proof.
    intros (rc & Hd & Hl)%load_document_inv Hidx.
    destruct (load_config_inv _ _ _ _ _ _ Hl) as (_ & _ & _ & _ & _ & _ & ->). cbn [cf_permissions cf_raw].
    destruct (index_package _ _ _ Hidx) as (p & Hp & <-).
    rewrite (effective_lookup _ idx p) by done. by rewrite decide_True by auto.
  Qed.

  (** What a change says about one selector. *)
  Lemma changed_at (c c' : config) (name : str) (s s' : scope) (a : aspect)
      (P : package_config -> package_config -> Prop) (e : package_config) :
    changes_only c c' name s a P -> cf_permissions c !! (name, s') = Some e -> s ∈ chain s' ->
    exists e', cf_permissions c' !! (name, s') = Some e' /\ P e e' /\ forall b, b <> a -> agree b e e'.
  Proof.
    intros [_ H] He Hs. specialize (H (name, s')). rewrite He in H.
    destruct (cf_permissions c' !! (name, s')) as [e'|]; [|done]. destruct H as (H1 & H2 & _).
    exists e'. split; [done|]. split; [|done]. by apply H2.
  Qed.

  Lemma changes_only_weaken (c c' : config) (name : str) (s : scope) (a : aspect)
      (P Q : package_config -> package_config -> Prop) :
    changes_only c c' name s a P -> (forall e e', P e e' -> Q e e') -> changes_only c c' name s a Q.
  Proof.
    intros [H1 H2] HPQ. split; [done|]. intros sel. specialize (H2 sel).
    destruct (cf_permissions c !! sel), (cf_permissions c' !! sel); try done.
    destruct H2 as (H3 & H4 & H5). auto.
  Qed.

  Lemma allow_fix (p : problem) (u : api_usages) (sel : perm_sel) (api : str) (c : config) :
    (p = PDisallowedApiUsage u \/ exists owner, p = POffTreeApiUsage u owner) ->
    AllowApiUsage sel api ∈ fixes_for_problem failed_in exported prefixes p c <->
    api = au_api u /\ sel.1 = pi_name (au_pkg u) /\ sel.2 ∈ chain (au_scope u).
  Proof.
    intros Hp.
    assert (Hinc : forall l, AllowApiUsage sel api ∉ include_fixes c (au_api u) l).
    { intros l. unfold include_fixes. destruct (rc_apis _ !! _) as [ac|]; [|by intros ?%elem_of_nil].
      intros (x & _ & H)%elem_of_list_omap. destruct (mem_str _ _); [done|]. by destruct (existsb _ _). }
    assert (Hexc : forall l, AllowApiUsage sel api ∉ exclude_fixes c (au_api u) l).
    { intros l. unfold exclude_fixes. destruct (rc_apis _ !! _) as [ac|]; [|by intros ?%elem_of_nil].
      intros (x & _ & H)%elem_of_list_omap. destruct (mem_str _ _); [done|]. by destruct (existsb _ _). }
    assert (Hall : AllowApiUsage sel api ∈ allow_api_fixes u <->
      api = au_api u /\ sel.1 = pi_name (au_pkg u) /\ sel.2 ∈ chain (au_scope u)).
    { unfold allow_api_fixes. rewrite elem_of_list_fmap. split.
      - intros (s & H & Hs). apply with_parents_chain in Hs.
        assert (sel = (pi_name (au_pkg u), s)) as -> by congruence.
        assert (api = au_api u) as -> by congruence. done.
      - intros (-> & H1 & H2). exists sel.2. destruct sel as [n s]. cbn [fst snd] in *. subst n.
        by rewrite with_parents_chain. }
    destruct Hp as [->|[owner ->]]; cbn [fixes_for_problem]; rewrite !elem_of_app, <- Hall; naive_solver.
  Qed.

  Lemma allow_fix_effect (p : problem) (u : api_usages) (sel : perm_sel) (api : str) (d d' : table)
      (c : config) (e : package_config) :
    load_document b ex idx root d = Some (Loaded c) ->
    index_selector idx (pi_name (au_pkg u)) (au_scope u) ->
    is_Some (rc_apis (cf_raw c) !! au_api u) ->
    cf_permissions c !! (pi_name (au_pkg u), au_scope u) = Some e -> au_api u ∉ pc_allow_apis e ->
    (p = PDisallowedApiUsage u \/ exists owner, p = POffTreeApiUsage u owner) ->
    AllowApiUsage sel api ∈ fixes_for_problem failed_in exported prefixes p c ->
    apply_edit usable b (AllowApiUsage sel api) d = Some d' ->
    exists c', load_document b ex idx root d' = Some (Loaded c') /\
      changes_only c c' (pi_name (au_pkg u)) sel.2 AApis
        (fun e e' => adds (au_api u) (pc_allow_apis e) (pc_allow_apis e')) /\
      exists e', cf_permissions c' !! (pi_name (au_pkg u), au_scope u) = Some e' /\
        au_api u ∈ pc_allow_apis e'.
  Proof.
    intros Hl Hidx Hapi He Hno Hp Hf Ha.
    apply (allow_fix p u sel api c Hp) in Hf as (-> & H1 & H2). destruct sel as [n s]. cbn [fst snd] in *. subst n.
    assert (Hno' : forall e, cf_permissions c !! (pi_name (au_pkg u), s) = Some e -> au_api u ∉ pc_allow_apis e).
    { intros e0 He0. rewrite (loaded_permissions _ _ _ _ Hl) in He0 by (by eapply index_selector_parent).
      rewrite (loaded_permissions _ _ _ _ Hl Hidx) in He.
      assert (e0 = eff (cf_raw c) (pi_name (au_pkg u)) s) as -> by congruence.
      assert (e = eff (cf_raw c) (pi_name (au_pkg u)) (au_scope u)) as -> by congruence.
      rewrite eff_apis_sec0 in Hno |- *. intros (s' & H3 & H4). apply Hno. exists s'.
      split; [|done]. by eapply chain_trans. }
    destruct (allow_api_effect b ex idx root usable _ _ _ _ _ _ Hl
      (index_selector_parent _ _ _ _ Hidx H2) Hapi Hno' Ha) as (c' & Hl' & Hch).
    exists c'. split; [done|]. split; [done|].
    destruct (changed_at _ _ _ _ _ _ _ _ Hch He H2) as (e' & He' & HP & _).
    exists e'. split; [done|]. apply HP. by left.
  Qed.

  (** ** The other restrictions *)

  Lemma unsafe_fix_effect (sel : crate_sel) (n : nat) (e : edit) (d d' : table) (c : config) :
    load_document b ex idx root d = Some (Loaded c) ->
    index_selector idx (pi_name (cs_pkg sel)) (crate_scope (cs_kind sel)) ->
    e ∈ fixes_for_problem failed_in exported prefixes (PDisallowedUnsafe sel n) c ->
    apply_edit usable b e d = Some d' ->
    exists c', load_document b ex idx root d' = Some (Loaded c') /\
      changes_only c c' (pi_name (cs_pkg sel)) (crate_scope (cs_kind sel)) AUnsafe
        (fun _ e' => pc_allow_unsafe e' = true) /\
      unsafe_permitted (cf_permissions c') (pi_name (cs_pkg sel)) (cs_kind sel) = true.
  Proof.
    rewrite <- crate_scope_eq. intros Hl Hidx ->%elem_of_list_singleton Ha.
    destruct (unsafe_effect b ex idx root usable _ _ _ _ _ Hl Hidx Ha) as (c' & Hl' & Hch).
    exists c'. split; [done|]. split; [done|].
    destruct (changed_at _ _ _ _ _ _ _ _ Hch (loaded_permissions _ _ _ _ Hl Hidx) (chain_self _))
      as (e' & He' & HP & _). unfold unsafe_permitted. by rewrite He'.
  Qed.

  Lemma extern_fix_effect (sel : crate_sel) (n : nat) (e : edit) (d d' : table) (c : config) :
    load_document b ex idx root d = Some (Loaded c) ->
    index_selector idx (pi_name (cs_pkg sel)) (crate_scope (cs_kind sel)) ->
    e ∈ fixes_for_problem failed_in exported prefixes (PDisallowedExtern sel n) c ->
    apply_edit usable b e d = Some d' ->
    exists c', load_document b ex idx root d' = Some (Loaded c') /\
      changes_only c c' (pi_name (cs_pkg sel)) (crate_scope (cs_kind sel)) AExtern
        (fun _ e' => pc_allow_extern e' = true) /\
      ((2 < rc_version (cf_raw c))%Z ->
       extern_permitted (cf_permissions c') (rc_version (cf_raw c')) (pi_name (cs_pkg sel)) (cs_kind sel) = true).
  Proof.
    rewrite <- crate_scope_eq.
    intros Hl Hidx ->%elem_of_list_singleton Ha.
    destruct (extern_effect b ex idx root usable _ _ _ _ _ Hl Hidx Ha) as (c' & Hl' & Hch).
    exists c'. split; [done|]. split; [done|]. intros Hv.
    destruct (changed_at _ _ _ _ _ _ _ _ Hch (loaded_permissions _ _ _ _ Hl Hidx) (chain_self _))
      as (e' & He' & HP & _). unfold extern_permitted. rewrite He'.
    destruct Hch as [(-> & _) _]. destruct (Z.leb_spec (rc_version (cf_raw c)) 2); [lia|done].
  Qed.

  Lemma proc_macro_fix_effect (p : pkg_id) (e : edit) (d d' : table) (c : config) :
    load_document b ex idx root d = Some (Loaded c) ->
    index_selector idx (pi_name p) All ->
    e ∈ fixes_for_problem failed_in exported prefixes (PIsProcMacro p) c ->
    apply_edit usable b e d = Some d' ->
    exists c', load_document b ex idx root d' = Some (Loaded c') /\
      changes_only c c' (pi_name p) All AProcMacro (fun _ e' => pc_allow_proc_macro e' = true).
  Proof.
    intros Hl Hidx ->%elem_of_list_singleton Ha.
    by destruct (proc_macro_effect b ex idx root usable _ _ _ _ _ Hl Hidx Ha) as (c' & Hl' & Hch); eauto.
  Qed.

  Lemma instruction_fix_effect (p : pkg_id) (i stdout : str) (e : edit) (d d' : table) (c : config) :
    load_document b ex idx root d = Some (Loaded c) ->
    index_selector idx (pi_name p) Build ->
    PDisallowedBuildInstruction p i ∈ br_problems (bs_build (cf_permissions c) p stdout) ->
    e ∈ fixes_for_problem failed_in exported prefixes (PDisallowedBuildInstruction p i) c ->
    apply_edit usable b e d = Some d' ->
    exists c' rule, load_document b ex idx root d' = Some (Loaded c') /\
      changes_only c c' (pi_name p) Build AInstructions
        (fun e e' => adds rule (pc_allow_build_instructions e) (pc_allow_build_instructions e')) /\
      PDisallowedBuildInstruction p i ∉ br_problems (bs_build (cf_permissions c') p stdout) /\
      br_problems (bs_build (cf_permissions c') p stdout) ⊆ br_problems (bs_build (cf_permissions c) p stdout).
  Proof.
    intros Hl Hidx Hp Hf Ha. cbn [fixes_for_problem] in Hf.
    apply elem_of_list_fmap in Hf as (rule & -> & Hr).
    destruct (suggested_rules i) as [rules|] eqn:Er; cbn [default from_option] in Hr; [|by apply elem_of_nil in Hr].
    destruct (instruction_effect b ex idx root usable _ _ _ _ _ _ Hl Hidx Ha) as (c' & Hl' & Hch).
    exists c', rule. split; [done|]. split; [done|].
    destruct (changed_at _ _ _ _ _ _ _ _ Hch (loaded_permissions _ _ _ _ Hl Hidx) (chain_self _))
      as (e' & He' & HP & _).
    eapply fix_works; [exact Hp|exact Er|exact Hr| | | |].
    - left. eexists. split; [apply (loaded_permissions _ _ _ _ Hl Hidx)|reflexivity].
    - left. eexists. split; [exact He'|reflexivity].
    - apply HP. by left.
    - intros y Hy. apply HP. by right.
  Qed.

  (** ** Failed executions *)

  Lemma execution_fix_effect (sel : crate_sel) (output : nat) (e : edit) (d d' : table) (c : config) :
    load_document b ex idx root d = Some (Loaded c) ->
    cs_kind sel = BuildScript ->
    index_selector idx (pi_name (cs_pkg sel)) Build ->
    failed_in output = sandbox_config_for_package (cf_permissions c) (pi_name (cs_pkg sel), Build) ->
    e ∈ fixes_for_problem failed_in exported prefixes (PExecutionFailed sel output) c ->
    apply_edit usable b e d = Some d' ->
    exists c', load_document b ex idx root d' = Some (Loaded c') /\
      changes_only c c' (pi_name (cs_pkg sel)) Build ASandbox (fun _ _ => True) /\
      let sb := failed_in output in
      let sb' := sandbox_config_for_package (cf_permissions c') (pi_name (cs_pkg sel), Build) in
      (sb_kind sb <> Some Disabled /\ sb_kind sb' = Some Disabled /\ sb_allow_network sb' = sb_allow_network sb \/
       sb_allow_network sb <> Some true /\ sb_allow_network sb' = Some true /\ sb_kind sb' = sb_kind sb) /\
      sb_extra_args sb' = sb_extra_args sb /\ sb_bind_writable sb' = sb_bind_writable sb /\
      sb_make_writable sb' = sb_make_writable sb /\ sb_pass_env sb' = sb_pass_env sb.
  Proof.
    intros Hl Hk Hidx Hfail Hf Ha. cbn [fixes_for_problem] in Hf.
    destruct (bool_decide_reflect (sb_kind (failed_in output) = Some Disabled)) as [|Hkind];
      [by apply elem_of_nil in Hf|].
    unfold sandbox_config_for_package in Hfail. rewrite (loaded_permissions _ _ _ _ Hl Hidx) in Hfail.
    apply elem_of_app in Hf as [Hf| ->%elem_of_list_singleton].
    - destruct (default false (sb_allow_network (failed_in output))) eqn:En; [by apply elem_of_nil in Hf|].
      apply elem_of_list_singleton in Hf as ->.
      destruct (network_effect b ex idx root usable _ _ _ _ Hl Hidx Ha) as (c' & Hl' & Hch).
      exists c'. split; [done|]. split; [by apply (changes_only_weaken _ _ _ _ _ _ _ Hch)|].
      destruct (changed_at _ _ _ _ _ _ _ _ Hch (loaded_permissions _ _ _ _ Hl Hidx) (chain_self _))
        as (e' & He' & HP & _). cbn zeta. unfold sandbox_config_for_package. rewrite He', HP, <- Hfail.
      cbn [sb_kind sb_extra_args sb_allow_network sb_bind_writable sb_make_writable sb_pass_env].
      split; [|done]. right. split; [|done]. intros Hn. by rewrite Hn in En.
    - destruct (disable_effect b ex idx root usable _ _ _ _ Hl Hidx Ha) as (c' & Hl' & Hch).
      exists c'. split; [done|]. split; [by apply (changes_only_weaken _ _ _ _ _ _ _ Hch)|].
      destruct (changed_at _ _ _ _ _ _ _ _ Hch (loaded_permissions _ _ _ _ Hl Hidx) (chain_self _))
        as (e' & He' & HP & _). cbn zeta. unfold sandbox_config_for_package. rewrite He', HP, <- Hfail.
      cbn [sb_kind sb_extra_args sb_allow_network sb_bind_writable sb_make_writable sb_pass_env].
      split; [|done]. left. done.
  Qed.

  (** ** Offered APIs *)

  Lemma offered_facts (rc : raw_config) (pkg : str) (v : list nat) (api : str) (def : api_config) :
    (PkgId pkg v, api, def) ∈ unused_imports ex idx rc ->
    rc_packages rc !! pkg ≫= pc_import = None /\
    exists exported, ex pkg v = Some exported /\ exported !! api = Some def.
  Proof.
    unfold unused_imports. rewrite <- flat_map_concat_map, elem_of_list_In, in_flat_map.
    intros (p & _ & Hin).
    destruct (rc_packages rc !! pk_name p) as [[? ? ? ? ? ? ? ? ? [im|]]|] eqn:Ep; [done| |].
    all: destruct (ex (pk_name p) (pk_version p)) as [apis|] eqn:Ee; [|done].
    all: apply elem_of_list_In, elem_of_list_fmap in Hin as ([k x] & Heq & Hin).
    all: apply elem_of_map_to_list in Hin; cbn [fst snd] in Heq.
    all: assert (pkg = pk_name p) as -> by congruence; assert (v = pk_version p) as -> by congruence.
    all: assert (k = api) as -> by congruence; assert (x = def) as -> by congruence.
    all: rewrite Ep; split; [done|eauto].
  Qed.

  Lemma import_fix_effect (pkg api : str) (v : list nat) (def : api_config) (d d' : table) (c : config) :
    load_document b ex idx root d = Some (Loaded c) ->
    (PkgId pkg v, api, def) ∈ unused_imports ex idx (cf_raw c) -> is_newest idx pkg v ->
    rc_apis (cf_raw c) !! (pkg ++ lit "::" ++ api) = None ->
    apply_edit usable b (ImportApi pkg api) d = Some d' ->
    exists c', load_document b ex idx root d' = Some (Loaded c') /\
      changes_api c c' (pkg ++ lit "::" ++ api) (fun _ x' => x' = def) /\
      unused_imports ex idx (cf_raw c') =
        filter (fun e : pkg_id * str * api_config => pi_name e.1.1 <> pkg) (unused_imports ex idx (cf_raw c)).
  Proof.
    intros (rc & Hd & Hl)%load_document_inv Hoff Hnew Hfree Ha.
    destruct (offered_facts _ _ _ _ _ Hoff) as (Hno & exp & He & Hx).
    assert (Hno' : rc_packages rc !! pkg ≫= imports_of = None).
    { rewrite (loaded_packages _ _ _ _ _ _ Hl), lookup_fmap in Hno. unfold imports_of.
      destruct (rc_packages rc !! pkg) as [pc|]; [|done]. cbn [fmap option_fmap option_map mbind option_bind] in Hno |- *.
      rewrite finished_import in Hno. by destruct (pc_import pc) as [[]|]. }
    destruct (import_effect b ex idx root usable _ _ _ _ _ _ _ _ _ Hd Hl Hnew He Hx Hno' Hfree Ha)
      as (c' & Hl' & H1 & H2 & H3 & H4 & H5 & H6 & H7).
    exists c'. split; [done|]. split; [|done].
    split; [done|]. split; [done|]. split; [done|]. split; [done|]. split; [|split].
    - done.
    - intros k Hk. rewrite H5. by apply lookup_insert_ne.
    - exists def. by rewrite H5, lookup_insert.
  Qed.
End fix_effects.
