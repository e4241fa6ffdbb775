From Verif Require Import Base BaseFacts ApiMapModel ConfigModel ConfigSpec.

Lemma crate_scope_eq (k : crate_kind) : scope_of_kind k = crate_scope k.
Proof. by destruct k. Qed.

(** ** sort and dedup *)
Lemma insert_sorted_perm x l : insert_sorted x l ≡ₚ x :: l.
Proof.
  induction l as [|y l IH]; cbn; [done|].
  destruct (str_leb x y); [done|]. rewrite IH. by constructor.
Qed.

Lemma sort_strs_perm l : sort_strs l ≡ₚ l.
Proof.
  induction l as [|x l IH]; cbn; [done|].
  rewrite insert_sorted_perm. by constructor.
Qed.

Lemma dedup_strs_elem l x : x ∈ dedup_strs l <-> x ∈ l.
Proof.
  induction l as [|y l IH]; [done|].
  destruct l as [|z l].
  - done.
  - cbn [dedup_strs]. destruct (str_eqb y z) eqn:E.
    + apply str_eqb_spec in E as <-. rewrite IH, !elem_of_cons. tauto.
    + rewrite (elem_of_cons (dedup_strs (z :: l)) x y), IH, !elem_of_cons. tauto.
Qed.

Lemma merge_elem a b x : x ∈ merge_string_vec a b <-> x ∈ a \/ x ∈ b.
Proof. unfold merge_string_vec. by rewrite dedup_strs_elem, sort_strs_perm, elem_of_app. Qed.

(** ** perms_from_config *)
Definition stripped (rc : raw_config) (pkg : str) (s : scope) : option package_config :=
  match s with
  | All => without_subsections <$> section rc pkg All
  | _ => section rc pkg s
  end.

Definition pc_section (pc : package_config) (s : scope) : option package_config :=
  match s with
  | All => Some (without_subsections pc)
  | Build => pc_build pc
  | Test => pc_test pc
  | FromBuild => match pc_from pc with Some f => fc_build f | None => None end
  | FromTest => match pc_from pc with Some f => fc_test f | None => None end
  end.

Lemma insert_opt_lookup (sel : perm_sel) (sub : option package_config) (m : permissions) (sel' : perm_sel) :
  insert_opt sel sub m !! sel' =
    if decide (sel' = sel) then option_or sub (m !! sel') else m !! sel'.
Proof.
  unfold insert_opt. destruct sub as [c|].
  - case_decide as H.
    + subst. by rewrite lookup_insert.
    + rewrite lookup_insert_ne by congruence. done.
  - by case_decide.
Qed.

Lemma add_package_sections_lookup m n pc pkg s :
  add_package_sections m (n, pc) !! (pkg, s) =
    if decide (pkg = n) then option_or (pc_section pc s) (m !! (pkg, s)) else m !! (pkg, s).
Proof.
  unfold add_package_sections. destruct (decide (pkg = n)) as [->|Hne].
  - destruct s; unfold pc_section; [by rewrite lookup_insert|..];
      rewrite lookup_insert_ne by congruence;
      destruct (pc_from pc) as [f|]; rewrite !insert_opt_lookup;
      repeat (case_decide; try congruence); done.
  - rewrite lookup_insert_ne by congruence.
    destruct (pc_from pc) as [f|]; rewrite !insert_opt_lookup, !decide_False by congruence; done.
Qed.

Lemma foldl_sections_lookup l m pkg s :
  NoDup l.*1 ->
  foldl add_package_sections m l !! (pkg, s) =
    match (list_to_map l : gmap str package_config) !! pkg with
    | Some pc => option_or (pc_section pc s) (m !! (pkg, s))
    | None => m !! (pkg, s)
    end.
Proof.
  revert m. induction l as [|[n pc] l IH]; intros m Hnd; cbn [foldl].
  - cbn; by rewrite lookup_empty.
  - cbn in Hnd. apply NoDup_cons in Hnd as [Hn Hnd].
    rewrite IH by done. rewrite add_package_sections_lookup. cbn.
    destruct (decide (pkg = n)) as [->|Hne].
    + rewrite lookup_insert.
      assert ((list_to_map l : gmap str package_config) !! n = None) as ->.
      { by apply not_elem_of_list_to_map. }
      done.
    + by rewrite lookup_insert_ne by congruence.
Qed.

Lemma perms_from_config_lookup rc pkg s :
  perms_from_config rc !! (pkg, s) = stripped rc pkg s.
Proof.
  unfold perms_from_config. rewrite foldl_sections_lookup by apply NoDup_fst_map_to_list.
  rewrite list_to_map_to_list, lookup_empty. unfold stripped, section.
  destruct (rc_packages rc !! pkg) as [pc|]; [|by destruct s].
  destruct s; cbn; try done.
  - by destruct (pc_build pc).
  - by destruct (pc_test pc).
  - destruct (pc_from pc) as [f|]; [|done]. by destruct (fc_build f).
  - destruct (pc_from pc) as [f|]; [|done]. by destruct (fc_test f).
Qed.

(** ** default entries *)
Lemma add_defaults_lookup l m sel :
  foldl add_default_entry m l !! sel =
    match m !! sel with
    | Some c => Some c
    | None => if decide (sel ∈ l) then Some package_default else None
    end.
Proof.
  revert m. induction l as [|x l IH]; intros m; cbn [foldl].
  - rewrite decide_False by apply not_elem_of_nil. by destruct (m !! sel).
  - rewrite IH. unfold add_default_entry.
    destruct (decide (sel = x)) as [->|Hne].
    + destruct (m !! x) eqn:E.
      * by rewrite E.
      * rewrite lookup_insert. rewrite decide_True; [done|]. left.
    + assert ((match m !! x with Some _ => m | None => <[x:=package_default]> m end) !! sel
              = m !! sel) as ->.
      { destruct (m !! x); [done|]. by rewrite lookup_insert_ne by congruence. }
      destruct (m !! sel); [done|].
      destruct (decide (sel ∈ l)).
      * rewrite decide_True; [done|]. by right.
      * rewrite decide_False; [done|]. rewrite elem_of_cons. naive_solver.
Qed.

Lemma selectors_of_package_spec p pkg s :
  (pkg, s) ∈ selectors_of_package p <->
  pk_name p = pkg /\
    match s with
    | All | FromBuild | FromTest => True
    | Build => pk_has_build_script p = true
    | Test => pk_has_test p = true
    end.
Proof.
  unfold selectors_of_package.
  destruct (pk_has_build_script p), (pk_has_test p); cbn;
    rewrite !elem_of_cons, elem_of_nil; destruct s; naive_solver.
Qed.

Lemma index_selector_spec idx pkg s :
  (pkg, s) ∈ permission_selectors idx <-> index_selector idx pkg s.
Proof.
  unfold permission_selectors, index_selector. rewrite elem_of_list_to_set.
  induction idx as [|p idx IH]; cbn [map concat].
  - split; [by intros ?%elem_of_nil|]. intros (p & H & _). by apply elem_of_nil in H.
  - rewrite elem_of_app, IH, selectors_of_package_spec. split.
    + intros [H|(p' & H1 & H2)]; [exists p|exists p']; (split; [|done]).
      * left.
      * by right.
    + intros (p' & [->|H1]%elem_of_cons & H2); [by left|]. right. eauto.
Qed.

Lemma entries_lookup rc idx pkg s :
  foldl add_default_entry (perms_from_config rc) (elements (permission_selectors idx))
    !! (pkg, s) =
  match stripped rc pkg s with
  | Some c => Some c
  | None => if decide ((pkg, s) ∈ permission_selectors idx) then Some package_default else None
  end.
Proof.
  rewrite add_defaults_lookup, perms_from_config_lookup.
  destruct (stripped rc pkg s); [done|].
  destruct (decide (_ ∈ elements _)) as [H|H]; rewrite elem_of_elements in H.
  - by rewrite decide_True.
  - by rewrite decide_False.
Qed.

(** ** apply_inheritance *)
Definition global_of (sb : sandbox_config) : package_config :=
  PackageConfig false false [] [] false None None None sb None.

Lemma layer_lookup (m : permissions) (scopes : list scope) (pkg : str) (s : scope) :
  (filter (fun e : perm_sel * package_config => e.1.2 ∈ scopes) m) !! (pkg, s) =
    if decide (s ∈ scopes) then m !! (pkg, s) else None.
Proof.
  destruct (decide (s ∈ scopes)) as [H|H].
  - destruct (m !! (pkg, s)) as [c|] eqn:E.
    + apply map_filter_lookup_Some. done.
    + apply map_filter_lookup_None. by left.
  - apply map_filter_lookup_None. right. intros x _. done.
Qed.

Lemma apply_inheritance_lookup m sb pkg :
  let e := apply_inheritance m sb in
  e !! (pkg, All) = (fun c => package_inherit c (global_of sb)) <$> m !! (pkg, All) /\
  (forall s, s = FromBuild \/ s = FromTest ->
     e !! (pkg, s) =
       (fun c => match e !! (pkg, All) with
                 | Some p => package_inherit c p | None => c end) <$> m !! (pkg, s)) /\
  (forall s ps, (s = Build /\ ps = FromBuild) \/ (s = Test /\ ps = FromTest) ->
     e !! (pkg, s) =
       (fun c => match e !! (pkg, ps) with
                 | Some p => package_inherit c p | None => c end) <$> m !! (pkg, s)).
Proof.
  cbn zeta. unfold apply_inheritance.
  set (all := (fun c => package_inherit c _) <$> _).
  set (dep := map_imap (inherit_from all _) _).
  set (local := map_imap (inherit_from dep _) _).
  assert (Hall : forall s, all !! (pkg, s) =
            if decide (s = All) then (fun c => package_inherit c (global_of sb)) <$> m !! (pkg, All)
            else None).
  { intros s. unfold all. rewrite lookup_fmap, layer_lookup.
    destruct (decide (s = All)) as [->|H].
    - by rewrite decide_True by apply elem_of_list_here.
    - rewrite decide_False; [done|]. by rewrite elem_of_list_singleton. }
  assert (Hdep : forall s, dep !! (pkg, s) =
            if decide (s = FromBuild \/ s = FromTest) then
              (fun c => match all !! (pkg, All) with
                        | Some p => package_inherit c p | None => c end) <$> m !! (pkg, s)
            else None).
  { intros s. unfold dep. rewrite map_lookup_imap, layer_lookup.
    destruct (decide (s = FromBuild \/ s = FromTest)) as [H|H].
    - rewrite decide_True by (rewrite !elem_of_cons; tauto).
      by destruct (m !! (pkg, s)).
    - rewrite decide_False; [done|].
      rewrite !elem_of_cons. intros [?|[?|?%elem_of_nil]]; tauto. }
  assert (Hlocal : forall s, local !! (pkg, s) =
            if decide (s = Build \/ s = Test) then
              (fun c => match dep !! (pkg, local_parent_scope s) with
                        | Some p => package_inherit c p | None => c end) <$> m !! (pkg, s)
            else None).
  { intros s. unfold local. rewrite map_lookup_imap, layer_lookup.
    destruct (decide (s = Build \/ s = Test)) as [H|H].
    - rewrite decide_True by (rewrite !elem_of_cons; tauto).
      by destruct (m !! (pkg, s)).
    - rewrite decide_False; [done|].
      rewrite !elem_of_cons. intros [?|[?|?%elem_of_nil]]; tauto. }
  assert (HA : (local ∪ (dep ∪ all)) !! (pkg, All) = all !! (pkg, All)).
  { rewrite !lookup_union, Hlocal, decide_False by (intros [?|?]; done).
    rewrite Hdep, decide_False by (intros [?|?]; done).
    by destruct (all !! (pkg, All)). }
  assert (HD : forall s, s = FromBuild \/ s = FromTest ->
             (local ∪ (dep ∪ all)) !! (pkg, s) = dep !! (pkg, s)).
  { intros s Hs. rewrite !lookup_union, Hlocal.
    rewrite decide_False by (destruct Hs; subst; intros [?|?]; done).
    rewrite Hall, decide_False by (destruct Hs; by subst).
    by destruct (dep !! (pkg, s)). }
  assert (HL : forall s, s = Build \/ s = Test ->
             (local ∪ (dep ∪ all)) !! (pkg, s) = local !! (pkg, s)).
  { intros s Hs. rewrite !lookup_union, Hdep.
    rewrite decide_False by (destruct Hs; subst; intros [?|?]; done).
    rewrite Hall, decide_False by (destruct Hs; by subst).
    by destruct (local !! (pkg, s)). }
  split_and!.
  - rewrite HA, Hall. by rewrite decide_True.
  - intros s Hs. rewrite (HD s Hs), HA, Hdep. by rewrite decide_True.
  - intros s ps Hs. rewrite (HL s) by naive_solver.
    rewrite (HD ps) by naive_solver. rewrite Hlocal.
    rewrite decide_True by naive_solver.
    destruct Hs as [[-> ->]|[-> ->]]; done.
Qed.

(** The effective configuration of the selectors of an indexed package. *)
Definition sec0 (rc : raw_config) (pkg : str) (s : scope) : package_config :=
  default package_default (stripped rc pkg s).

Definition eff_all rc pkg := package_inherit (sec0 rc pkg All) (global_of (rc_sandbox rc)).
Definition eff_from rc pkg s := package_inherit (sec0 rc pkg s) (eff_all rc pkg).
Definition eff_local rc pkg s :=
  package_inherit (sec0 rc pkg s) (eff_from rc pkg (local_parent_scope s)).

Definition eff rc pkg s : package_config :=
  match s with
  | All => eff_all rc pkg
  | FromBuild | FromTest => eff_from rc pkg s
  | Build | Test => eff_local rc pkg s
  end.

Global Instance index_selector_dec idx pkg s : Decision (index_selector idx pkg s).
Proof.
  refine (cast_if (decide ((pkg, s) ∈ permission_selectors idx)));
    by rewrite <- index_selector_spec.
Defined.

Lemma effective_lookup rc idx p s :
  p ∈ idx ->
  perms_with_inheritance rc idx !! (pk_name p, s) =
    if decide (is_Some (section rc (pk_name p) s) \/ index_selector idx (pk_name p) s)
    then Some (eff rc (pk_name p) s) else None.
Proof.
  intros Hp. set (pkg := pk_name p).
  assert (Hidx : forall s, s = All \/ s = FromBuild \/ s = FromTest -> index_selector idx pkg s).
  { intros s' Hs. exists p. split; [done|]. split; [done|].
    destruct Hs as [->|[->| ->]]; done. }
  unfold perms_with_inheritance.
  set (m := foldl add_default_entry _ _).
  assert (Hm : forall s, m !! (pkg, s) =
    if decide (is_Some (section rc pkg s) \/ index_selector idx pkg s)
    then Some (sec0 rc pkg s) else None).
  { intros s'. unfold m. rewrite entries_lookup. unfold sec0.
    assert (Hsome : is_Some (stripped rc pkg s') <-> is_Some (section rc pkg s')).
    { unfold stripped. destruct s'; try done. by rewrite fmap_is_Some. }
    destruct (stripped rc pkg s') as [c|] eqn:E.
    - rewrite decide_True; [done|]. left. apply Hsome. eauto.
    - destruct (decide ((pkg, s') ∈ permission_selectors idx)) as [H|H];
        rewrite index_selector_spec in H.
      + by rewrite decide_True by auto.
      + rewrite decide_False; [done|]. intros [H1%Hsome|H1]; [|done].
        by destruct H1. }
  destruct (apply_inheritance_lookup m (rc_sandbox rc) pkg) as (HA & HD & HL).
  assert (HAll : apply_inheritance m (rc_sandbox rc) !! (pkg, All) = Some (eff_all rc pkg)).
  { rewrite HA, Hm, decide_True; [done|]. right. auto. }
  assert (HFrom : forall s, s = FromBuild \/ s = FromTest ->
     apply_inheritance m (rc_sandbox rc) !! (pkg, s) = Some (eff_from rc pkg s)).
  { intros s' Hs. rewrite (HD s' Hs), HAll, Hm, decide_True; [done|]. right. apply Hidx. tauto. }
  destruct s.
  - rewrite HAll, decide_True; [done|]. auto.
  - rewrite (HL Build FromBuild) by tauto. rewrite Hm, HFrom by tauto.
    destruct (decide _); done.
  - rewrite (HL Test FromTest) by tauto. rewrite Hm, HFrom by tauto.
    destruct (decide _); done.
  - rewrite HFrom, decide_True by auto. done.
  - rewrite HFrom, decide_True by auto. done.
Qed.

(** ** Reading off C02 and C03 *)

(** A field of [without_subsections pc] that is not a subsection is that of
    [pc]. *)
Lemma sec0_list (f : package_config -> list str) rc pkg s x :
  (forall pc, f (without_subsections pc) = f pc) ->
  f package_default = [] ->
  x ∈ f (sec0 rc pkg s) <-> exists sec, section rc pkg s = Some sec /\ x ∈ f sec.
Proof.
  intros Hf Hd. unfold sec0, stripped.
  assert (forall o : option package_config,
    x ∈ f (default package_default o) <-> exists sec, o = Some sec /\ x ∈ f sec) as Hg.
  { intros [c|]; cbn.
    - naive_solver.
    - rewrite Hd. split; [by intros ?%elem_of_nil|]. by intros (? & ? & _). }
  destruct s; try apply Hg.
  rewrite Hg. split.
  - intros (sec & H1 & H2). apply fmap_Some in H1 as (c & H1 & ->).
    rewrite Hf in H2. eauto.
  - intros (sec & H1 & H2). exists (without_subsections sec).
    rewrite H1, Hf. done.
Qed.

Lemma sec0_flag (f : package_config -> bool) rc pkg s :
  (forall pc, f (without_subsections pc) = f pc) ->
  f package_default = false ->
  f (sec0 rc pkg s) = true <-> exists sec, section rc pkg s = Some sec /\ f sec = true.
Proof.
  intros Hf Hd. unfold sec0, stripped.
  assert (forall o : option package_config,
    f (default package_default o) = true <-> exists sec, o = Some sec /\ f sec = true) as Hg.
  { intros [c|]; cbn.
    - naive_solver.
    - rewrite Hd. split; [done|]. by intros (? & ? & _). }
  destruct s; try apply Hg.
  rewrite Hg. split.
  - intros (sec & H1 & H2). apply fmap_Some in H1 as (c & H1 & ->).
    rewrite Hf in H2. eauto.
  - intros (sec & H1 & H2). exists (without_subsections sec).
    rewrite H1, Hf. done.
Qed.

Lemma on_chain_unfold rc pkg s P :
  on_chain rc pkg s P <->
  Exists (fun s' => exists sec, section rc pkg s' = Some sec /\ P sec) (chain s).
Proof.
  unfold on_chain. rewrite Exists_exists. naive_solver.
Qed.

Lemma eff_list (f : package_config -> list str) rc pkg s x :
  (forall pc, f (without_subsections pc) = f pc) ->
  f package_default = [] ->
  (forall a b, f (package_inherit a b) = merge_string_vec (f a) (f b)) ->
  f (global_of (rc_sandbox rc)) = [] ->
  x ∈ f (eff rc pkg s) <-> on_chain rc pkg s (fun sec => x ∈ f sec).
Proof.
  intros Hf Hd Hi Hg. rewrite on_chain_unfold.
  destruct s; unfold eff, eff_local, eff_from, eff_all, local_parent_scope;
    repeat (rewrite Hi, merge_elem); rewrite Hg, elem_of_nil;
    rewrite !(sec0_list f) by done; cbn [chain];
    rewrite !Exists_cons, Exists_nil; tauto.
Qed.

Lemma eff_flag (f : package_config -> bool) rc pkg s :
  (forall pc, f (without_subsections pc) = f pc) ->
  f package_default = false ->
  (forall a b, f (package_inherit a b) = f a || f b) ->
  f (global_of (rc_sandbox rc)) = false ->
  f (eff rc pkg s) = true <-> on_chain rc pkg s (fun sec => f sec = true).
Proof.
  intros Hf Hd Hi Hg. rewrite on_chain_unfold.
  destruct s; unfold eff, eff_local, eff_from, eff_all, local_parent_scope;
    repeat (rewrite Hi, orb_true_iff); rewrite Hg;
    rewrite !(sec0_flag f) by done; cbn [chain];
    rewrite !Exists_cons, Exists_nil; naive_solver.
Qed.

Lemma permissions_on_chain rc idx p s e :
  p ∈ idx ->
  perms_with_inheritance rc idx !! (pk_name p, s) = Some e ->
  (forall api, api ∈ pc_allow_apis e <->
     on_chain rc (pk_name p) s (fun sec => api ∈ pc_allow_apis sec)) /\
  (forall i, i ∈ pc_allow_build_instructions e <->
     on_chain rc (pk_name p) s (fun sec => i ∈ pc_allow_build_instructions sec)) /\
  (pc_allow_unsafe e = true <->
     on_chain rc (pk_name p) s (fun sec => pc_allow_unsafe sec = true)) /\
  (pc_allow_extern e = true <->
     on_chain rc (pk_name p) s (fun sec => pc_allow_extern sec = true)) /\
  (pc_allow_proc_macro e = true <->
     on_chain rc (pk_name p) s (fun sec => pc_allow_proc_macro sec = true)).
Proof.
  intros Hp. rewrite (effective_lookup rc idx p s Hp). destruct (decide _); [|done].
  intros [= <-]. split_and!.
  - intros api. by apply (eff_list pc_allow_apis).
  - intros i. by apply (eff_list pc_allow_build_instructions).
  - by apply (eff_flag pc_allow_unsafe).
  - by apply (eff_flag pc_allow_extern).
  - by apply (eff_flag pc_allow_proc_macro).
Qed.

Lemma permission_entries rc idx p s :
  p ∈ idx ->
  is_Some (perms_with_inheritance rc idx !! (pk_name p, s)) <->
  is_Some (section rc (pk_name p) s) \/ index_selector idx (pk_name p) s.
Proof.
  intros Hp. rewrite (effective_lookup rc idx p s Hp).
  destruct (decide _) as [H|H].
  - split; eauto.
  - split; [by intros [? ?]|done].
Qed.

Lemma isolation rc rc' idx pkg s :
  rc_packages rc !! pkg = rc_packages rc' !! pkg ->
  rc_sandbox rc = rc_sandbox rc' ->
  perms_with_inheritance rc idx !! (pkg, s) = perms_with_inheritance rc' idx !! (pkg, s).
Proof.
  intros Hpkg Hsb. unfold perms_with_inheritance. rewrite <- Hsb.
  set (m := foldl add_default_entry (perms_from_config rc) _).
  set (m' := foldl add_default_entry (perms_from_config rc') _).
  assert (Hm : forall s, m !! (pkg, s) = m' !! (pkg, s)).
  { intros s'. unfold m, m'. rewrite !entries_lookup. unfold stripped, section.
    by rewrite Hpkg. }
  destruct (apply_inheritance_lookup m (rc_sandbox rc) pkg) as (HA & HD & HL).
  destruct (apply_inheritance_lookup m' (rc_sandbox rc) pkg) as (HA' & HD' & HL').
  assert (HAll : apply_inheritance m (rc_sandbox rc) !! (pkg, All)
                 = apply_inheritance m' (rc_sandbox rc) !! (pkg, All)).
  { by rewrite HA, HA', Hm. }
  assert (HFrom : forall s, s = FromBuild \/ s = FromTest ->
     apply_inheritance m (rc_sandbox rc) !! (pkg, s)
     = apply_inheritance m' (rc_sandbox rc) !! (pkg, s)).
  { intros s' Hs. by rewrite (HD s' Hs), (HD' s' Hs), HAll, Hm. }
  destruct s.
  - done.
  - rewrite (HL Build FromBuild), (HL' Build FromBuild) by tauto.
    by rewrite Hm, HFrom by tauto.
  - rewrite (HL Test FromTest), (HL' Test FromTest) by tauto.
    by rewrite Hm, HFrom by tauto.
  - by apply HFrom; left.
  - by apply HFrom; right.
Qed.

(** ** C03 *)
Lemma sec0_sandbox rc pkg s :
  pc_sandbox (sec0 rc pkg s) =
    match section rc pkg s with Some sec => pc_sandbox sec | None => sandbox_default end.
Proof.
  unfold sec0, stripped. destruct s; try (by destruct (section _ _ _)).
Qed.

Lemma option_or_None_r {A} (o : option A) : option_or o None = o.
Proof. by destruct o. Qed.

Lemma first_set_option {A B} (f : B -> option A) d (o : option B) l :
  f d = None ->
  first_set (f <$> omap (fun x => x) (o :: l)) =
    option_or (f (default d o)) (first_set (f <$> omap (fun x => x) l)).
Proof.
  intros Hd. destruct o as [b|]; cbn.
  - by destruct (f b).
  - by rewrite Hd.
Qed.

Lemma sandbox_sections_alt rc pkg s :
  sandbox_sections rc pkg s =
    omap (fun x => x) (((fun s' => pc_sandbox <$> section rc pkg s') <$> chain s)
                        ++ [Some (rc_sandbox rc)]).
Proof.
  unfold sandbox_sections. rewrite omap_app. cbn.
  induction (chain s) as [|s' l IH]; cbn; [done|].
  destruct (section rc pkg s'); cbn; by rewrite IH.
Qed.

Lemma eff_sandbox_first {A} (f : sandbox_config -> option A) rc pkg s :
  f sandbox_default = None ->
  (forall a b, f (sandbox_inherit a b) = option_or (f a) (f b)) ->
  f (pc_sandbox (eff rc pkg s)) = first_set (f <$> sandbox_sections rc pkg s).
Proof.
  intros Hd Hi. rewrite sandbox_sections_alt.
  destruct s; unfold eff, eff_local, eff_from, eff_all, local_parent_scope;
    cbn [pc_sandbox package_inherit global_of]; rewrite !Hi, !sec0_sandbox; cbn [chain];
    rewrite ?fmap_cons, ?fmap_nil; cbn [app];
    repeat (rewrite (first_set_option f sandbox_default) by done);
    cbn; repeat (destruct (section _ _ _); cbn [fmap option_fmap option_map default from_option id]);
    by repeat destruct (f _).
Qed.

Lemma eff_sandbox_list (f : sandbox_config -> list str) rc pkg s x :
  f sandbox_default = [] ->
  (forall a b, f (sandbox_inherit a b) = merge_string_vec (f a) (f b)) ->
  x ∈ f (pc_sandbox (eff rc pkg s)) <->
  exists sb, sb ∈ sandbox_sections rc pkg s /\ x ∈ f sb.
Proof.
  intros Hd Hi. unfold sandbox_sections.
  assert (H0 : forall s', x ∈ f (pc_sandbox (sec0 rc pkg s')) <->
            exists sec, section rc pkg s' = Some sec /\ x ∈ f (pc_sandbox sec)).
  { intros s'. rewrite sec0_sandbox. destruct (section rc pkg s').
    - naive_solver.
    - rewrite Hd. split; [by intros ?%elem_of_nil|]. by intros (? & ? & _). }
  assert (HR : (exists sb, sb ∈ omap (fun s' => pc_sandbox <$> section rc pkg s') (chain s)
                             ++ [rc_sandbox rc] /\ x ∈ f sb) <->
     Exists (fun s' => exists sec, section rc pkg s' = Some sec /\ x ∈ f (pc_sandbox sec)) (chain s)
     \/ x ∈ f (rc_sandbox rc)).
  { rewrite Exists_exists. split.
    - intros (sb & Hsb & Hx). apply elem_of_app in Hsb as [Hsb|Hsb].
      + apply elem_of_list_omap in Hsb as (s' & Hs' & Hsb).
        apply fmap_Some in Hsb as (sec & Hsec & ->). left. eauto.
      + apply elem_of_list_singleton in Hsb as ->. by right.
    - intros [(s' & Hs' & sec & Hsec & Hx)|Hx].
      + exists (pc_sandbox sec). split; [|done]. apply elem_of_app. left.
        apply elem_of_list_omap. exists s'. split; [done|]. by rewrite Hsec.
      + exists (rc_sandbox rc). split; [|done]. apply elem_of_app. right.
        by apply elem_of_list_singleton. }
  rewrite HR.
  destruct s; unfold eff, eff_local, eff_from, eff_all, local_parent_scope;
    cbn [pc_sandbox package_inherit global_of]; repeat (rewrite Hi, merge_elem);
    rewrite !H0; cbn [chain]; rewrite !Exists_cons, Exists_nil; tauto.
Qed.

Lemma sandbox_on_chain rc idx p s :
  p ∈ idx ->
  is_Some (perms_with_inheritance rc idx !! (pk_name p, s)) ->
  let sb := sandbox_config_for_package (perms_with_inheritance rc idx) (pk_name p, s) in
  let secs := sandbox_sections rc (pk_name p) s in
  sb_kind sb = first_set (sb_kind <$> secs) /\
  sb_allow_network sb = first_set (sb_allow_network <$> secs) /\
  (forall d, d ∈ sb_bind_writable sb <-> exists x, x ∈ secs /\ d ∈ sb_bind_writable x) /\
  (forall d, d ∈ sb_make_writable sb <-> exists x, x ∈ secs /\ d ∈ sb_make_writable x) /\
  (forall a, a ∈ sb_extra_args sb <-> exists x, x ∈ secs /\ a ∈ sb_extra_args x).
Proof.
  intros Hp Hs. cbn zeta. unfold sandbox_config_for_package.
  rewrite (effective_lookup rc idx p s Hp) in *.
  destruct (decide _); [|by destruct Hs].
  split_and!.
  - by apply (eff_sandbox_first sb_kind).
  - by apply (eff_sandbox_first sb_allow_network).
  - intros d. by apply (eff_sandbox_list sb_bind_writable).
  - intros d. by apply (eff_sandbox_list sb_make_writable).
  - intros d. by apply (eff_sandbox_list sb_extra_args).
Qed.
