(** More proofs about edits: lists, removals, versions, API definitions and imports. *)
From stdpp Require Import sorting.
From Verif Require Import Base BaseFacts TextModel ApiMapModel ConfigModel ConfigSpec ConfigProofs
  ConfigLoadProofs ProblemModel BuildScriptModel TomlModel TomlProofs EditorModel
  ReloadProofs EditorSpec EditorProofs.

(** ** Order of texts *)
Lemma ascii_N_inj (x y : ascii) : N_of_ascii x = N_of_ascii y -> x = y.
Proof. intros H. rewrite <- (ascii_N_embedding x), <- (ascii_N_embedding y). by rewrite H. Qed.

Lemma str_leb_spec (a b : str) : str_leb a b = true <-> a = b \/ bytes_lt a b.
Proof.
  revert b. induction a as [|x a IH]; intros [|y b]; cbn [str_leb bytes_lt].
  - split; auto.
  - split; auto.
  - split; [done|]. intros [?|?]; done.
  - destruct (N.ltb_spec (N_of_ascii x) (N_of_ascii y)) as [H|H].
    + split; auto.
    + destruct (N.eqb_spec (N_of_ascii x) (N_of_ascii y)) as [E|E].
      * apply ascii_N_inj in E as ->. rewrite IH. split.
        -- intros [->|?]; auto.
        -- intros [[= ->]|[?|[_ ?]]]; auto. lia.
      * split; [done|]. intros [[= -> ->]|[?|[-> ?]]]; [done|lia|done].
Qed.

Lemma bytes_lt_irrefl (a : str) : ~ bytes_lt a a.
Proof. induction a as [|x a IH]; cbn; [auto|]. intros [?|[_ ?]]; [lia|auto]. Qed.

Lemma bytes_lt_trans (a b c : str) : bytes_lt a b -> bytes_lt b c -> bytes_lt a c.
Proof.
  revert b c. induction a as [|x a IH]; intros [|y b] [|z c]; cbn; try tauto.
  intros [?|[-> ?]] [?|[-> ?]].
  - left. lia.
  - auto.
  - auto.
  - right. split; [done|]. eauto.
Qed.

Lemma bytes_lt_total (a b : str) : a <> b -> bytes_lt a b \/ bytes_lt b a.
Proof.
  revert b. induction a as [|x a IH]; intros [|y b] Hne; cbn; auto; try done.
  destruct (decide (x = y)) as [->|Hxy].
  - destruct (IH b); [congruence| |]; auto.
  - destruct (N.lt_trichotomy (N_of_ascii x) (N_of_ascii y)) as [?|[E|?]]; auto.
    by apply ascii_N_inj in E.
Qed.

Lemma str_leb_false (a b : str) : str_leb a b = false -> bytes_lt b a.
Proof.
  intros H. destruct (decide (a = b)) as [->|Hne].
  - assert (str_leb b b = true) by (apply str_leb_spec; auto). congruence.
  - destruct (bytes_lt_total a b Hne); [|done].
    assert (str_leb a b = true) by (apply str_leb_spec; auto). congruence.
Qed.

Lemma in_order_cons (x : str) (l : list str) :
  in_order (x :: l) <-> (forall y, y ∈ l -> bytes_lt x y) /\ in_order l.
Proof.
  unfold in_order. split.
  - intros H. split.
    + intros y [j Hj]%elem_of_list_lookup. apply (H 0 (S j)); [lia|done|done].
    + intros i j a b Hij Ha Hb. apply (H (S i) (S j)); [lia|done|done].
  - intros [H1 H2] [|i] [|j] a b Hij Ha Hb; try lia.
    + injection Ha as <-. apply H1. apply elem_of_list_lookup. by exists j.
    + apply (H2 i j); [lia|done|done].
Qed.

Lemma insert_text_in_order (v : str) (l : list str) : in_order l -> in_order (insert_text v l).
Proof.
  induction l as [|e l IH]; cbn [insert_text]; intros H.
  - apply in_order_cons. split; [by intros y ?%elem_of_nil|done].
  - pose proof H as H0. apply in_order_cons in H as [H1 H2].
    destruct (str_leb v e) eqn:E.
    + destruct (str_eqb e v) eqn:E2; [done|]. apply in_order_cons. split; [|done].
      apply str_leb_spec in E as [->|E]; [by rewrite str_eqb_refl in E2|].
      intros y [->|Hy]%elem_of_cons; [done|]. eapply bytes_lt_trans; [done|auto].
    + apply str_leb_false in E. apply in_order_cons. split; [|auto].
      intros y [->|Hy]%insert_text_elem; auto.
Qed.

Lemma insert_text_known (v : str) (l : list str) : in_order l -> v ∈ l -> insert_text v l = l.
Proof.
  induction l as [|e l IH]; cbn [insert_text]; intros H Hv; [by apply elem_of_nil in Hv|].
  apply in_order_cons in H as [H1 H2]. apply elem_of_cons in Hv as [<-|Hv].
  - assert (str_leb v v = true) as -> by (apply str_leb_spec; auto). by rewrite str_eqb_refl.
  - specialize (H1 v Hv). destruct (str_leb v e) eqn:E.
    + apply str_leb_spec in E as [->|E]; [by destruct (bytes_lt_irrefl e)|].
      destruct (bytes_lt_irrefl e). by eapply bytes_lt_trans.
    + by rewrite IH.
Qed.

Lemma insert_text_sublist (v : str) (l : list str) : l `sublist_of` insert_text v l.
Proof.
  induction l as [|e l IH]; cbn [insert_text]; [apply sublist_nil_l|].
  destruct (str_leb v e).
  - destruct (str_eqb e v); [done|]. by apply sublist_cons.
  - by apply sublist_skip.
Qed.

Lemma inserts_facts (vs l : list str) :
  let l' := foldl (fun l v => insert_text v l) l vs in
  l `sublist_of` l' /\
  (forall y, y ∈ l' <-> y ∈ vs \/ y ∈ l) /\
  (in_order l -> in_order l') /\
  (in_order l -> (forall v, v ∈ vs -> v ∈ l) -> l' = l).
Proof.
  revert l. induction vs as [|v vs IH]; intros l; cbn zeta; cbn [foldl].
  - split_and!; [done| |done|done]. intros y. rewrite elem_of_nil. tauto.
  - destruct (IH (insert_text v l)) as (I1 & I2 & I3 & I4). split_and!.
    + etrans; [apply (insert_text_sublist v)|done].
    + intros y. rewrite I2, insert_text_elem, elem_of_cons. tauto.
    + intros H. by apply I3, insert_text_in_order.
    + intros H Hin. assert (E : insert_text v l = l) by (apply insert_text_known; [done|apply Hin; left]).
      rewrite E in *. apply I4; [done|]. intros w Hw. apply Hin. by right.
Qed.

Lemma add_to_array_facts (k : str) (vs : list str) (t t' : table) (ls : list str) :
  field k [] texts_of t = Some ls -> add_to_array k vs t = Some t' ->
  exists ls', field k [] texts_of t' = Some ls' /\ ls' = foldl (fun l v => insert_text v l) ls vs.
Proof.
  intros H Ha. destruct (add_to_array_inv _ _ _ _ _ H Ha) as [[-> ->]|(l & -> & Hl)].
  - by exists ls.
  - eexists. split; [|done]. rewrite field_put, str_eqb_refl. done.
Qed.

Lemma add_to_array_ok (k : str) (vs : list str) (t : table) (ls : list str) :
  field k [] texts_of t = Some ls -> exists t', add_to_array k vs t = Some t'.
Proof.
  unfold field, add_to_array. destruct vs as [|v vs]; [eauto|].
  destruct (get k t) as [[]|]; try done; eauto.
Qed.

Lemma add_to_array_frame (k k' : str) (vs : list str) (t t' : table) :
  add_to_array k vs t = Some t' -> k' <> k -> get k' t' = get k' t.
Proof.
  intros H Hne. assert (E : str_eqb k' k = false).
  { destruct (str_eqb k' k) eqn:E; [by apply str_eqb_spec in E|done]. }
  unfold add_to_array in H. destruct vs as [|v vs]; [congruence|].
  destruct (get k t) as [[]|]; try done; injection H as <-; by rewrite get_put, E.
Qed.

(** ** Removing APIs *)
Lemma removes_facts (vs l : list str) :
  NoDup l ->
  NoDup (foldl (fun l v => remove_text v l) l vs) /\
  forall y, y ∈ foldl (fun l v => remove_text v l) l vs <-> y ∉ vs /\ y ∈ l.
Proof.
  revert l. induction vs as [|v vs IH]; intros l H; cbn [foldl].
  - split; [done|]. intros y. rewrite elem_of_nil. tauto.
  - destruct (IH (remove_text v l)) as [I1 I2]; [by apply remove_text_NoDup|]. split; [done|].
    intros y. rewrite I2, remove_text_elem, not_elem_of_cons by done. tauto.
Qed.

Section removals.
  Context (b : gmap str api_config) (ex : str -> list nat -> option (gmap str api_config))
    (idx : crate_index) (root : str) (usable : sandbox_kind -> bool).

  Lemma raw_eta (rc : raw_config) : set_packages rc (rc_packages rc) = rc.
  Proof. by destruct rc. Qed.

  Lemma own_permissions (rc : raw_config) (c : config) (sel : perm_sel) :
    load_config b ex idx (Some root) rc = Loaded c ->
    cf_permissions_no_inheritance c !! sel = stripped (cf_raw c) sel.1 sel.2.
  Proof.
    intros Hl. destruct (load_config_inv _ _ _ _ _ _ Hl) as (_ & _ & _ & _ & _ & _ & ->).
    cbn [cf_permissions_no_inheritance cf_raw]. destruct sel. apply perms_from_config_lookup.
  Qed.

  Lemma remove_apis_effect (name : str) (s : scope) (apis : list str) (d d' : table) (c : config) :
    load_document b ex idx root d = Some (Loaded c) ->
    (exists p, p ∈ idx /\ pk_name p = name) ->
    apply_edit usable b (RemoveUnusedAllowApis (name, s) apis) d = Some d' ->
    exists c', load_document b ex idx root d' = Some (Loaded c') /\
      changes_only c c' name s AApis (fun e e' =>
        (forall x, x ∈ pc_allow_apis e' -> x ∈ pc_allow_apis e) /\
        (forall x, x ∉ apis -> x ∈ pc_allow_apis e -> x ∈ pc_allow_apis e')) /\
      (forall e, cf_permissions_no_inheritance c' !! (name, s) = Some e ->
         forall x, x ∈ apis -> x ∉ pc_allow_apis e).
  Proof.
    intros (rc & Hd & Hl)%load_document_inv Hidx He. cbn [apply_edit] in He.
    destruct (rc_packages rc !! name) as [pc|] eqn:Epc.
    2: { pose proof (opt_section d d' rc name s (remove_allowed apis) Hd He) as Ho.
         assert (Hno : section rc name s = None) by (unfold section; by rewrite Epc).
         rewrite Hno in Ho. subst d'. exists c. split_and!.
         - unfold load_document. rewrite Hd. cbn. congruence.
         - split; [done|]. intros sel. destruct (cf_permissions c !! sel); [|done].
           split_and!; [by intros []|auto|done].
         - intros e. rewrite (own_permissions rc c _ Hl). cbn [fst snd]. rewrite stripped_section.
           rewrite (loaded_packages _ _ _ _ _ _ Hl), lookup_fmap, Epc. done. }
    destruct (decode_remove name s apis d d' rc pc Hd He Epc) as (pc' & Hd' & Hed).
    destruct (load_config_inv _ _ _ _ _ _ Hl) as (_ & _ & _ & _ & _ & Hval & Hc).
    apply validate_spec in Hval.
    replace pc with (default package_default (rc_packages rc !! name)) in Hed by (by rewrite Epc).
    destruct (edited_reload b ex idx root rc c name _ _ pc' Hl Hidx Hed) as
      (c' & Hl' & Hset & Hother & Hsec & Hpair).
    - done.
    - intros s'. destruct (well_formed_sec0 (cf_raw c) name s' Hval) as [W1 W2].
      destruct (decide (s' = s)); [|done]. cbn [update_apis u_apis].
      destruct (removes_facts apis (pc_allow_apis (sec0 (cf_raw c) name s')) W2) as [R1 R2].
      split; [|done]. intros a Ha%R2. apply W1. tauto.
    - assert (Hsec2 : forall s'', sec0 (cf_raw c') name s'' =
          if decide (s'' = s) then update_section (update_apis (fun l => foldl (fun l v => remove_text v l) l apis))
            (sec0 (cf_raw c) name s'') else sec0 (cf_raw c) name s'').
      { intros s''. rewrite Hsec. destruct (decide (s'' = s)); [done|]. apply update_section_no. }
      assert (Hrem : forall s'', NoDup (pc_allow_apis (sec0 (cf_raw c) name s''))).
      { intros s''. by apply well_formed_sec0. }
      exists c'. split_and!.
      + unfold load_document. rewrite Hd'. cbn. congruence.
      + split; [done|]. intros [k s']. destruct (decide (k = name)) as [->|Hne].
        2: { rewrite Hother by done. cbn [fst snd]. destruct (cf_permissions c !! (k, s')); [|done].
             split_and!; [intros []; done|auto|done]. }
        specialize (Hpair s').
        destruct (cf_permissions c !! (name, s')) as [e|], (cf_permissions c' !! (name, s')) as [e'|]; try done.
        destruct Hpair as [-> ->]. destruct Hset as (_ & _ & _ & Hsb & _). split_and!.
        * intros a Ha. apply eff_agree; [done|]. intros s'' _. rewrite Hsec2.
          destruct (decide (s'' = s)); [|by destruct a].
          destruct a; try done. cbn [agree update_section pc_sandbox]. by destruct (pc_sandbox _).
        * intros _. split.
          -- intros x. rewrite !eff_apis_sec0. intros (s'' & H1 & H2). exists s''. split; [done|].
             rewrite Hsec2 in H2. destruct (decide (s'' = s)); [|done].
             cbn [update_section pc_allow_apis update_apis u_apis] in H2.
             apply removes_facts in H2; [tauto|done].
          -- intros x Hx. rewrite !eff_apis_sec0. intros (s'' & H1 & H2). exists s''. split; [done|].
             rewrite Hsec2. destruct (decide (s'' = s)); [|done].
             cbn [update_section pc_allow_apis update_apis u_apis]. apply removes_facts; [done|]. done.
        * intros Hno. apply eff_agree; [done|]. intros s'' Hc1. rewrite Hsec2.
          rewrite decide_False; [done|]. intros ->. apply Hno. done.
      + intros e He'. rewrite (own_permissions _ _ _ Hl') in He'. cbn [fst snd] in He'.
        assert (e = sec0 (cf_raw c') name s) as ->.
        { unfold sec0. by rewrite He'. }
        rewrite Hsec2, decide_True by done. cbn [update_section pc_allow_apis update_apis u_apis].
        intros x Hx Hin. apply removes_facts in Hin; [tauto|done].
  Qed.
End removals.

(** ** Removing a section *)
Lemma in_opt_table_app (p q : list str) (f : table -> option table) (t : table) :
  in_opt_table (p ++ q) f t = in_opt_table p (in_opt_table q f) t.
Proof.
  revert t. induction p as [|k p IH]; intros t; [done|]. cbn [app in_opt_table].
  destruct (get k t) as [[]|]; try done; by rewrite IH.
Qed.

Ltac read_del :=
  rewrite ?known_del by done; rewrite ?field_del, ?opt_field_del; lits.

Lemma implements_del_build : implements (fun t => Some (del (lit "build") t)) (fun pc => set_build pc None).
Proof.
  intros t t' pc (H1 & H2 & H3 & H4 & H5 & H6 & H7 & H8 & H9 & H10 & H11) [= <-].
  unfold section_is. read_del. split_and!; done.
Qed.

Lemma implements_del_test : implements (fun t => Some (del (lit "test") t)) (fun pc => set_test pc None).
Proof.
  intros t t' pc (H1 & H2 & H3 & H4 & H5 & H6 & H7 & H8 & H9 & H10 & H11) [= <-].
  unfold section_is. read_del. split_and!; done.
Qed.

Definition from_without_build (f : from_config) : from_config := FromConfig None (fc_test f).
Definition from_without_test (f : from_config) : from_config := FromConfig (fc_build f) None.

Lemma implements_del_from_build :
  implements (in_opt_table [lit "from"] (fun t => Some (del (lit "build") t)))
    (fun pc => set_from pc (from_without_build <$> pc_from pc)).
Proof.
  intros t t' pc Ht. pose proof Ht as (H1 & H2 & H3 & H4 & H5 & H6 & H7 & H8 & H9 & H10 & H11).
  intros [[E ->]|(u & u' & E & Hu & ->)]%opt_step; unfold opt_field in H9; rewrite E in H9.
  - assert (pc_from pc = None) as Hn by congruence. rewrite Hn.
    assert (set_from pc (from_without_build <$> None) = pc) as ->; [|done].
    destruct pc; cbn in *. by rewrite Hn.
  - destruct (from_item (Table u)) as [fc|] eqn:Ef; [|done].
    assert (pc_from pc = Some fc) as Hn by (cbn in H9; congruence).
    apply from_is_iff in Ef as (F1 & F2 & F3). cbn [in_opt_table] in Hu. assert (u' = del (lit "build") u) as -> by congruence.
    unfold section_is. read_put. split_and!; try done.
    rewrite (proj2 (from_is_iff (del (lit "build") u) (from_without_build fc))).
    + cbn [pc_from set_from]. by rewrite Hn.
    + unfold from_is. read_del. split_and!; done.
Qed.

Lemma implements_del_from_test :
  implements (in_opt_table [lit "from"] (fun t => Some (del (lit "test") t)))
    (fun pc => set_from pc (from_without_test <$> pc_from pc)).
Proof.
  intros t t' pc Ht. pose proof Ht as (H1 & H2 & H3 & H4 & H5 & H6 & H7 & H8 & H9 & H10 & H11).
  intros [[E ->]|(u & u' & E & Hu & ->)]%opt_step; unfold opt_field in H9; rewrite E in H9.
  - assert (pc_from pc = None) as Hn by congruence. rewrite Hn.
    assert (set_from pc (from_without_test <$> None) = pc) as ->; [|done].
    destruct pc; cbn in *. by rewrite Hn.
  - destruct (from_item (Table u)) as [fc|] eqn:Ef; [|done].
    assert (pc_from pc = Some fc) as Hn by (cbn in H9; congruence).
    apply from_is_iff in Ef as (F1 & F2 & F3). cbn [in_opt_table] in Hu. assert (u' = del (lit "test") u) as -> by congruence.
    unfold section_is. read_put. split_and!; try done.
    rewrite (proj2 (from_is_iff (del (lit "test") u) (from_without_test fc))).
    + cbn [pc_from set_from]. by rewrite Hn.
    + unfold from_is. read_del. split_and!; done.
Qed.

(** The configuration of a package without one of its sections. *)
Definition without_section (s : scope) (pc : package_config) : option package_config :=
  match s with
  | All => None
  | Build => Some (set_build pc None)
  | Test => Some (set_test pc None)
  | FromBuild => Some (set_from pc (from_without_build <$> pc_from pc))
  | FromTest => Some (set_from pc (from_without_test <$> pc_from pc))
  end.

Lemma decode_remove_section (usable : sandbox_kind -> bool) (b : gmap str api_config) (name : str) (s : scope)
    (d d' : table) (rc : raw_config) :
  decode d = Some rc -> apply_edit usable b (RemoveUnusedPkgConfig (name, s)) d = Some d' ->
  decode d' = Some (set_packages rc (partial_alter (fun o => o ≫= without_section s) name (rc_packages rc))).
Proof.
  intros Hd H. cbn [apply_edit] in H.
  assert (Hsub : forall f g, implements f g -> without_section s = (fun pc => Some (g pc)) ->
    in_opt_table (pkg_path (name, All)) f d = Some d' ->
    decode d' = Some (set_packages rc (partial_alter (fun o => o ≫= without_section s) name (rc_packages rc)))).
  { intros f g Hf Hg Ho. pose proof (opt_section d d' rc name All f Hd Ho) as Hs.
    unfold section in Hs. destruct (rc_packages rc !! name) as [pc|] eqn:E.
    - rewrite (decode_in_package name [] f g d d' rc Hf Hd Hs). f_equal. f_equal.
      rewrite E, Hg. cbn [default from_option id].
      apply map_eq. intros k. destruct (decide (k = name)) as [->|Hne].
      + rewrite lookup_insert, lookup_partial_alter, E. done.
      + rewrite lookup_insert_ne, lookup_partial_alter_ne by congruence. done.
    - subst d'. rewrite Hd. f_equal. rewrite <- (raw_eta rc) at 1. f_equal.
      apply map_eq. intros k. destruct (decide (k = name)) as [->|Hne].
      + rewrite lookup_partial_alter, E. done.
      + by rewrite lookup_partial_alter_ne by congruence. }
  destruct s.
  - change (in_opt_table [lit "pkg"] (fun t => Some (del name t)) d = Some d') in H.
    apply opt_step in H as [[E ->]|(u & u' & E & Hu & ->)].
    + rewrite Hd. f_equal. rewrite <- (raw_eta rc) at 1. f_equal.
      rewrite (document_no_packages d rc Hd E). apply map_eq. intros k.
      destruct (decide (k = name)) as [->|Hne].
      * by rewrite lookup_partial_alter, lookup_empty.
      * by rewrite lookup_partial_alter_ne by congruence.
    + cbn [in_opt_table] in Hu. assert (u' = del name u) as -> by congruence.
      apply document_is_iff in Hd as (H1 & H2 & H3 & H4 & H5 & H6).
      apply document_is_iff. unfold document_is. read_put. rewrite common_put by (vm_compute; reflexivity).
      split_and!; try done. cbn [rc_packages set_packages].
      unfold field in H4. rewrite E in H4. rewrite (map_of_del _ _ _ _ H4). f_equal.
      apply map_eq. intros k. destruct (decide (k = name)) as [->|Hne].
      * rewrite lookup_delete, lookup_partial_alter. by destruct (rc_packages rc !! name).
      * by rewrite lookup_delete_ne, lookup_partial_alter_ne by congruence.
  - apply (Hsub _ _ implements_del_build); done.
  - apply (Hsub _ _ implements_del_test); done.
  - apply (Hsub _ _ implements_del_from_build); [done|]. unfold pkg_path. cbn [fst snd selector_path].
    change [lit "pkg"; name] with ([lit "pkg"; name] : list str). rewrite <- in_opt_table_app. done.
  - apply (Hsub _ _ implements_del_from_test); [done|]. unfold pkg_path. cbn [fst snd selector_path].
    rewrite <- in_opt_table_app. done.
Qed.

Lemma without_section_pc_section (s s' : scope) (pc : package_config) :
  without_section s pc ≫= (fun pc => pc_section pc s') =
  if decide (s = All \/ s' = s) then None else pc_section pc s'.
Proof.
  destruct pc as [a b c d e f g h i j].
  destruct s, s'; cbn; try done; by destruct h.
Qed.

Lemma eff_sec0 (rc rc' : raw_config) (k : str) (s : scope) :
  rc_sandbox rc' = rc_sandbox rc ->
  (forall s', s' ∈ chain s -> sec0 rc' k s' = sec0 rc k s') -> eff rc' k s = eff rc k s.
Proof.
  intros H1 H2. destruct s; unfold eff, eff_local, eff_from, eff_all; cbn [local_parent_scope];
    rewrite H1, !H2; try done; cbn [chain]; rewrite !elem_of_cons; tauto.
Qed.

Section removed.
  Context (b : gmap str api_config) (ex : str -> list nat -> option (gmap str api_config))
    (idx : crate_index) (root : str) (usable : sandbox_kind -> bool).

  Lemma remove_section_effect (name : str) (s : scope) (d d' : table) (c : config) :
    load_document b ex idx root d = Some (Loaded c) ->
    ~ index_selector idx name s ->
    apply_edit usable b (RemoveUnusedPkgConfig (name, s)) d = Some d' ->
    exists c', load_document b ex idx root d' = Some (Loaded c') /\
      same_settings c c' /\
      (forall sel, index_selector idx sel.1 sel.2 -> cf_permissions c' !! sel = cf_permissions c !! sel) /\
      (forall sel, cf_permissions_no_inheritance c' !! sel =
         if decide (sel.1 = name /\ (s = All \/ sel.2 = s)) then None
         else cf_permissions_no_inheritance c !! sel).
  Proof.
    intros (rc & Hd & Hl)%load_document_inv Hidx He.
    pose proof (decode_remove_section _ _ _ _ _ _ _ Hd He) as Hd'.
    set (m := partial_alter (fun o => o ≫= without_section s) name (rc_packages rc)) in *.
    pose proof (loaded_packages _ _ _ _ _ _ Hl) as Hpk.
    destruct (load_config_inv _ _ _ _ _ _ Hl) as (r1 & r2 & Hr1 & Hr2 & _ & Hval & Hc).
    apply validate_spec in Hval.
    set (R := cf_raw c) in *. set (R' := set_packages R (finished root <$> m)).
    assert (Hst : forall k s', stripped R' k s' =
      if decide (k = name /\ (s = All \/ s' = s)) then None else stripped R k s').
    { intros k s'. rewrite !stripped_section, Hpk. cbn [R' rc_packages set_packages].
      rewrite !lookup_fmap. unfold m. destruct (decide (k = name)) as [->|Hne].
      - rewrite lookup_partial_alter. destruct (rc_packages rc !! name) as [pc|]; cbn [mbind option_bind fmap option_fmap option_map].
        2: { by destruct (decide _). }
        rewrite finished_section. pose proof (without_section_pc_section s s' pc) as Hw.
        destruct (without_section s pc) as [pc'|]; cbn [mbind option_bind fmap option_fmap option_map] in *.
        + rewrite finished_section, Hw. destruct (decide (s = All \/ s' = s)) as [D|D].
          * by rewrite decide_True.
          * by rewrite decide_False by tauto.
        + destruct (decide (s = All \/ s' = s)) as [D|D].
          * by rewrite decide_True.
          * rewrite decide_False by tauto. by rewrite <- Hw.
      - rewrite lookup_partial_alter_ne by congruence. by rewrite decide_False by tauto. }
    assert (Hsec : forall k s', s' <> All -> section R' k s' = stripped R' k s').
    { intros k s' H. unfold stripped. destruct s'; done. }
    assert (Hsec2 : forall k s', s' <> All -> section R k s' = stripped R k s').
    { intros k s' H. unfold stripped. destruct s'; done. }
    assert (Hwf : well_formed R').
    { destruct Hval as [V1 V2]. split; [done|]. intros k s' sec Hs.
      destruct (decide (s' = All)) as [->|Hne].
      - assert (Hx : stripped R' k All = Some (without_subsections sec)).
        { unfold stripped. by rewrite Hs. }
        rewrite Hst in Hx. destruct (decide _); [done|].
        unfold stripped in Hx. destruct (section R k All) as [sec2|] eqn:E; [|done].
        destruct (V2 _ _ _ E) as (W1 & W2 & _).
        assert (pc_allow_apis sec2 = pc_allow_apis sec) as Ha.
        { assert (without_subsections sec2 = without_subsections sec) as H by (cbn in Hx; congruence).
          apply (f_equal pc_allow_apis) in H. destruct sec, sec2. exact H. }
        rewrite <- Ha. split_and!; [exact W1|exact W2|done].
      - rewrite Hsec, Hst in Hs by done. destruct (decide _); [done|].
        rewrite <- Hsec2 in Hs by done. by apply (V2 _ _ _ Hs). }
    exists (with_permissions idx R'). split_and!.
    - unfold load_document. rewrite Hd'. cbn [mbind option_bind fmap option_fmap option_map].
      rewrite (reload b ex idx root rc c m Hl).
      + fold R R'. by rewrite (proj2 (validate_spec R') Hwf).
      + intros k. unfold m. destruct (decide (k = name)) as [->|Hne].
        2: by rewrite lookup_partial_alter_ne by congruence.
        rewrite lookup_partial_alter. destruct (rc_packages rc !! name) as [pc|] eqn:E; [|done].
        cbn [mbind option_bind]. destruct (decide (s = All)) as [->|Hs].
        * cbn. unfold imports_of. destruct (pc_import pc) as [[|i l]|] eqn:EI; [done| |done].
          exfalso. destruct (load_imports_ok _ _ _ _ Hr2) as (_ & _ & H3).
          rewrite <- (parse_raw_packages _ _ _ Hr1) in E.
          destruct (H3 _ _ _ E EI) as (v & [(p & Hp & Hn & _) _] & _); [done|].
          apply Hidx. by exists p.
        * destruct pc, s; done.
    - done.
    - intros [k s'] Hi. cbn [fst snd] in Hi. rewrite Hc. cbn [cf_permissions with_permissions].
      pose proof Hi as (p & Hp & <- & _). rewrite !(effective_lookup _ idx p) by done.
      rewrite !decide_True by tauto. f_equal. apply eff_sec0; [done|].
      intros s'' Hs''. unfold sec0. rewrite Hst. rewrite decide_False; [done|].
      intros [Hk Hall]. apply Hidx. rewrite <- Hk.
      destruct Hi as (q & Hq & Hqn & Hqs). rewrite <- Hqn.
      destruct Hall as [->| ->]; [by exists q|].
      exists q. split_and!; [done..|].
      destruct s', s; try done; cbn [chain] in Hs''; rewrite !elem_of_cons, elem_of_nil in Hs'';
        exfalso; naive_solver.
    - intros [k s']. rewrite Hc. cbn [cf_permissions_no_inheritance with_permissions fst snd].
      rewrite !perms_from_config_lookup. apply Hst.
  Qed.
End removed.
