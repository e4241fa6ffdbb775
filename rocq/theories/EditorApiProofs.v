(** Edits of API definitions and of imports. *)
From stdpp Require Import gmap.
From Verif Require Import Base BaseFacts TextModel TextFacts ApiMapModel ConfigModel ConfigSpec ConfigProofs
  ConfigLoadProofs ProblemModel BuildScriptModel TomlModel TomlProofs EditorModel ReloadProofs EditorSpec
  EditorProofs EditorMoreProofs.

(** ** The document *)
Definition implements_api (f : table -> option table) (g : api_config -> api_config) : Prop :=
  forall t t' ac, api_is t ac -> f t = Some t' -> api_is t' (g ac).

Lemma api_is_nil : api_is [] api_config_default.
Proof. split_and!; done. Qed.

Lemma decode_in_api (name : str) (f : table -> option table) (g : api_config -> api_config)
    (d d' : table) (rc : raw_config) :
  implements_api f g ->
  decode d = Some rc -> in_table [lit "api"; name] f d = Some d' ->
  decode d' = Some (set_apis rc
    (<[name := g (default api_config_default (rc_apis rc !! name))]> (rc_apis rc))).
Proof.
  intros Hf Hd. change [lit "api"; name] with ([lit "api"] ++ [name]).
  rewrite !in_table_app. intros (u & u' & Hu & Hfu & ->)%in_table_one.
  apply in_table_one in Hfu as (w & w' & Hw & Hfw & ->).
  apply document_is_iff in Hd as (H1 & H2 & H3 & H4 & H5 & H6).
  assert (Hm : map_of api_of (Table u) = Some (rc_apis rc)).
  { unfold field in H3. destruct Hu as [[E ->]|E]; rewrite E in H3.
    - by rewrite <- H3.
    - done. }
  apply document_is_iff. unfold document_is. read_put. rewrite common_put by (vm_compute; reflexivity).
  split_and!; try done. cbn [rc_apis set_apis].
  apply map_of_put; [done|]. apply api_is_iff. apply (Hf w w'); [|done].
  apply map_of_iff in Hm as [Hall Hm]. rewrite Hm.
  destruct Hw as [[E ->]|E]; rewrite E; cbn [mbind option_bind].
  - apply api_is_nil.
  - destruct (api_of (Table w)) as [ac0|] eqn:Ep.
    + by apply api_is_iff.
    + apply get_in in E. destruct (Hall _ E) as [? H]. cbn [snd] in H. by rewrite Ep in H.
Qed.

Definition inserts (vs l : list str) : list str := foldl (fun l v => insert_text v l) l vs.
Definition more_includes (vs : list str) (ac : api_config) : api_config :=
  ApiConfig (inserts vs (ac_include ac)) (ac_exclude ac) (ac_no_auto_detect ac).
Definition more_excludes (vs : list str) (ac : api_config) : api_config :=
  ApiConfig (ac_include ac) (inserts vs (ac_exclude ac)) (ac_no_auto_detect ac).
Definition more_ignored (vs : list str) (ac : api_config) : api_config :=
  ApiConfig (ac_include ac) (ac_exclude ac) (inserts vs (ac_no_auto_detect ac)).

Lemma implements_include (vs : list str) : implements_api (add_to_array (lit "include") vs) (more_includes vs).
Proof.
  intros t t' ac (H1 & H2 & H3 & H4) H.
  destruct (add_to_array_inv _ _ _ _ _ H2 H) as [[-> ->]|(l & -> & Hl)].
  - by destruct ac.
  - unfold api_is. read_put. split_and!; done.
Qed.

Lemma implements_exclude (vs : list str) : implements_api (add_to_array (lit "exclude") vs) (more_excludes vs).
Proof.
  intros t t' ac (H1 & H2 & H3 & H4) H.
  destruct (add_to_array_inv _ _ _ _ _ H3 H) as [[-> ->]|(l & -> & Hl)].
  - by destruct ac.
  - unfold api_is. read_put. split_and!; done.
Qed.

Lemma implements_no_detect (vs : list str) :
  implements_api (add_to_array (lit "no_auto_detect") vs) (more_ignored vs).
Proof.
  intros t t' ac (H1 & H2 & H3 & H4) H.
  destruct (add_to_array_inv _ _ _ _ _ H4 H) as [[-> ->]|(l & -> & Hl)].
  - by destruct ac.
  - unfold api_is. read_put. split_and!; done.
Qed.

Lemma implements_inline (vs ws : list str) :
  implements_api (fun t => t ← add_to_array (lit "include") vs t; add_to_array (lit "exclude") ws t)
    (fun ac => more_excludes ws (more_includes vs ac)).
Proof.
  intros t t' ac H. destruct (add_to_array (lit "include") vs t) as [u|] eqn:E; [|done].
  cbn [mbind option_bind]. intros Hu. apply (implements_exclude ws u); [|done].
  by apply (implements_include vs t).
Qed.

(** ** Built-in definitions *)
Lemma merge_fold_related (b : gmap str api_config) (P : api_config -> api_config -> Prop) (api : str) :
  (forall c c' x, P c c' ->
     P (ApiConfig (ac_include c ++ ac_include x) (ac_exclude c ++ ac_exclude x) (ac_no_auto_detect c))
       (ApiConfig (ac_include c' ++ ac_include x) (ac_exclude c' ++ ac_exclude x) (ac_no_auto_detect c'))) ->
  forall (imports : list str) (m m' r : gmap str api_config),
  fold_res (merge_built_in b) imports m = Ok r ->
  (forall k, k <> api -> m' !! k = m !! k) -> is_Some (m' !! api) ->
  P (default api_config_default (m !! api)) (default api_config_default (m' !! api)) ->
  exists r', fold_res (merge_built_in b) imports m' = Ok r' /\
    (forall k, k <> api -> r' !! k = r !! k) /\ is_Some (r' !! api) /\
    P (default api_config_default (r !! api)) (default api_config_default (r' !! api)).
Proof.
  intros HP imports. induction imports as [|i imports IH]; intros m m' r; cbn [fold_res].
  - intros [= <-] H1 H2 H3. by exists m'.
  - unfold merge_built_in at 1 3. destruct (b !! i) as [x|]; [|done]. intros Hr H1 H2 H3.
    apply (IH _ _ _ Hr).
    + intros k Hk. destruct (decide (k = i)) as [->|Hne].
      * rewrite !lookup_insert, H1 by done. done.
      * rewrite !lookup_insert_ne by congruence. auto.
    + destruct (decide (i = api)) as [->|Hne].
      * rewrite lookup_insert. by eexists.
      * by rewrite lookup_insert_ne by congruence.
    + destruct (decide (i = api)) as [->|Hne].
      * rewrite !lookup_insert. cbn [default from_option id]. by apply HP.
      * by rewrite !lookup_insert_ne by congruence.
Qed.

Lemma apply_fn_set_apis (n : nat) (rc : raw_config) (m : gmap str api_config) :
  apply_fn n (set_apis rc m) = set_apis (apply_fn n rc) m.
Proof. destruct n as [|[|[|n]]]; cbn; try done. by destruct (sb_kind (rc_rustc_sandbox rc)). Qed.

Lemma apply_fns_set_apis (l : list nat) (rc : raw_config) (m : gmap str api_config) :
  foldl (fun rc n => apply_fn n rc) (set_apis rc m) l =
  set_apis (foldl (fun rc n => apply_fn n rc) rc l) m.
Proof.
  revert rc. induction l as [|n l IH]; intros rc; [done|]. cbn [foldl].
  by rewrite apply_fn_set_apis, IH.
Qed.

Definition patched (rc : raw_config) : raw_config :=
  let rc := apply_runtime_patches rc in
  set_rustc_sandbox rc (sandbox_inherit (rc_rustc_sandbox rc) (rc_sandbox rc)).

Lemma patched_set_apis (rc : raw_config) (m : gmap str api_config) :
  patched (set_apis rc m) = set_apis (patched rc) m.
Proof.
  unfold patched, apply_runtime_patches. rewrite apply_fns_set_apis. done.
Qed.

Lemma patched_apis (rc : raw_config) : rc_apis (patched rc) = rc_apis rc.
Proof.
  assert (rc = set_apis rc (rc_apis rc)) as E by (by destruct rc).
  rewrite E at 1. by rewrite patched_set_apis.
Qed.

Lemma parse_raw_api (b : gmap str api_config) (P : api_config -> api_config -> Prop) (api : str)
    (rc r : raw_config) (x : api_config) :
  (forall c c' x, P c c' ->
     P (ApiConfig (ac_include c ++ ac_include x) (ac_exclude c ++ ac_exclude x) (ac_no_auto_detect c))
       (ApiConfig (ac_include c' ++ ac_include x) (ac_exclude c' ++ ac_exclude x) (ac_no_auto_detect c'))) ->
  parse_raw b rc = Ok r ->
  P (default api_config_default (rc_apis rc !! api)) x ->
  exists x', parse_raw b (set_apis rc (<[api := x]> (rc_apis rc))) = Ok (set_apis r (<[api := x']> (rc_apis r))) /\
    P (default api_config_default (rc_apis r !! api)) x'.
Proof.
  intros HP. unfold parse_raw, merge_built_ins. cbn [rc_import_std rc_apis set_apis].
  destruct (fold_res (merge_built_in b) (rc_import_std rc) (rc_apis rc)) as [a|] eqn:E; [|done].
  intros [= <-] Hx.
  destruct (merge_fold_related b P api HP _ _ (<[api := x]> (rc_apis rc)) _ E) as (a' & H1 & H2 & [x' H3] & H4).
  - intros k Hk. by rewrite lookup_insert_ne by congruence.
  - rewrite lookup_insert. by eexists.
  - rewrite lookup_insert. done.
  - rewrite H1. rewrite H3 in H4. cbn [default from_option id] in H4. exists x'.
    assert (Ha : a' = <[api := x']> a).
    { apply map_eq. intros k. destruct (decide (k = api)) as [->|Hne].
      - by rewrite lookup_insert.
      - rewrite lookup_insert_ne by congruence. by apply H2. }
    fold (patched (set_import_std (set_apis rc a) [])). rewrite patched_apis.
    change (rc_apis (set_import_std (set_apis rc a) [])) with a. split; [|done].
    rewrite <- patched_set_apis. by rewrite Ha.
Qed.

(** ** Imports *)
Lemma import_package_insert (idx : crate_index) (ex : str -> list nat -> option (gmap str api_config))
    (a a' : gmap str api_config) (e : str * package_config) (api : str) (x : api_config) :
  import_package idx ex a e = Ok a' -> (forall d, ~ source_in idx ex [e] api d) ->
  import_package idx ex (<[api := x]> a) e = Ok (<[api := x]> a').
Proof.
  destruct e as [pkg pc]. intros (H1 & H2 & H3)%import_package_iff Hno. apply import_package_iff.
  split_and!; [| |done].
  - intros q d. destruct (decide (q = api)) as [->|Hne].
    + rewrite !lookup_insert. split; [auto|]. intros [?|?]; [done|]. by destruct (Hno d).
    + rewrite !lookup_insert_ne by congruence. apply H1.
  - intros q d Hs. destruct (decide (q = api)) as [->|Hne].
    + by destruct (Hno d).
    + rewrite lookup_insert_ne by congruence. by apply (H2 q d).
Qed.

Lemma imports_insert (idx : crate_index) (ex : str -> list nat -> option (gmap str api_config))
    (l : list (str * package_config)) (a a' : gmap str api_config) (api : str) (x : api_config) :
  fold_res (import_package idx ex) l a = Ok a' -> (forall d, ~ source_in idx ex l api d) ->
  fold_res (import_package idx ex) l (<[api := x]> a) = Ok (<[api := x]> a').
Proof.
  revert a. induction l as [|e l IH]; intros a; cbn [fold_res].
  - by intros [= <-].
  - destruct (import_package idx ex a e) as [a1|] eqn:E; [|done]. intros H Hno.
    rewrite (import_package_insert _ _ _ _ _ api x E).
    + apply IH; [done|]. intros d (pkg & pc & i & v & y & n & Hin & Hr). apply (Hno d).
      exists pkg, pc, i, v, y, n. split; [by right|done].
    + intros d (pkg & pc & i & v & y & n & Hin & Hr). apply (Hno d).
      exists pkg, pc, i, v, y, n. split; [|done]. apply elem_of_list_singleton in Hin. rewrite Hin. left.
Qed.

Lemma load_imports_insert (idx : crate_index) (ex : str -> list nat -> option (gmap str api_config))
    (rc r : raw_config) (api : str) (x : api_config) :
  load_imports idx ex rc = Ok r -> (forall d, ~ import_source idx ex rc api d) ->
  load_imports idx ex (set_apis rc (<[api := x]> (rc_apis rc))) =
    Ok (set_apis r (<[api := x]> (rc_apis r))).
Proof.
  unfold load_imports. cbn [rc_packages rc_apis set_apis].
  destruct (fold_res _ _ _) as [a|] eqn:E; [|done]. intros [= <-] Hno.
  rewrite (imports_insert _ _ _ _ _ api x E); [done|].
  intros d Hs. apply (Hno d). by apply import_source_in.
Qed.

(** ** Loading *)
Lemma perms_same (rc rc' : raw_config) (idx : crate_index) :
  rc_packages rc' = rc_packages rc -> rc_sandbox rc' = rc_sandbox rc ->
  perms_with_inheritance rc' idx = perms_with_inheritance rc idx.
Proof.
  intros H1 H2. apply map_eq. intros [k s]. apply isolation; [by rewrite H1|done].
Qed.

Section api_edits.
  Context (b : gmap str api_config) (ex : str -> list nat -> option (gmap str api_config))
    (idx : crate_index) (root : str) (usable : sandbox_kind -> bool).

  (** What is built from a file whose definitions differ at one API. *)
  Lemma load_insert (r1 r1' r2 : raw_config) (rc' : raw_config) (c : config) (api : str) (x' : api_config) :
    load_imports idx ex r1 = Ok r2 -> make_paths_absolute (Some root) r2 = Ok (cf_raw c) ->
    validate (cf_raw c) = [] ->
    (forall d, ~ import_source idx ex r1 api d) ->
    parse_raw b rc' = Ok r1' -> r1' = set_apis r1 (<[api := x']> (rc_apis r1)) ->
    load_config b ex idx (Some root) rc' =
      Loaded (with_permissions idx (set_apis (cf_raw c) (<[api := x']> (rc_apis (cf_raw c))))).
  Proof.
    intros H2 H3 Hval Hno Hp ->. unfold load_config. rewrite Hp.
    rewrite (load_imports_insert _ _ _ _ _ _ H2 Hno).
    rewrite make_paths_absolute_total in H3 |- *.
    assert (cf_raw c = set_packages r2 (abs_package root <$> rc_packages r2)) as Hc by congruence.
    rewrite Hc in *. cbn [rc_packages set_apis rc_apis set_packages].
    match goal with |- match validate ?r with _ => _ end = _ =>
      assert (validate r = []) as -> end; [|done].
    apply validate_spec in Hval as [V1 V2]. apply validate_spec. split; [done|].
    intros pkg s sec Hs. destruct (V2 pkg s sec Hs) as (W1 & W2 & W3). split_and!; [|done..].
    intros a Ha. cbn [rc_apis set_apis set_packages]. destruct (decide (a = api)) as [->|Hne].
    - rewrite lookup_insert. by eexists.
    - rewrite lookup_insert_ne by congruence. by apply W1.
  Qed.

  Lemma insert_changes (c : config) (api : str) (x' : api_config) (P : api_config -> api_config -> Prop) :
    c = Config (cf_raw c) (perms_with_inheritance (cf_raw c) idx) (perms_from_config (cf_raw c)) ->
    P (default api_config_default (rc_apis (cf_raw c) !! api)) x' ->
    changes_api c (with_permissions idx (set_apis (cf_raw c) (<[api := x']> (rc_apis (cf_raw c))))) api P.
  Proof.
    intros Hc HP. split_and!; try done.
    - intros sel. rewrite Hc. cbn [cf_permissions with_permissions cf_raw]. rewrite (perms_same (cf_raw c) (set_apis _ _)) by done.
      by destruct (perms_with_inheritance (cf_raw c) idx !! sel); [intros []|].
    - intros k Hk. cbn [cf_raw with_permissions rc_apis set_apis]. by rewrite lookup_insert_ne by congruence.
    - exists x'. cbn [cf_raw with_permissions rc_apis set_apis]. by rewrite lookup_insert.
  Qed.

  Lemma apis_before_imports (r1 r2 : raw_config) (c : config) (api : str) :
    load_imports idx ex r1 = Ok r2 -> make_paths_absolute (Some root) r2 = Ok (cf_raw c) ->
    (forall d, ~ import_source idx ex r1 api d) ->
    rc_apis r1 !! api = rc_apis (cf_raw c) !! api.
  Proof.
    intros H2 H3 Hno. rewrite make_paths_absolute_total in H3.
    assert (cf_raw c = set_packages r2 (abs_package root <$> rc_packages r2)) as -> by congruence.
    cbn [rc_apis set_packages]. destruct (load_imports_ok _ _ _ _ H2) as (L1 & _ & _).
    apply option_eq. intros d. rewrite L1. split; [auto|]. intros [?|?]; [done|]. by destruct (Hno d).
  Qed.

  (** A change of the definition of an API that does not come from another package. *)
  Lemma api_effect (api : str) (f : table -> option table) (g : api_config -> api_config)
      (P : api_config -> api_config -> Prop) (d d' : table) (c : config) :
    implements_api f g -> (forall c, P c (g c)) ->
    (forall c c' x, P c c' ->
       P (ApiConfig (ac_include c ++ ac_include x) (ac_exclude c ++ ac_exclude x) (ac_no_auto_detect c))
         (ApiConfig (ac_include c' ++ ac_include x) (ac_exclude c' ++ ac_exclude x) (ac_no_auto_detect c'))) ->
    load_document b ex idx root d = Some (Loaded c) ->
    (forall rc x, decode d = Some rc -> ~ import_source idx ex rc api x) ->
    in_table [lit "api"; api] f d = Some d' ->
    exists c', load_document b ex idx root d' = Some (Loaded c') /\ changes_api c c' api P.
  Proof.
    intros Hf Hg HP (rc & Hd & Hl)%load_document_inv Hno He.
    pose proof (decode_in_api api f g d d' rc Hf Hd He) as Hd'.
    destruct (load_config_inv _ _ _ _ _ _ Hl) as (r1 & r2 & H1 & H2 & H3 & Hval & Hc).
    destruct (parse_raw_api b P api rc r1 _ HP H1 (Hg _)) as (x' & Hp & Hx').
    assert (Hno1 : forall x, ~ import_source idx ex r1 api x).
    { intros x Hs. apply (Hno rc x Hd). unfold import_source in *. by rewrite <- (parse_raw_packages _ _ _ H1). }
    eexists. split.
    - unfold load_document. rewrite Hd'. cbn [mbind option_bind fmap option_fmap option_map]. f_equal.
      by apply (load_insert r1 _ r2 _ c api x' H2 H3 Hval Hno1 Hp).
    - apply insert_changes; [done|]. by rewrite <- (apis_before_imports r1 r2 c api).
  Qed.
End api_edits.

(** ** The [common] table *)
Definition common_is (t : table) (v : Z) (explicit : bool) (imports : list str) : Prop :=
  known common_fields t = true /\
  get (lit "version") t ≫= integer_of = Some v /\
  field (lit "explicit_build_scripts") false flag_of t = Some explicit /\
  is_Some (opt_field (lit "build_flags") texts_of t) /\
  field (lit "import_std") [] texts_of t = Some imports /\
  is_Some (field (lit "features") [] texts_of t) /\
  is_Some (opt_field (lit "profile") text_of t).

Lemma common_is_iff (t : table) (v : Z) (explicit : bool) (imports : list str) :
  common_of (Table t) = Some (v, explicit, imports) <-> common_is t v explicit imports.
Proof.
  unfold common_of, common_is. cbn [table_of mbind option_bind].
  destruct (known _ t); [|split; [done|by intros [? _]]].
  destruct (get (lit "version") t ≫= integer_of) as [a|]; cbn [mbind option_bind]; [|split; [done|naive_solver]].
  destruct (field (lit "explicit_build_scripts") false flag_of t) as [b|]; cbn [mbind option_bind]; [|split; [done|naive_solver]].
  destruct (opt_field (lit "build_flags") texts_of t) as [c|]; cbn [mbind option_bind];
    [|split; [done|intros (_ & _ & _ & [? ?] & _); done]].
  destruct (field (lit "import_std") [] texts_of t) as [d|]; cbn [mbind option_bind]; [|split; [done|naive_solver]].
  destruct (field (lit "features") [] texts_of t) as [e|]; cbn [mbind option_bind];
    [|split; [done|intros (_ & _ & _ & _ & _ & [? ?] & _); done]].
  destruct (opt_field (lit "profile") text_of t) as [f|]; cbn [mbind option_bind];
    [|split; [done|intros (_ & _ & _ & _ & _ & _ & [? ?]); done]].
  split.
  - intros [= <- <- <-]. split_and!; eauto.
  - intros (_ & [= ->] & [= ->] & _ & [= ->] & _). done.
Qed.

Lemma decode_in_common (f : table -> option table) (d d' : table) (rc rc' : raw_config) :
  decode d = Some rc -> in_table [lit "common"] f d = Some d' ->
  (forall t t', common_is t (rc_version rc) (rc_explicit_build_scripts rc) (rc_import_std rc) -> f t = Some t' ->
     common_is t' (rc_version rc') (rc_explicit_build_scripts rc') (rc_import_std rc')) ->
  rc_apis rc' = rc_apis rc -> rc_packages rc' = rc_packages rc -> rc_sandbox rc' = rc_sandbox rc ->
  rc_rustc_sandbox rc' = rc_rustc_sandbox rc ->
  decode d' = Some rc'.
Proof.
  intros Hd (u & u' & Hu & Hf & ->)%in_table_one Hc E1 E2 E3 E4.
  apply document_is_iff in Hd as (H1 & H2 & H3 & H4 & H5 & H6).
  apply document_is_iff. unfold document_is. read_put. rewrite E1, E2, E3, E4. split_and!; try done.
  rewrite get_put, str_eqb_refl. cbn [mbind option_bind].
  destruct Hu as [[E ->]|E]; rewrite E in H2; cbn [mbind option_bind] in H2; [done|].
  apply common_is_iff. apply common_is_iff in H2. by apply (Hc u u').
Qed.

Lemma decode_version (v : Z) (d d' : table) (rc : raw_config) :
  decode d = Some rc -> edit_version v d = Some d' -> decode d' = Some (set_version rc v).
Proof.
  intros Hd He. apply (decode_in_common _ d d' rc (set_version rc v) Hd He); try done.
  intros t t' (H1 & H2 & H3 & H4 & H5 & H6 & H7) Ht.
  assert (t' = put (lit "version") (Integer v) t) as -> by congruence.
  unfold common_is. read_put. rewrite get_put, str_eqb_refl. split_and!; done.
Qed.

Lemma mapM_toggle (api : str) (l : list item) (ls : list str) :
  mapM text_of l = Some ls ->
  has_value api l = bool_decide (api ∈ ls) /\
  mapM text_of (remove_value api l) = Some (remove_text api ls) /\
  mapM text_of (l ++ [Text api]) = Some (ls ++ [api]).
Proof.
  intros H. split_and!; [|by apply mapM_remove|].
  - revert ls H. induction l as [|i l IH]; intros ls; cbn.
    + intros [= <-]. symmetry. apply bool_decide_false. by intros ?%elem_of_nil.
    + destruct i as [e| | | | | |]; cbn; try done.
      destruct (mapM text_of l) as [ls'|] eqn:E; cbn; [|done]. intros [= <-].
      fold (has_value api l). rewrite (IH ls') by done. destruct (str_eqb e api) eqn:Ee; cbn [orb].
      * apply str_eqb_spec in Ee as ->. symmetry. apply bool_decide_eq_true. left.
      * apply bool_decide_ext. rewrite elem_of_cons. split; [auto|]. intros [->|?]; [|done].
        by rewrite str_eqb_refl in Ee.
  - revert ls H. induction l as [|i l IH]; intros ls; cbn.
    + by intros [= <-].
    + destruct i as [e| | | | | |]; cbn; try done.
      destruct (mapM text_of l) as [ls'|] eqn:E; cbn; [|done]. intros [= <-]. by rewrite (IH ls').
Qed.

Definition toggled (api : str) (l : list str) : list str :=
  if bool_decide (api ∈ l) then remove_text api l else l ++ [api].

Lemma decode_toggle (api : str) (d d' : table) (rc : raw_config) :
  decode d = Some rc -> in_table [lit "common"] (toggle_import api) d = Some d' ->
  decode d' = Some (set_import_std rc (toggled api (rc_import_std rc))).
Proof.
  intros Hd He. apply (decode_in_common _ d d' rc _ Hd He); try done.
  intros t t' (H1 & H2 & H3 & H4 & H5 & H6 & H7) Ht.
  assert (Hp : exists l, t' = put (lit "import_std") (Array l) t /\
    mapM text_of l = Some (toggled api (rc_import_std rc))).
  { unfold toggle_import in Ht. unfold field in H5.
    destruct (get (lit "import_std") t) as [[| | | |l| |]|] eqn:E; try done.
    - destruct (mapM_toggle api l _ H5) as (M1 & M2 & M3). unfold toggled. rewrite <- M1.
      destruct (has_value api l);
        [exists (remove_value api l)|exists (l ++ [Text api])]; (split; [congruence|done]).
    - assert (rc_import_std rc = []) as -> by congruence. exists [Text api]. split; [congruence|].
      unfold toggled. rewrite bool_decide_false; [done|]. by intros ?%elem_of_nil. }
  destruct Hp as (l & -> & Hl). unfold common_is. read_put. rewrite get_put. lits. split_and!; done.
Qed.

(** ** Versions *)
Lemma decode_update_document (n : nat) (d d' : table) (rc : raw_config) :
  decode d = Some rc -> update_document n d = Some d' -> decode d' = Some (update_fn n rc).
Proof.
  intros Hd. unfold update_document, update_fn. destruct n as [|[|[|n]]]; try (intros [= <-]; done).
  change [lit "rustc"; lit "sandbox"] with ([lit "rustc"] ++ [lit "sandbox"]). rewrite in_table_app.
  intros (u & u' & Hu & Hfu & ->)%in_table_one.
  apply in_table_one in Hfu as (w & w' & Hw & Hfw & ->).
  apply document_is_iff in Hd as (H1 & H2 & H3 & H4 & H5 & H6).
  assert (Hr : known [lit "sandbox"] u = true /\ field (lit "sandbox") sandbox_default sandbox_of u = Some (rc_rustc_sandbox rc)).
  { unfold field in H6. destruct Hu as [[E ->]|E]; rewrite E in H6; [done|].
    unfold rustc_of in H6. cbn [table_of mbind option_bind] in H6.
    destruct (known [lit "sandbox"] u); done. }
  destruct Hr as [Hk Hr].
  assert (Hs : sandbox_is w (rc_rustc_sandbox rc)).
  { apply sandbox_is_iff. unfold field in Hr. destruct Hw as [[E ->]|E]; rewrite E in Hr; [|done].
    assert (rc_rustc_sandbox rc = sandbox_default) as -> by congruence. by vm_compute. }
  apply document_is_iff. unfold document_is. read_put. rewrite common_put by (vm_compute; reflexivity).
  assert (Hx : sandbox_is w' (rc_rustc_sandbox (match sb_kind (rc_rustc_sandbox rc) with
      | None => set_rustc_sandbox rc (SandboxConfig (Some Disabled) (sb_extra_args (rc_rustc_sandbox rc))
                  (sb_allow_network (rc_rustc_sandbox rc)) (sb_bind_writable (rc_rustc_sandbox rc))
                  (sb_make_writable (rc_rustc_sandbox rc)) (sb_pass_env (rc_rustc_sandbox rc)))
      | Some _ => rc end))).
  { pose proof Hs as (S1 & S2 & S3 & S4 & S5 & S6 & S7).
    unfold opt_field in S2.
    destruct (get (lit "kind") w) as [i|] eqn:E.
    - assert (w' = w) as -> by congruence.
      destruct (kind_of i) as [k|]; [|done]. cbn in S2.
      assert (sb_kind (rc_rustc_sandbox rc) = Some k) as -> by congruence. done.
    - assert (w' = put (lit "kind") (Text (lit "Disabled")) w) as -> by congruence.
      assert (sb_kind (rc_rustc_sandbox rc) = None) as -> by congruence.
      cbn [rc_rustc_sandbox set_rustc_sandbox]. unfold sandbox_is. read_put. split_and!; done. }
  assert (Hy : field (lit "rustc") sandbox_default rustc_of (put (lit "rustc") (Table (put (lit "sandbox") (Table w') u)) d)
     = Some (rc_rustc_sandbox (match sb_kind (rc_rustc_sandbox rc) with
      | None => set_rustc_sandbox rc (SandboxConfig (Some Disabled) (sb_extra_args (rc_rustc_sandbox rc))
                  (sb_allow_network (rc_rustc_sandbox rc)) (sb_bind_writable (rc_rustc_sandbox rc))
                  (sb_make_writable (rc_rustc_sandbox rc)) (sb_pass_env (rc_rustc_sandbox rc)))
      | Some _ => rc end))).
  { rewrite field_put, str_eqb_refl. unfold rustc_of. cbn [table_of mbind option_bind].
    rewrite known_put by done. rewrite Hk. rewrite field_put, str_eqb_refl. by apply sandbox_is_iff. }
  rewrite field_put in Hy. lits.
  split_and!; destruct (sb_kind (rc_rustc_sandbox rc)); done.
Qed.

Lemma decode_preserve (n : nat) (d d' : table) (rc : raw_config) (usable : sandbox_kind -> bool)
    (b : gmap str api_config) :
  decode d = Some rc -> apply_edit usable b (UpdateConfigVersionPreserveBehaviour n) d = Some d' ->
  decode d' = Some (preserve_edit n rc).
Proof.
  intros Hd. cbn [apply_edit]. destruct (update_document n d) as [e|] eqn:E; [|done].
  cbn [mbind option_bind]. intros H. unfold preserve_edit.
  apply (decode_version _ e); [|done]. by apply (decode_update_document n d).
Qed.

(** ** Imports of packages *)
Definition imports_list (pc : package_config) : list str := default [] (pc_import pc).

Lemma implements_create_import :
  implements create_import (fun pc => set_import pc (Some (imports_list pc))).
Proof.
  intros t t' pc Hs. pose proof Hs as (H1 & H2 & H3 & H4 & H5 & H6 & H7 & H8 & H9 & H10 & H11). unfold create_import.
  unfold opt_field in H11. unfold imports_list.
  destruct (get (lit "import") t) as [[| | | |l| |]|] eqn:E; try done.
  - intros [= <-]. cbn [texts_of] in H11. destruct (mapM text_of l) as [ls|]; [|done].
    assert (pc_import pc = Some ls) as Hi by (cbn in H11; congruence). rewrite Hi. cbn [default from_option id].
    assert (set_import pc (Some ls) = pc) as ->; [|done]. destruct pc; cbn in *. by rewrite Hi.
  - assert (pc_import pc = None) as -> by congruence. intros Ht.
    assert (t' = put (lit "import") (Array []) t) as -> by congruence.
    unfold section_is. read_put. split_and!; done.
Qed.

Lemma implements_import (api : str) :
  implements (add_to_array (lit "import") [api])
    (fun pc => set_import pc (Some (insert_text api (imports_list pc)))).
Proof.
  intros t t' pc (H1 & H2 & H3 & H4 & H5 & H6 & H7 & H8 & H9 & H10 & H11) H. unfold imports_list.
  assert (Hf : field (lit "import") [] texts_of t = Some (default [] (pc_import pc))).
  { unfold field, opt_field in *. destruct (get (lit "import") t) as [i|].
    - destruct (texts_of i) as [ls|]; [|done]. assert (pc_import pc = Some ls) as -> by (cbn in H11; congruence). done.
    - assert (pc_import pc = None) as -> by congruence. done. }
  destruct (add_to_array_inv _ _ _ _ _ Hf H) as [[? _]|(l & -> & Hl)]; [done|].
  unfold section_is. read_put. cbn [texts_of]. rewrite Hl. split_and!; done.
Qed.

(** Packages that say what they import are not offered any more. *)
Lemma unused_imports_without (ex : str -> list nat -> option (gmap str api_config)) (idx : crate_index)
    (rc rc' : raw_config) (pkg : str) :
  (forall k, k <> pkg -> (rc_packages rc' !! k ≫= pc_import) = (rc_packages rc !! k ≫= pc_import)) ->
  is_Some (rc_packages rc' !! pkg ≫= pc_import) ->
  unused_imports ex idx rc' =
    filter (fun e : pkg_id * str * api_config => pi_name e.1.1 <> pkg) (unused_imports ex idx rc).
Proof.
  intros Ho [l Hl]. unfold unused_imports. induction idx as [|p idx IH]; [done|].
  cbn [map concat]. rewrite filter_app, <- IH. f_equal. clear IH.
  assert (Hm : forall r : raw_config, match rc_packages r !! pk_name p with
     | Some (PackageConfig _ _ _ _ _ _ _ _ _ (Some _)) => @nil (pkg_id * str * api_config)
     | _ => match ex (pk_name p) (pk_version p) with
            | None => []
            | Some apis => map (fun e : str * api_config => (PkgId (pk_name p) (pk_version p), e.1, e.2)) (map_to_list apis)
            end end =
     match rc_packages r !! pk_name p ≫= pc_import with
     | Some _ => []
     | None => match ex (pk_name p) (pk_version p) with
            | None => []
            | Some apis => map (fun e : str * api_config => (PkgId (pk_name p) (pk_version p), e.1, e.2)) (map_to_list apis)
            end end).
  { intros r. by destruct (rc_packages r !! pk_name p) as [[? ? ? ? ? ? ? ? ? []]|]. }
  rewrite !Hm. clear Hm. destruct (decide (pk_name p = pkg)) as [E|Hne].
  - rewrite E, Hl. destruct (rc_packages rc !! pkg ≫= pc_import); [done|]. subst pkg.
    destruct (ex (pk_name p) (pk_version p)) as [apis|]; [|done].
    induction (map_to_list apis) as [|e l' IH]; [done|]. cbn [map]. rewrite filter_cons_False; [done|]. by intros [].
  - rewrite Ho by done. destruct (rc_packages rc !! pk_name p ≫= pc_import); [done|].
    destruct (ex (pk_name p) (pk_version p)) as [apis|]; [|done].
    induction (map_to_list apis) as [|e l' IH]; [done|]. cbn [map]. rewrite filter_cons_True by done.
    by rewrite <- IH.
Qed.

Lemma finished_import (root : str) (pc : package_config) :
  pc_import (finished root pc) = (fun _ => []) <$> pc_import pc.
Proof. unfold finished. rewrite abs_package_unfold. by destruct pc. Qed.

Section import_edits.
  Context (b : gmap str api_config) (ex : str -> list nat -> option (gmap str api_config))
    (idx : crate_index) (root : str) (usable : sandbox_kind -> bool).

  (** After any change of the file that gives [pkg] an import list and leaves those of others. *)
  Lemma offered_after (rc rc' : raw_config) (c c' : config) (pkg : str) :
    load_config b ex idx (Some root) rc = Loaded c -> load_config b ex idx (Some root) rc' = Loaded c' ->
    (forall k, k <> pkg -> rc_packages rc' !! k = rc_packages rc !! k) ->
    is_Some (rc_packages rc' !! pkg ≫= pc_import) ->
    unused_imports ex idx (cf_raw c') =
      filter (fun e : pkg_id * str * api_config => pi_name e.1.1 <> pkg) (unused_imports ex idx (cf_raw c)).
  Proof.
    intros Hl Hl' Ho [l Hi]. apply unused_imports_without.
    - intros k Hk. rewrite (loaded_packages _ _ _ _ _ _ Hl), (loaded_packages _ _ _ _ _ _ Hl'), !lookup_fmap.
      by rewrite Ho.
    - rewrite (loaded_packages _ _ _ _ _ _ Hl'), lookup_fmap.
      destruct (rc_packages rc' !! pkg) as [pc|]; [|done]. cbn [fmap option_fmap option_map mbind option_bind] in Hi |- *.
      rewrite finished_import, Hi. by eexists.
  Qed.

  (** Giving a package an import list changes none of its permissions. *)
  Lemma set_import_well_formed (R R' : raw_config) (m : gmap str package_config) (pkg : str) (l : list str) :
    rc_packages R = finished root <$> m ->
    rc_packages R' = finished root <$> <[pkg := set_import (default package_default (m !! pkg)) (Some l)]> m ->
    rc_version R' = rc_version R ->
    (forall api, is_Some (rc_apis R !! api) -> is_Some (rc_apis R' !! api)) ->
    well_formed R -> well_formed R'.
  Proof.
    intros Hpk Hpk' Hver Hapi [V1 V2]. split; [by rewrite Hver|]. intros k s' sec Hsec.
    assert (Hsame : forall sec0, section R k s' = Some sec0 -> pc_allow_apis sec = pc_allow_apis sec0 ->
       (s' <> All -> sec = sec0) ->
       (forall api, api ∈ pc_allow_apis sec -> is_Some (rc_apis R' !! api)) /\ NoDup (pc_allow_apis sec) /\ (s' <> All -> subsections_absent sec)).
    { intros sec0 H0 H1 H2. destruct (V2 _ _ _ H0) as (W1 & W2 & W3). rewrite H1. split_and!; [|done|].
      - intros api Ha. by apply Hapi, W1.
      - intros Hs. rewrite H2 by done. by apply W3. }
    destruct (decide (k = pkg)) as [->|Hne].
    2: { apply (Hsame sec); [|done..]. rewrite <- Hsec. unfold section.
         by rewrite Hpk, Hpk', !lookup_fmap, lookup_insert_ne by congruence. }
    unfold section in Hsec. rewrite Hpk', lookup_fmap, lookup_insert in Hsec.
    cbn [fmap option_fmap option_map] in Hsec.
    destruct (m !! pkg) as [q|] eqn:Eq; cbn [default from_option id] in Hsec.
    - assert (Hf : finished root (set_import q (Some l)) = set_import (finished root q) (Some [])).
      { unfold finished. rewrite !abs_package_unfold. by destruct q. }
      rewrite Hf in Hsec.
      destruct s'; unfold section in Hsame; rewrite Hpk, lookup_fmap, Eq in Hsame;
        cbn [fmap option_fmap option_map] in Hsame.
      + assert (sec = set_import (finished root q) (Some [])) as -> by congruence.
        by apply (Hsame (finished root q)).
      + by apply (Hsame sec).
      + by apply (Hsame sec).
      + by apply (Hsame sec).
      + by apply (Hsame sec).
    - destruct s'; cbn in Hsec; try done. assert (pc_allow_apis sec = []) as Ha by (by injection Hsec as <-).
      rewrite Ha. split_and!; [by intros ? ?%elem_of_nil|constructor|done].
  Qed.

  Lemma set_import_permissions (R R' : raw_config) (m : gmap str package_config) (pkg : str) (l : list str)
      (sel : perm_sel) :
    rc_packages R = finished root <$> m ->
    rc_packages R' = finished root <$> <[pkg := set_import (default package_default (m !! pkg)) (Some l)]> m ->
    rc_sandbox R' = rc_sandbox R ->
    (exists p, p ∈ idx /\ pk_name p = pkg) ->
    match perms_with_inheritance R idx !! sel, perms_with_inheritance R' idx !! sel with
    | None, None => True
    | Some e, Some e' => forall a, agree a e e'
    | _, _ => False
    end.
  Proof.
    intros Hpk Hpk' Hsb (p & Hp & <-). destruct sel as [k s].
    destruct (decide (k = pk_name p)) as [->|Hne].
    2: { rewrite (isolation R' R idx k s); [by destruct (perms_with_inheritance R idx !! (k, s)); [intros []|]| |done].
         by rewrite Hpk, Hpk', !lookup_fmap, lookup_insert_ne by congruence. }
    rewrite !(effective_lookup _ idx p) by done.
    set (pc := default package_default (m !! pk_name p)) in *.
    assert (Hs : forall s', pc_section (set_import pc (Some l)) s' =
       match s' with All => Some (set_import (without_subsections pc) (Some l)) | _ => pc_section pc s' end).
    { intros s'. destruct pc, s'; done. }
    assert (Hsome : is_Some (section R' (pk_name p) s) \/ index_selector idx (pk_name p) s <->
                    is_Some (section R (pk_name p) s) \/ index_selector idx (pk_name p) s).
    { rewrite (section_finished root R' _ _ _ Hpk'), (section_finished root R m) by done.
      rewrite lookup_insert. cbn [mbind option_bind]. rewrite (Hs s).
      unfold pc. destruct (m !! pk_name p) as [q|]; cbn [default from_option id mbind option_bind].
      - destruct s; try done. split; intros _; left; by eexists.
      - destruct s; cbn; try tauto. split; intros _; right; by exists p. }
    assert (Hsec0 : forall s' a, agree a (sec0 R (pk_name p) s') (sec0 R' (pk_name p) s')).
    { intros s' a. rewrite (sec0_finished root R' _ _ _ Hpk'), (sec0_finished root R m) by done.
      rewrite lookup_insert. cbn [default from_option id]. rewrite (Hs s').
      fold pc. destruct s'; by destruct a. }
    destruct (decide (is_Some (section R' (pk_name p) s) \/ index_selector idx (pk_name p) s)) as [D|D];
    destruct (decide (is_Some (section R (pk_name p) s) \/ index_selector idx (pk_name p) s)) as [D'|D']; try tauto.
    intros a. apply eff_agree; [done|]. intros s'' _. apply Hsec0.
  Qed.

  Lemma ignore_effect (pkg : str) (d d' : table) (c : config) :
    load_document b ex idx root d = Some (Loaded c) ->
    (exists p, p ∈ idx /\ pk_name p = pkg) ->
    apply_edit usable b (IgnoreApi pkg) d = Some d' ->
    exists c', load_document b ex idx root d' = Some (Loaded c') /\
      changes_nothing c c' /\
      unused_imports ex idx (cf_raw c') =
        filter (fun e : pkg_id * str * api_config => pi_name e.1.1 <> pkg) (unused_imports ex idx (cf_raw c)).
  Proof.
    intros (rc & Hd & Hl)%load_document_inv Hidx He. cbn [apply_edit] in He.
    pose proof (decode_in_package pkg [] create_import _ d d' rc implements_create_import Hd He) as Hd'.
    set (m := <[pkg := _]> (rc_packages rc)) in Hd'.
    pose proof (loaded_packages _ _ _ _ _ _ Hl) as Hpk.
    destruct (load_config_inv _ _ _ _ _ _ Hl) as (_ & _ & _ & _ & _ & Hval & Hc). apply validate_spec in Hval.
    set (R := cf_raw c) in *. set (R' := set_packages R (finished root <$> m)).
    assert (Hl' : load_config b ex idx (Some root) (set_packages rc m) = Loaded (with_permissions idx R')).
    { rewrite (reload b ex idx root rc c m Hl).
      - fold R R'. rewrite (proj2 (validate_spec R')); [done|].
        by apply (set_import_well_formed R R' (rc_packages rc) pkg
          (imports_list (default package_default (rc_packages rc !! pkg)))).
      - intros k. unfold m. destruct (decide (k = pkg)) as [->|Hne].
        + rewrite lookup_insert. cbn [mbind option_bind]. unfold imports_of, imports_list.
          destruct (rc_packages rc !! pkg) as [q|]; cbn; [|done]. by destruct (pc_import q) as [[|]|].
        + by rewrite lookup_insert_ne by congruence. }
    exists (with_permissions idx R'). split_and!.
    - unfold load_document. rewrite Hd'. cbn [mbind option_bind fmap option_fmap option_map]. by rewrite Hl'.
    - split; [done|]. intros sel. rewrite Hc. cbn [cf_permissions with_permissions].
      by apply (set_import_permissions R R' (rc_packages rc) pkg
          (imports_list (default package_default (rc_packages rc !! pkg)))).
    - apply (offered_after rc (set_packages rc m)); [done|done| |].
      + intros k Hk. cbn [rc_packages set_packages]. unfold m. by rewrite lookup_insert_ne by congruence.
      + cbn [rc_packages set_packages]. unfold m. rewrite lookup_insert. cbn. by eexists.
  Qed.

  (** Importing one more API of a package from which nothing is imported. *)
  Lemma import_fold (pkg api : str) (v : list nat) (exported : gmap str api_config) (def : api_config)
      (d d' : table) (rc : raw_config) (c : config) :
    decode d = Some rc -> load_config b ex idx (Some root) rc = Loaded c ->
    is_newest idx pkg v -> ex pkg v = Some exported -> exported !! api = Some def ->
    rc_packages rc !! pkg ≫= imports_of = None ->
    rc_apis (cf_raw c) !! (pkg ++ lit "::" ++ api) = None ->
    apply_edit usable b (ImportApi pkg api) d = Some d' ->
    exists r1 a, parse_raw b rc = Ok r1 /\
      fold_res (import_package idx ex) (map_to_list (rc_packages r1)) (rc_apis r1) = Ok a /\
      a = rc_apis (cf_raw c) /\
      exists m, decode d' = Some (set_packages rc m) /\
        (forall k, k <> pkg -> m !! k = rc_packages rc !! k) /\
        m !! pkg = Some (set_import (default package_default (rc_packages rc !! pkg)) (Some [api])) /\
        fold_res (import_package idx ex) (map_to_list m) (rc_apis r1) =
          Ok (<[pkg ++ lit "::" ++ api := def]> a).
  Proof.
    intros Hd Hl Hv Hx Hdef Hno Hfree He. cbn [apply_edit] in He.
    pose proof (decode_in_package pkg [] _ _ d d' rc (implements_import api) Hd He) as Hd'.
    destruct (load_config_inv _ _ _ _ _ _ Hl) as (r1 & r2 & H1 & H2 & H3 & Hval & Hc).
    rewrite make_paths_absolute_total in H3.
    assert (HR : cf_raw c = set_packages r2 (abs_package root <$> rc_packages r2)) by congruence.
    unfold load_imports in H2. destruct (fold_res _ _ _) as [a|] eqn:Ea; [|done].
    assert (Hr2 : rc_apis r2 = a) by (by injection H2 as <-).
    exists r1, a. split_and!; [done|done|by rewrite HR|].
    set (pc := default package_default (rc_packages rc !! pkg)) in *.
    set (pc' := set_import pc (Some [api])).
    assert (Hpc : set_import pc (Some (insert_text api (imports_list pc))) = pc' \/ pc_import pc = Some []).
    { unfold pc', pc, imports_list, imports_of in *. destruct (rc_packages rc !! pkg) as [q|]; cbn in *; [|by left].
      destruct (pc_import q) as [[|]|]; [by right|done|by left]. }
    assert (Hpc2 : set_import pc (Some (insert_text api (imports_list pc))) = pc').
    { destruct Hpc as [?|Hp]; [done|]. unfold imports_list. by rewrite Hp. }
    cbn beta in Hd'. rewrite Hpc2 in Hd'. exists (<[pkg := pc']> (rc_packages rc)). split_and!; [done| | |].
    - intros k Hk. by rewrite lookup_insert_ne by congruence.
    - by rewrite lookup_insert.
    - rewrite (parse_raw_packages _ _ _ H1) in Ea.
      set (m := rc_packages rc) in *.
      assert (Hbase : fold_res (import_package idx ex) (map_to_list (delete pkg m)) (rc_apis r1) = Ok a).
      { destruct (m !! pkg) as [q|] eqn:Eq.
        - apply (imports_permutation idx ex _ ((pkg, q) :: map_to_list (delete pkg m))) in Ea.
          + cbn [fold_res] in Ea. unfold import_package at 1 in Ea. cbn [mbind option_bind] in Hno. unfold imports_of in Hno.
            by destruct (pc_import q) as [[|]|].
          + rewrite <- (insert_id m pkg q Eq) at 1. rewrite <- insert_delete_insert.
            apply map_to_list_insert. apply lookup_delete.
        - by rewrite delete_notin. }
      apply (imports_permutation idx ex (map_to_list (delete pkg m) ++ [(pkg, pc')])).
      + rewrite <- insert_delete_insert. rewrite map_to_list_insert by apply lookup_delete.
        symmetry. apply Permutation_cons_append.
      + assert (Happ : forall l a0 a1, fold_res (import_package idx ex) l a0 = Ok a1 ->
          fold_res (import_package idx ex) (l ++ [(pkg, pc')]) a0 = import_package idx ex a1 (pkg, pc')).
        { intros l. induction l as [|e l IH]; intros a0 a1; cbn [fold_res app].
          - intros [= <-]. by destruct (import_package idx ex a0 (pkg, pc')).
          - destruct (import_package idx ex a0 e); [|done]. apply IH. }
        rewrite (Happ _ _ _ Hbase).
        apply import_package_iff. split_and!.
        * intros q x. destruct (decide (q = pkg ++ lit "::" ++ api)) as [->|Hne].
          -- rewrite lookup_insert. split.
             ++ intros [= <-]. right. exists pkg, pc', [api], v, exported, api.
                split_and!; try done; [left|left].
             ++ intros [Hy|(k & y & i & w & z & n & Hin & Hi & Hn & Hw & Hz & Hzn & Hq)].
                ** rewrite HR in Hfree. cbn [rc_apis set_packages] in Hfree. congruence.
                ** apply elem_of_list_singleton in Hin. assert (k = pkg) as -> by congruence.
                   assert (w = v) as -> by (apply newest_version_iff in Hw, Hv; congruence).
                   apply app_inv_head, app_inv_head in Hq. subst n. congruence.
          -- rewrite lookup_insert_ne by congruence. split; [auto|].
             intros [Hy|(k & y & i & w & z & n & Hin & Hi & Hn & Hw & Hz & Hzn & Hq)]; [done|].
             exfalso. apply elem_of_list_singleton in Hin. assert (k = pkg) as -> by congruence.
             assert (y = pc') as -> by congruence. cbn in Hi. assert (i = [api]) as -> by congruence.
             apply elem_of_list_singleton in Hn. subst n. done.
        * intros q x (k & y & i & w & z & n & Hin & Hi & Hn & Hw & Hz & Hzn & Hq).
          apply elem_of_list_singleton in Hin. assert (k = pkg) as -> by congruence.
          assert (y = pc') as -> by congruence. cbn in Hi. assert (i = [api]) as -> by congruence.
          apply elem_of_list_singleton in Hn. subst n q.
          rewrite HR in Hfree. cbn [rc_apis set_packages] in Hfree. by rewrite Hr2 in Hfree.
        * intros i Hi _. exists v. split; [done|]. by eexists.
  Qed.

  Lemma import_effect (pkg api : str) (v : list nat) (exported : gmap str api_config) (def : api_config)
      (d d' : table) (rc : raw_config) (c : config) :
    decode d = Some rc -> load_config b ex idx (Some root) rc = Loaded c ->
    is_newest idx pkg v -> ex pkg v = Some exported -> exported !! api = Some def ->
    rc_packages rc !! pkg ≫= imports_of = None ->
    rc_apis (cf_raw c) !! (pkg ++ lit "::" ++ api) = None ->
    apply_edit usable b (ImportApi pkg api) d = Some d' ->
    exists c', load_document b ex idx root d' = Some (Loaded c') /\
      rc_version (cf_raw c') = rc_version (cf_raw c) /\
      rc_explicit_build_scripts (cf_raw c') = rc_explicit_build_scripts (cf_raw c) /\
      rc_sandbox (cf_raw c') = rc_sandbox (cf_raw c) /\
      rc_rustc_sandbox (cf_raw c') = rc_rustc_sandbox (cf_raw c) /\
      rc_apis (cf_raw c') = <[pkg ++ lit "::" ++ api := def]> (rc_apis (cf_raw c)) /\
      (forall sel, match cf_permissions c !! sel, cf_permissions c' !! sel with
                   | None, None => True
                   | Some e, Some e' => forall a, agree a e e'
                   | _, _ => False
                   end) /\
      unused_imports ex idx (cf_raw c') =
        filter (fun e : pkg_id * str * api_config => pi_name e.1.1 <> pkg) (unused_imports ex idx (cf_raw c)).
  Proof.
    intros Hd Hl Hv Hx Hdef Hno Hfree He.
    destruct (import_fold pkg api v exported def d d' rc c Hd Hl Hv Hx Hdef Hno Hfree He)
      as (r1 & a & H1 & Ha & Haa & m & Hd' & Hmo & Hm & Hfold).
    pose proof (loaded_packages _ _ _ _ _ _ Hl) as Hpk.
    destruct (load_config_inv _ _ _ _ _ _ Hl) as (r1' & r2 & H1' & H2 & H3 & Hval & Hc).
    assert (r1' = r1) as -> by congruence. apply validate_spec in Hval.
    rewrite make_paths_absolute_total in H3.
    assert (HR : cf_raw c = set_packages r2 (abs_package root <$> rc_packages r2)) by congruence.
    unfold load_imports in H2. rewrite Ha in H2.
    assert (Hr2 : r2 = set_packages (set_apis r1 a) (clear_import <$> rc_packages r1)) by (by injection H2 as <-).
    set (R := cf_raw c) in *.
    set (R' := set_packages (set_apis R (<[pkg ++ lit "::" ++ api := def]> (rc_apis R))) (finished root <$> m)).
    assert (Hmeq : m = <[pkg := set_import (default package_default (rc_packages rc !! pkg)) (Some [api])]> (rc_packages rc)).
    { apply map_eq. intros k. destruct (decide (k = pkg)) as [->|Hne].
      - by rewrite lookup_insert.
      - rewrite lookup_insert_ne by congruence. by apply Hmo. }
    assert (Hidx : exists p, p ∈ idx /\ pk_name p = pkg).
    { destruct Hv as [(p & Hp & Hn & _) _]. by exists p. }
    assert (Hl' : load_config b ex idx (Some root) (set_packages rc m) = Loaded (with_permissions idx R')).
    { unfold load_config. rewrite (parse_raw_set_packages b rc r1 m H1). unfold load_imports.
      cbn [rc_packages rc_apis set_packages]. rewrite Hfold, make_paths_absolute_total.
      match goal with |- match validate ?r with _ => _ end = _ => assert (r = R') as -> end.
      { rewrite Haa. unfold R'. rewrite HR, Hr2. cbn [set_packages set_apis rc_packages rc_apis].
        rewrite <- map_fmap_compose. done. }
      rewrite (proj2 (validate_spec R')); [done|].
      apply (set_import_well_formed R R' (rc_packages rc) pkg [api]); [done| |done| |done].
      - unfold R'. cbn [rc_packages set_packages]. by rewrite Hmeq.
      - intros k [x Hk]. unfold R'. cbn [rc_apis set_packages set_apis].
        destruct (decide (k = pkg ++ lit "::" ++ api)) as [->|Hne].
        + rewrite lookup_insert. by eexists.
        + rewrite lookup_insert_ne by congruence. by eexists. }
    exists (with_permissions idx R'). split_and!; try done.
    - unfold load_document. rewrite Hd'. cbn [mbind option_bind fmap option_fmap option_map]. by rewrite Hl'.
    - intros sel. rewrite Hc. cbn [cf_permissions with_permissions].
      apply (set_import_permissions R R' (rc_packages rc) pkg [api]); [done| |done|done].
      unfold R'. cbn [rc_packages set_packages]. by rewrite Hmeq.
    - apply (offered_after rc (set_packages rc m)); [done|done|done|].
      cbn [rc_packages set_packages]. rewrite Hm. cbn. by eexists.
  Qed.
End import_edits.

(** ** Built-in APIs *)
Lemma inserts_elem (vs l : list str) (y : str) : y ∈ inserts vs l <-> y ∈ vs \/ y ∈ l.
Proof. apply (inserts_facts vs l). Qed.

Lemma fold_res_snoc {A B} (f : A -> B -> res A) (l : list B) (x : B) (a a' : A) :
  fold_res f l a = Ok a' -> fold_res f (l ++ [x]) a = f a' x.
Proof.
  revert a. induction l as [|y l IH]; intros a; cbn [fold_res app].
  - intros [= <-]. by destruct (f a x).
  - destruct (f a y); [|done]. apply IH.
Qed.

Section std_edits.
  Context (b : gmap str api_config) (ex : str -> list nat -> option (gmap str api_config))
    (idx : crate_index) (root : str) (usable : sandbox_kind -> bool).

  Lemma import_std_effect (api : str) (def : api_config) (d d' : table) (rc : raw_config) (c : config) :
    decode d = Some rc -> load_config b ex idx (Some root) rc = Loaded c ->
    (forall x, ~ import_source idx ex rc api x) -> api ∉ rc_import_std rc ->
    b !! api = Some def ->
    apply_edit usable b (ImportStdApi api) d = Some d' ->
    exists c', load_document b ex idx root d' = Some (Loaded c') /\
      changes_api c c' api (includes_definition def).
  Proof.
    intros Hd Hl Hno Hapi Hdef He. cbn [apply_edit] in He.
    pose proof (decode_toggle api d d' rc Hd He) as Hd'.
    unfold toggled in Hd'. rewrite bool_decide_false in Hd' by done.
    destruct (load_config_inv _ _ _ _ _ _ Hl) as (r1 & r2 & H1 & H2 & H3 & Hval & Hc).
    assert (Hno1 : forall x, ~ import_source idx ex r1 api x).
    { intros x Hs. apply (Hno x). unfold import_source in *. by rewrite <- (parse_raw_packages _ _ _ H1). }
    pose proof (apis_before_imports ex idx root r1 r2 c api H2 H3 Hno1) as Hbefore.
    set (x0 := default api_config_default (rc_apis r1 !! api)).
    set (x' := ApiConfig (ac_include x0 ++ ac_include def) (ac_exclude x0 ++ ac_exclude def) (ac_no_auto_detect x0)).
    assert (Hp : parse_raw b (set_import_std rc (rc_import_std rc ++ [api])) =
                 Ok (set_apis r1 (<[api := x']> (rc_apis r1)))).
    { unfold parse_raw, merge_built_ins in H1 |- *. cbn [rc_import_std rc_apis set_import_std].
      destruct (fold_res (merge_built_in b) (rc_import_std rc) (rc_apis rc)) as [a|] eqn:E; [|done].
      rewrite (fold_res_snoc _ _ api _ _ E). unfold merge_built_in at 1. rewrite Hdef.
      assert (Hr1 : r1 = patched (set_import_std (set_apis rc a) [])) by (by injection H1 as <-).
      assert (Ha : rc_apis r1 = a) by (by rewrite Hr1, patched_apis).
      rewrite Ha, Hr1. rewrite <- patched_set_apis. unfold x', x0. rewrite Ha. done. }
    eexists. split.
    - unfold load_document. rewrite Hd'. cbn [mbind option_bind fmap option_fmap option_map]. f_equal.
      by apply (load_insert b ex idx root r1 _ r2 _ c api x' H2 H3 Hval Hno1 Hp).
    - apply insert_changes; [done|]. rewrite <- Hbefore. fold x0. unfold x', includes_definition.
      cbn [ac_include ac_exclude ac_no_auto_detect]. split_and!; [| |done]; intros p; by rewrite elem_of_app.
  Qed.

  Lemma inline_api_effect (api : str) (def : api_config) (d d' : table) (c : config) :
    load_document b ex idx root d = Some (Loaded c) ->
    (forall rc x, decode d = Some rc -> ~ import_source idx ex rc api x) ->
    inline_api api def d = Some d' ->
    exists c', load_document b ex idx root d' = Some (Loaded c') /\
      changes_api c c' api (includes_definition def).
  Proof.
    intros Hl Hno He.
    refine (api_effect b ex idx root api _ _ (includes_definition def) d d' c
      (implements_inline (ac_include def) (ac_exclude def)) _ _ Hl Hno He).
    - intros x. split_and!; [| |done]; intros p; cbn [more_excludes more_includes ac_include ac_exclude];
        rewrite inserts_elem; tauto.
    - intros x x' y (P1 & P2 & P3). split_and!; [| |done]; intros p; cbn [ac_include ac_exclude];
        rewrite !elem_of_app; [rewrite P1|rewrite P2]; tauto.
  Qed.
End std_edits.

(** ** One more path *)
Section path_edits.
  Context (b : gmap str api_config) (ex : str -> list nat -> option (gmap str api_config))
    (idx : crate_index) (root : str) (usable : sandbox_kind -> bool).

  Lemma extend_effect (api path : str) (d d' : table) (c : config) :
    load_document b ex idx root d = Some (Loaded c) ->
    (forall rc x, decode d = Some rc -> ~ import_source idx ex rc api x) ->
    apply_edit usable b (ExtendApi api path) d = Some d' ->
    exists c', load_document b ex idx root d' = Some (Loaded c') /\
      changes_api c c' api (one_more_include path).
  Proof.
    intros Hl Hno He.
    refine (api_effect b ex idx root api _ _ _ d d' c (implements_include [path]) _ _ Hl Hno He).
    - intros x. split_and!; try done. intros y. cbn [more_includes ac_include].
      rewrite inserts_elem, elem_of_list_singleton. done.
    - intros x x' y (P1 & P2 & P3). split_and!; cbn [ac_include ac_exclude ac_no_auto_detect]; [|congruence|done].
      intros p. rewrite !elem_of_app, (P1 p). tauto.
  Qed.

  Lemma exclude_effect (api path : str) (d d' : table) (c : config) :
    load_document b ex idx root d = Some (Loaded c) ->
    (forall rc x, decode d = Some rc -> ~ import_source idx ex rc api x) ->
    apply_edit usable b (ExcludeFromApi api path) d = Some d' ->
    exists c', load_document b ex idx root d' = Some (Loaded c') /\
      changes_api c c' api (one_more_exclude path).
  Proof.
    intros Hl Hno He.
    refine (api_effect b ex idx root api _ _ _ d d' c (implements_exclude [path]) _ _ Hl Hno He).
    - intros x. split_and!; try done. intros y. cbn [more_excludes ac_exclude].
      rewrite inserts_elem, elem_of_list_singleton. done.
    - intros x x' y (P1 & P2 & P3). split_and!; cbn [ac_include ac_exclude ac_no_auto_detect]; [congruence| |done].
      intros p. rewrite !elem_of_app, (P2 p). tauto.
  Qed.

  Lemma no_detect_effect (api pkg : str) (d d' : table) (c : config) :
    load_document b ex idx root d = Some (Loaded c) ->
    (forall rc x, decode d = Some rc -> ~ import_source idx ex rc api x) ->
    apply_edit usable b (NoDetectApi api pkg) d = Some d' ->
    exists c', load_document b ex idx root d' = Some (Loaded c') /\
      changes_api c c' api (one_more_ignored pkg).
  Proof.
    intros Hl Hno He.
    refine (api_effect b ex idx root api _ _ _ d d' c (implements_no_detect [pkg]) _ _ Hl Hno He).
    - intros x. split_and!; try done. intros y. cbn [more_ignored ac_no_auto_detect].
      rewrite inserts_elem, elem_of_list_singleton. done.
    - intros x x' y (P1 & P2 & P3). split_and!; cbn [ac_include ac_exclude ac_no_auto_detect]; [congruence..|done].
  Qed.
End path_edits.
