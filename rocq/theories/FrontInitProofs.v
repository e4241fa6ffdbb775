(** Proofs about the initial configuration. *)
From Coq Require Import NArith.
From Verif Require Import Base BaseFacts TextModel ApiMapModel ApiMapSpec ApiMapProofs ConfigModel ConfigSpec
  ConfigProofs ConfigLoadProofs ProblemModel StoreModel TomlModel EditorModel EditorSpec EditorApiProofs
  EditorApplyProofs FrontModel FrontSpec FrontProofs.

(** ** Names in a line *)

Definition typed (line : str) : list str := filter (fun t => t <> []) (map trim (split_char ","%char line)).

Lemma names_in_typed (line : str) (names : list str) : names_in line names -> names = typed line.
Proof.
  intros (ps & ts & (Hne & Hc & ->) & Ht & ->). unfold typed. f_equal.
  change (lit ",") with [","%char]. rewrite (split_join _ ps Hne Hc).
  induction Ht as [|p t ps ts Hp Ht IH]; [done|]. cbn [map]. rewrite (trims_to_eq _ _ Hp). f_equal.
  destruct ps; [by inversion Ht|]. apply IH; [done|]. intros q Hq. apply Hc. by right.
Qed.

Lemma white_no_comma (a : str) : Forall white a -> ","%char ∉ a.
Proof. intros H Hin. eapply Forall_forall in H; [|exact Hin]. by apply is_space_spec in H. Qed.

Lemma split_char_cons_form (c : ascii) (s : str) : exists p ps, split_char c s = p :: ps.
Proof.
  destruct s as [|a s]; [by eexists _, _|]. cbn [split_char].
  destruct (Ascii.eqb a c); [by eexists _, _|]. destruct (split_char c s); by eexists _, _.
Qed.

Lemma split_prefix (c : ascii) (a s p : str) (ps : list str) :
  c ∉ a -> split_char c s = p :: ps -> split_char c (a ++ s) = (a ++ p) :: ps.
Proof.
  intros Ha Hs. induction a as [|x a IH]; [done|]. apply not_elem_of_cons in Ha as [Hx Ha].
  cbn [app split_char]. assert (Ascii.eqb x c = false) as ->.
  { apply Ascii.eqb_neq. congruence. }
  by rewrite (IH Ha).
Qed.

Lemma split_suffix (c : ascii) (b s : str) :
  c ∉ b -> exists ps p, split_char c s = ps ++ [p] /\ split_char c (s ++ b) = ps ++ [p ++ b].
Proof.
  intros Hb. induction s as [|x s (ps & p & H1 & H2)].
  - exists [], []. split; [done|]. cbn [app]. by rewrite (split_char_none c b Hb).
  - cbn [app split_char]. rewrite H1, H2. destruct (Ascii.eqb x c).
    + exists ([] :: ps), p. done.
    + destruct ps as [|q ps]; cbn [app].
      * exists [], (x :: p). done.
      * exists ((x :: q) :: ps), p. done.
Qed.

Lemma trim_prefix (a s : str) : Forall white a -> trim (a ++ s) = trim s.
Proof. intros H. unfold trim. by rewrite trim_start_white. Qed.
Lemma trim_suffix (b s : str) : Forall white b -> trim (s ++ b) = trim s.
Proof.
  intros H. apply trims_to_eq. destruct (trims_to_trim s) as (a & b' & E & H1 & H2 & H3 & H4).
  exists a, (b' ++ b). split_and!; [|done|by apply Forall_app|done|done].
  rewrite E at 1. by rewrite <- !app_assoc.
Qed.

Lemma split_trim (line : str) :
  map trim (split_char ","%char (trim line)) = map trim (split_char ","%char line).
Proof.
  destruct (trims_to_trim line) as (a & b & E & Ha & Hb & _ & _).
  destruct (split_suffix ","%char b (trim line)) as (ps & p & H1 & H2); [by apply white_no_comma|].
  destruct (split_char_cons_form ","%char (trim line ++ b)) as (q & qs & H3).
  rewrite E at 2. rewrite (split_prefix _ a _ q qs (white_no_comma _ Ha) H3), H1.
  rewrite H2 in H3. destruct ps as [|r ps]; cbn [app] in H3.
  - assert (q = p ++ b /\ qs = []) as [-> ->] by (split; congruence). cbn [map app].
    by rewrite trim_prefix, trim_suffix.
  - assert (q = r /\ qs = ps ++ [p ++ b]) as [-> ->] by (split; congruence). cbn [map app].
    by rewrite trim_prefix, !map_app; cbn [map]; rewrite ?trim_suffix.
Qed.

(** ** Toggling *)

Lemma toggled_all (l ns : list str) :
  NoDup (l ++ ns) -> foldl (fun l a => toggled a l) l ns = l ++ ns.
Proof.
  revert l. induction ns as [|n ns IH]; intros l H; cbn [foldl]; [by rewrite app_nil_r|].
  assert (Hn : toggled n l = l ++ [n]).
  { unfold toggled. rewrite bool_decide_false; [done|]. intros Hin.
    apply NoDup_app in H as (_ & H & _). apply (H n Hin). left. }
  rewrite Hn, IH; [by rewrite <- app_assoc|]. by rewrite <- app_assoc.
Qed.

Definition known_name (n : str) : Prop := n ∈ std_api_names.
Global Instance known_name_dec (n : str) : Decision (known_name n).
Proof. unfold known_name. apply _. Defined.

Section initial.
  Context (usable : sandbox_kind -> bool).

  Lemma select_parts_ok (parts : list str) : forall (d : table) (rc : raw_config),
    no_inline_tables d -> decode d = Some rc ->
    let names := filter (fun t => t <> []) (map trim parts) in
    exists d', select_parts usable parts d = Some (d', forallb (fun n => bool_decide (known_name n)) names) /\
      no_inline_tables d' /\
      decode d' = Some (set_import_std rc
        (foldl (fun l a => toggled a l) (rc_import_std rc) (filter known_name names))).
  Proof.
    induction parts as [|p parts IH]; intros d rc Hd Hdec; cbv zeta.
    - exists d. split_and!; [done|done|]. cbn. by destruct rc.
    - cbn [select_parts map]. cbv zeta. destruct (trim p) as [|x n] eqn:Et.
      + rewrite filter_cons_False by tauto. apply (IH d rc Hd Hdec).
      + rewrite filter_cons_True by done. rewrite <- Et. cbn [forallb].
        destruct (built_ins !! trim p) as [b|] eqn:Eb.
        * assert (Hk : known_name (trim p)) by (apply built_in_names; by eexists).
          destruct (toggle_edit (trim p) d rc Hd Hdec) as (d1 & E1 & Hd1 & _).
          pose proof (decode_toggle _ _ _ _ Hdec E1) as Hdec1.
          unfold apply_edit. rewrite E1. cbn [mbind option_bind].
          destruct (IH d1 _ Hd1 Hdec1) as (d2 & E2 & Hd2 & Hdec2). exists d2.
          rewrite bool_decide_true by done. rewrite filter_cons_True by done.
          split_and!; [exact E2|done|]. cbn [foldl]. rewrite Hdec2. by destruct rc.
        * assert (Hk : ~ known_name (trim p)).
          { unfold known_name. rewrite <- built_in_names, Eb. by intros [? ?]. }
          destruct (IH d rc Hd Hdec) as (d2 & E2 & Hd2 & Hdec2). exists d2.
          rewrite E2. cbn [mbind option_bind fst]. rewrite bool_decide_false by done.
          rewrite filter_cons_False by done. done.
  Qed.

  Lemma select_line_ok (line : str) (d : table) (rc : raw_config) :
    no_inline_tables d -> decode d = Some rc ->
    exists d', select_parts usable (split_char ","%char (trim line)) d
        = Some (d', forallb (fun n => bool_decide (known_name n)) (typed line)) /\
      no_inline_tables d' /\
      decode d' = Some (set_import_std rc
        (foldl (fun l a => toggled a l) (rc_import_std rc) (filter known_name (typed line)))).
  Proof.
    intros Hd Hdec. pose proof (select_parts_ok (split_char ","%char (trim line)) d rc Hd Hdec) as H.
    cbv zeta in H. rewrite split_trim in H. exact H.
  Qed.

  Lemma select_apis_ok (before : list str) (last : str) (rest : list str) : forall (d : table) (rc : raw_config),
    no_inline_tables d -> decode d = Some rc ->
    (forall line, line ∈ before -> exists n, n ∈ typed line /\ ~ known_name n) ->
    (forall n, n ∈ typed last -> known_name n) ->
    exists d', select_apis usable (before ++ last :: rest) d = Some (d', rest) /\
      decode d' = Some (set_import_std rc (foldl (fun l a => toggled a l) (rc_import_std rc)
        (filter known_name (concat (map typed (before ++ [last])))))).
  Proof.
    induction before as [|line before IH]; intros d rc Hd Hdec Hb Hl; cbn [app select_apis].
    - destruct (select_line_ok last d rc Hd Hdec) as (d1 & E1 & Hd1 & Hdec1). exists d1.
      rewrite E1. assert (forallb (fun n => bool_decide (known_name n)) (typed last) = true) as ->.
      { apply forallb_forall. intros n Hn. apply bool_decide_true, Hl, elem_of_list_In, Hn. }
      split; [done|]. cbn [map concat]. by rewrite app_nil_r.
    - destruct (select_line_ok line d rc Hd Hdec) as (d1 & E1 & Hd1 & Hdec1).
      rewrite E1. assert (forallb (fun n => bool_decide (known_name n)) (typed line) = false) as ->.
      { destruct (Hb line) as (n & Hn & Hk); [left|]. apply not_true_iff_false. rewrite forallb_forall.
        intros H. specialize (H n (proj1 (elem_of_list_In _ _) Hn)). apply Hk. by apply bool_decide_eq_true in H. }
      destruct (IH d1 _ Hd1 Hdec1) as (d2 & E2 & Hdec2); [|done|].
      { intros l' Hl'. apply Hb. by right. }
      exists d2. split; [done|]. rewrite Hdec2. cbn [map concat].
      rewrite filter_app, foldl_app. by destruct rc.
  Qed.
End initial.

(** ** The file that is written *)

Definition kind_name (k : sandbox_kind) : str :=
  match k with Disabled => lit "Disabled" | Bubblewrap => lit "Bubblewrap" end.
Definition start_document (k : sandbox_kind) : table :=
  [(lit "common", Table [(lit "version", Integer 3)]);
   (lit "sandbox", Table [(lit "kind", Text (kind_name k))])].

Lemma start_decoded (k : sandbox_kind) :
  decode (start_document k) =
  Some (RawConfig 3 false [] ∅ ∅ (SandboxConfig (Some k) [] None [] [] []) sandbox_default).
Proof. destruct k; vm_compute; reflexivity. Qed.

Lemma start_no_inline (k : sandbox_kind) : no_inline_tables (start_document k).
Proof.
  change (start_document k) with
    (put (lit "sandbox") (Table (put (lit "kind") (Text (kind_name k)) []))
      (put (lit "common") (Table (put (lit "version") (Integer 3) [])) [])).
  repeat first [apply no_inline_put | apply no_inline_nil | exact I].
Qed.

Lemma empty_packages_load (ex : str -> list nat -> option (gmap str api_config)) (idx : crate_index)
    (root : option str) (l : list str) (sb : sandbox_config) :
  (forall n, n ∈ l -> n ∈ std_api_names) ->
  exists c, load_config built_ins ex idx root (RawConfig 3 false l ∅ ∅ sb sandbox_default) = Loaded c /\
    rc_packages (cf_raw c) = ∅ /\ rc_version (cf_raw c) = 3%Z /\ rc_sandbox (cf_raw c) = sb /\
    forall api, is_Some (rc_apis (cf_raw c) !! api) -> api ∈ l.
Proof.
  intros Hl. set (file := RawConfig 3 false l ∅ ∅ sb sandbox_default).
  destruct (parse_raw built_ins file) as [r1|e] eqn:E1.
  2:{ exfalso. destruct (proj1 (parse_raw_error built_ins file) (ex_intro _ e E1)) as (i & Hi & Hb).
      apply Hl, built_in_names in Hi as [? Hi]. congruence. }
  destruct (parse_raw_apis _ _ _ E1) as [P1 _].
  assert (Hr : r1 = RawConfig 3 false [] (rc_apis r1) ∅ sb (sandbox_inherit sandbox_default sb)).
  { unfold parse_raw, merge_built_ins in E1. cbn [rc_import_std rc_apis file] in E1.
    destruct (fold_res (merge_built_in built_ins) l ∅) as [apis|]; [|done].
    assert (Hp : apply_runtime_patches (set_import_std (set_apis file apis) [])
      = RawConfig 3 false [] apis ∅ sb sandbox_default) by reflexivity.
    rewrite Hp in E1. cbn [set_rustc_sandbox rc_rustc_sandbox rc_sandbox] in E1.
    injection E1 as <-. reflexivity. }
  assert (Ha : forall api, is_Some (rc_apis r1 !! api) -> api ∈ l).
  { intros api H. apply P1 in H as [[d H]|H]; [|done]. cbn [file rc_apis] in H.
    rewrite lookup_empty in H. done. }
  clear P1. revert Hr Ha. generalize (rc_apis r1) as apis. intros apis -> Ha.
  unfold load_config. rewrite E1. unfold load_imports. cbn [rc_packages rc_apis].
  rewrite map_to_list_empty. cbn [fold_res]. rewrite fmap_empty.
  set (r2 := set_packages _ _).
  assert (E3 : make_paths_absolute root r2 = Ok r2).
  { unfold make_paths_absolute. cbn [r2 rc_packages set_packages set_apis]. rewrite map_to_list_empty. reflexivity. }
  rewrite E3.
  assert (Hv : validate r2 = []).
  { apply validate_spec. split; [cbn; lia|]. intros pkg s sec Hsec. exfalso.
    revert Hsec. unfold section. cbn [r2 rc_packages set_packages set_apis]. rewrite lookup_empty. by destruct s. }
  rewrite Hv. eexists. split; [reflexivity|]. cbn [cf_raw]. done.
Qed.

Section file.
  Context (usable : sandbox_kind -> bool).

  Lemma initial_file (kind : sandbox_kind) (before : list str) (last enter : str) (rest : list str)
      (nb : list (list str)) (nl : list str) :
    usable kind = true ->
    Forall2 names_in before nb -> names_in last nl -> selection nb nl ->
    NoDup (filter known_name (concat nb) ++ nl) ->
    exists d, missing_configuration usable kind (before ++ last :: enter :: rest) = Created d rest /\
      decode d = Some (RawConfig 3 false (filter known_name (concat nb) ++ nl) ∅ ∅
        (SandboxConfig (Some kind) [] None [] [] []) sandbox_default).
  Proof.
    intros Hu Hb Hl [S1 S2] Hnd.
    assert (Hnb : nb = map typed before).
    { clear -Hb. induction Hb as [|x y ? ? H ? IH]; [done|]. cbn [map]. by rewrite IH, (names_in_typed _ _ H). }
    pose proof (names_in_typed _ _ Hl) as Hnl.
    assert (Hfl : filter known_name nl = nl).
    { clear -S2. induction nl as [|n nl IH]; [done|]. rewrite filter_cons_True by (apply S2; left).
      rewrite IH; [done|]. intros m Hm. apply S2. by right. }
    unfold missing_configuration, create_initial_config.
    assert (Ev : edit_version max_version [] = Some [(lit "common", Table [(lit "version", Integer 3)])])
      by reflexivity.
    rewrite Ev. cbn [mbind option_bind].
    assert (Es : apply_edit usable built_ins (SelectSandbox kind) [(lit "common", Table [(lit "version", Integer 3)])]
      = Some (start_document kind)).
    { unfold apply_edit. rewrite Hu. destruct kind; reflexivity. }
    rewrite Es. cbn [mbind option_bind].
    destruct (select_apis_ok usable before last (enter :: rest) _ _ (start_no_inline kind) (start_decoded kind))
      as (d & E & Hd).
    { intros line Hline. destruct (S1 (typed line)) as (n & Hn & Hk).
      - rewrite Hnb. by apply elem_of_list_fmap_1.
      - by exists n. }
    { intros n Hn. apply S2. by rewrite Hnl. }
    rewrite E. cbn [mbind option_bind fst snd]. exists d. split; [done|]. rewrite Hd.
    cbn [rc_import_std set_import_std]. rewrite map_app, concat_app, <- Hnb. cbn [map concat].
    rewrite app_nil_r, <- Hnl, filter_app, Hfl, toggled_all; [done|]. exact Hnd.
  Qed.

  Lemma initial_configuration (kind : sandbox_kind) (before : list str) (last enter : str) (rest : list str)
      (nb : list (list str)) (nl : list str) :
    usable kind = true ->
    Forall2 names_in before nb -> names_in last nl -> selection nb nl ->
    NoDup (filter (fun n => n ∈ std_api_names) (concat nb) ++ nl) ->
    exists d, missing_configuration usable kind (before ++ last :: enter :: rest) = Created d rest /\
      forall ex idx root, exists c, load_document built_ins ex idx root d = Some (Loaded c) /\
        rc_version (cf_raw c) = 3%Z /\ sb_kind (rc_sandbox (cf_raw c)) = Some kind /\
        rc_packages (cf_raw c) = ∅ /\
        forall name, exists apis, apis_for_name (map_to_list (rc_apis (cf_raw c))) name = Some apis /\
          forall api, api ∈ apis <-> (api ∈ concat nb \/ api ∈ nl) /\ std_api name api.
  Proof.
    intros Hu Hb Hl HS Hnd. destruct (initial_file kind before last enter rest nb nl Hu Hb Hl HS Hnd) as (d & E & Hd).
    exists d. split; [done|]. intros ex idx root. unfold load_document. rewrite Hd. cbn [fmap option_fmap option_map].
    set (l := filter known_name (concat nb) ++ nl).
    assert (Hstd : forall n, n ∈ l -> n ∈ std_api_names).
    { intros n. unfold l. rewrite elem_of_app, elem_of_list_filter. intros [[H _]|H]; [done|by apply HS]. }
    destruct (empty_packages_load ex idx (Some root) l (SandboxConfig (Some kind) [] None [] [] []) Hstd)
      as (c & Ec & Hp & Hv & Hs & Ha).
    exists c. rewrite Ec. split_and!; [done|done|by rewrite Hs|done|].
    intros name. destruct (std_classification _ _ _ _ _ name Ec) as (apis & Eapis & H).
    exists apis. split; [done|]. intros api.
    assert (Hname : api ∈ std_api_names -> (api ∈ l <-> api ∈ concat nb \/ api ∈ nl)).
    { intros Hk. unfold l. rewrite elem_of_app, elem_of_list_filter. unfold known_name. tauto. }
    destruct (decide (api ∈ std_api_names)) as [Hk|Hk].
    - rewrite (H api Hk); [|apply lookup_empty]. cbn [rc_import_std]. by rewrite Hname.
    - split.
      + intros Hin. exfalso. apply Hk.
        destruct (apis_for_name_spec (map_to_list (rc_apis (cf_raw c))) name) as (a' & Ea' & H').
        assert (a' = apis) as -> by congruence. apply H' in Hin as [(d0 & q & Hd0 & Hn & _) _].
        destruct d0 as [n0 d0]. cbn in Hn. subst n0. apply elem_of_map_to_list in Hd0.
        apply Hstd, Ha. by eexists.
      + intros [_ Hs']. exfalso. apply Hk. unfold std_api_names.
        apply std_api_iff in Hs' as [[-> _]|[[-> _]|[[-> _]|[[-> _]|[[-> _]|[-> _]]]]]];
          repeat first [by left|right].
  Qed.
End file.
