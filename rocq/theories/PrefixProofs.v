From Verif Require Import Base BaseFacts ApiMapModel ApiMapSpec ApiMapProofs ConfigModel ConfigProofs ProblemModel
  CollectModel CollectSpec CollectNamesProofs EditorModel EditorSpec EditorMoreProofs PrefixModel PrefixSpec.

Lemma names_read_spec (x : sym_or_debug) (names : list (list str)) (unfinished : list str) :
  names_read x names unfinished <->
  (match x with FromSymbol s => symbol_names s | FromDebug d => debug_names d end) = Some (names, unfinished).
Proof. destruct x; cbn [names_read]; by rewrite <- ?symbol_names_spec, <- ?debug_names_spec. Qed.

Lemma has_name_spec (x : sym_or_debug) (name : list str) :
  has_name x name <-> exists names, usage_names x = Some names /\ name ∈ names.
Proof.
  unfold has_name, usage_names. split.
  - intros (ns & un & ->%names_read_spec & H). exists (ns ++ [un]). split; [done|]. rewrite elem_of_app, elem_of_list_singleton. done.
  - destruct (match x with FromSymbol s => symbol_names s | FromDebug d => debug_names d end) as [[ns un]|] eqn:E;
      intros (names & En & Hin); [|discriminate].
    injection En as <-. exists ns, un. rewrite names_read_spec. rewrite elem_of_app, elem_of_list_singleton in Hin. done.
Qed.

Lemma insert_prefixes_spec (name parts : list str) (s : gset (list str)) (q : list str) :
  q ∈ insert_prefixes parts name s <->
  q ∈ s \/ exists k, k <> [] /\ k `prefix_of` name /\ q = parts ++ k.
Proof.
  revert parts s. induction name as [|x name IH]; intros parts s; cbn [insert_prefixes].
  - split; [by left|]. intros [H|(k & Hk & Hp & _)]; [done|]. by apply prefix_nil_inv in Hp.
  - rewrite IH, elem_of_union, elem_of_singleton. split.
    + intros [[->|H]|(k & Hk & Hp & ->)].
      * right. exists [x]. split_and!; [done|by apply prefix_cons, prefix_nil|done].
      * by left.
      * right. exists (x :: k). split_and!; [done|by apply prefix_cons|by rewrite <- app_assoc].
    + intros [H|(k & Hk & Hp & ->)]; [by left; right|]. destruct k as [|y k]; [done|].
      pose proof (prefix_cons_inv_1 _ _ _ _ Hp) as ->. apply prefix_cons_inv_2 in Hp.
      destruct k as [|z k]; [by left; left|].
      right. exists (z :: k). split_and!; [done|done|by rewrite <- app_assoc].
Qed.

Lemma prefixes_spec (names : list (list str)) (s : gset (list str)) (q : list str) :
  q ∈ fold_left (fun s name => insert_prefixes [] name s) names s <->
  q ∈ s \/ exists name, name ∈ names /\ q <> [] /\ q `prefix_of` name.
Proof.
  revert s. induction names as [|name names IH]; intros s; cbn [fold_left].
  - split; [by left|]. intros [H|(n & H & _)]; [done|]. by apply elem_of_nil in H.
  - rewrite IH, insert_prefixes_spec. split.
    + intros [[H|(k & Hk & Hp & ->)]|(n & Hn & H)]; [by left| |].
      * right. exists name. split_and!; [left|done|done].
      * right. exists n. split; [by right|done].
    + intros [H|(n & Hn & Hq & Hp)]; [by left; left|].
      apply elem_of_cons in Hn as [->|Hn]; [left; right; by exists q|right; by exists n].
Qed.

Lemma check_usages_spec (l : list sym_or_debug) (c : prefix_checker) :
  match check_usages c l with
  | Some c' =>
      (forall x, x ∈ l -> exists names, usage_names x = Some names) /\
      forall q, q ∈ pc_common c' <->
        (pc_num c <> 0 \/ l = [] -> q ∈ pc_common c) /\ (l <> [] -> q <> []) /\
        (forall x, x ∈ l -> exists name, has_name x name /\ q `prefix_of` name)
  | None => exists x, x ∈ l /\ usage_names x = None
  end.
Proof.
  revert c. induction l as [|x l IH]; intros c; cbn [check_usages].
  - split; [intros x Hx; by apply elem_of_nil in Hx|]. intros q. split.
    + intros H. split_and!; [done|done|]. intros x Hx. by apply elem_of_nil in Hx.
    + intros (H & _). apply H. by right.
  - destruct (usage_names x) as [names|] eqn:En; [|exists x; split; [left|done]].
    specialize (IH (check_names c names)).
    destruct (check_usages (check_names c names) l) as [c'|].
    2:{ destruct IH as (y & Hy & E). exists y. split; [by right|done]. }
    destruct IH as [Hr IH]. split.
    { intros y Hy. apply elem_of_cons in Hy as [->|Hy]; [by exists names|by apply Hr]. }
    intros q. rewrite IH. unfold check_names. cbn [pc_num pc_common].
    assert (Hx : q ∈ fold_left (fun s name => insert_prefixes [] name s) names ∅ <->
                 q <> [] /\ exists name, has_name x name /\ q `prefix_of` name).
    { rewrite prefixes_spec. split.
      - intros [H|(n & Hn & Hq & Hp)]; [by apply elem_of_empty in H|]. split; [done|].
        exists n. split; [|done]. apply has_name_spec. by exists names.
      - intros (Hq & n & Hn & Hp). right. exists n. split; [|done].
        apply has_name_spec in Hn as (ns & En' & Hn). rewrite En in En'. by injection En' as ->. }
    assert (Hc : q ∈ (if Nat.eqb (pc_num c) 0 then fold_left (fun s name => insert_prefixes [] name s) names ∅
                      else pc_common c ∩ fold_left (fun s name => insert_prefixes [] name s) names ∅) <->
                 (pc_num c <> 0 -> q ∈ pc_common c) /\ q <> [] /\
                 exists name, has_name x name /\ q `prefix_of` name).
    { destruct (Nat.eqb_spec (pc_num c) 0) as [E|E].
      - rewrite Hx. tauto.
      - rewrite elem_of_intersection, Hx. tauto. }
    rewrite Hc. split.
    + intros (H1 & H2 & H3). destruct H1 as (H1 & H4 & H5); [by left|]. split_and!; [|done|].
      * intros [H|H]; [by apply H1|discriminate].
      * intros y Hy. apply elem_of_cons in Hy as [->|Hy]; [done|by apply H3].
    + intros (H1 & H2 & H3). assert (Hq : q <> []) by (by apply H2). split_and!.
      * intros _. split_and!; [intros H; apply H1; by left|done|apply H3; left].
      * done.
      * intros y Hy. apply H3. by right.
Qed.

Lemma insert_in_order (x : str) (l : list str) : alphabetical l -> alphabetical (insert_sorted x l).
Proof.
  induction l as [|y l IH]; intros Hl; cbn [insert_sorted].
  - intros i j a b Ha Hb Hij. apply list_lookup_singleton_Some in Ha as [-> <-].
    apply list_lookup_singleton_Some in Hb as [-> <-]. lia.
  - assert (Hl' : alphabetical l).
    { intros i j a b Ha Hb Hij. apply (Hl (S i) (S j)); [done|done|lia]. }
    assert (Hy : forall z, z ∈ l -> y = z \/ bytes_lt y z).
    { intros z Hz. apply elem_of_list_lookup in Hz as [i Hi]. apply (Hl 0 (S i)); [done|done|lia]. }
    destruct (str_leb x y) eqn:E.
    + apply str_leb_spec in E.
      assert (Hx : forall z, z ∈ y :: l -> x = z \/ bytes_lt x z).
      { intros z Hz. apply elem_of_cons in Hz as [->|Hz]; [done|].
        destruct E as [->|E]; [by apply Hy|]. right. destruct (Hy _ Hz) as [<-|H]; [done|by eapply bytes_lt_trans]. }
      intros [|i] [|j] a b Ha Hb Hij; try lia.
      * injection Ha as <-. apply Hx. by eapply elem_of_list_lookup_2.
      * apply (Hl i j); [done|done|lia].
    + specialize (IH Hl').
      assert (E' : y = x \/ bytes_lt y x).
      { right. by apply str_leb_false. }
      assert (Hz : forall z, z ∈ insert_sorted x l -> y = z \/ bytes_lt y z).
      { intros z Hz. rewrite insert_sorted_perm in Hz. apply elem_of_cons in Hz as [->|Hz]; [done|by apply Hy]. }
      intros [|i] [|j] a b Ha Hb Hij; try lia.
      * injection Ha as <-. apply Hz. by eapply elem_of_list_lookup_2.
      * apply (IH i j); [done|done|lia].
Qed.

Lemma sort_in_order (l : list str) : alphabetical (sort_strs l).
Proof.
  induction l as [|x l IH]; cbn [sort_strs foldr]; [intros i j a b Ha; discriminate|by apply insert_in_order].
Qed.

Lemma common_prefixes_spec (l : list sym_or_debug) :
  match common_prefixes l with
  | Some out =>
      (forall x, x ∈ l -> ~ unreadable x) /\ alphabetical out /\
      exists paths, NoDup paths /\ out ≡ₚ map written paths /\ forall p, p ∈ paths <-> shared l p
  | None => exists x, x ∈ l /\ unreadable x
  end.
Proof.
  unfold common_prefixes. pose proof (check_usages_spec l (PrefixChecker 0 ∅)) as H.
  assert (Hu : forall x, usage_names x = None <-> unreadable x).
  { intros x. unfold usage_names, unreadable. setoid_rewrite names_read_spec.
    destruct (match x with FromSymbol s => symbol_names s | FromDebug d => debug_names d end) as [[ns un]|].
    - split; [done|]. intros Hn. by destruct (Hn ns un).
    - by split. }
  destruct (check_usages (PrefixChecker 0 ∅) l) as [c|].
  - destruct H as [Hr H]. split_and!.
    + intros x Hx Hun. apply Hu in Hun. destruct (Hr x Hx) as [ns E]. by rewrite E in Hun.
    + apply sort_in_order.
    + exists (elements (pc_common c)). split_and!; [apply NoDup_elements|apply sort_strs_perm|].
      intros p. rewrite elem_of_elements, H. cbn [pc_num pc_common]. unfold shared. split.
      * intros (H1 & H2 & H3). assert (Hl : l <> []).
        { intros ->. specialize (H1 (or_intror eq_refl)). by apply elem_of_empty in H1. }
        split_and!; [done|by apply H2|done].
      * intros (Hl & Hp & H3). split_and!; [|done|done]. intros [H1|H1]; [done|done].
  - destruct H as (x & Hx & E). exists x. split; [done|by apply Hu].
Qed.

(** ** The effect on names *)

Lemma in_api_spec (c : config) (name : list str) (api : str) :
  in_api c name api <->
  exists x, rc_apis (cf_raw c) !! api = Some x /\
    (exists p, p ∈ ac_include x /\ split_simple p `prefix_of` name) /\
    ~ (exists p, p ∈ ac_exclude x /\ split_simple p `prefix_of` name).
Proof.
  unfold in_api, owned. by setoid_rewrite covers_split.
Qed.

Lemma exclude_classified (c c' : config) (api path : str) (p : list str) :
  path = written p -> plain_path p -> changes_api c c' api (one_more_exclude path) ->
  forall name a, in_api c' name a <-> in_api c name a /\ ~ (a = api /\ p `prefix_of` name).
Proof.
  intros -> Hplain (_ & _ & _ & _ & _ & Hother & x' & Hx' & Hi & He & _) name a. rewrite !in_api_spec.
  destruct (decide (a = api)) as [->|Hne].
  - rewrite Hx'. destruct (rc_apis (cf_raw c) !! api) as [x|] eqn:Ex; cbn [default] in Hi, He.
    + split.
      * intros (y & Ey & Hinc & Hn). injection Ey as <-. rewrite Hi in Hinc. split.
        -- exists x. split_and!; [done|done|]. intros (q & Hq & Hp). apply Hn. exists q. split; [|done].
           apply He. by right.
        -- intros [_ Hp]. apply Hn. exists (written p). split; [apply He; by left|]. by rewrite split_simple_written.
      * intros ((y & Ey & Hinc & Hn) & Hnp). injection Ey as <-. exists x'. rewrite Hi. split_and!; [done|done|].
        intros (q & Hq & Hp). apply He in Hq as [->|Hq]; [|apply Hn; by exists q].
        apply Hnp. by rewrite split_simple_written in Hp.
    + split.
      * intros (y & Ey & (q & Hq & _) & _). injection Ey as <-. rewrite Hi in Hq. by apply elem_of_nil in Hq.
      * intros ((y & Ey & _) & _). discriminate.
  - rewrite (Hother a Hne). split; [intros H; split; [done|by intros [? _]]|by intros [H _]].
Qed.

Lemma include_classified (c c' : config) (api path : str) (p : list str) :
  path = written p -> plain_path p -> changes_api c c' api (one_more_include path) ->
  forall name a, in_api c' name a <->
    in_api c name a \/ (a = api /\ p `prefix_of` name /\ ~ excluded_in c api name).
Proof.
  intros -> Hplain (_ & _ & _ & _ & _ & Hother & x' & Hx' & Hi & He & _) name a. rewrite !in_api_spec.
  unfold excluded_in.
  destruct (decide (a = api)) as [->|Hne].
  - rewrite Hx'. destruct (rc_apis (cf_raw c) !! api) as [x|] eqn:Ex; cbn [default] in Hi, He.
    + split.
      * intros (y & Ey & (q & Hq & Hp) & Hn). injection Ey as <-. rewrite He in Hn.
        apply Hi in Hq as [->|Hq].
        -- right. rewrite split_simple_written in Hp by done. split_and!; [done|done|].
           intros (z & q & Ez & Hq & Hqp). injection Ez as <-. apply Hn. exists q. by rewrite <- covers_split.
        -- left. exists x. split_and!; [done|by exists q|done].
      * intros [(y & Ey & (q & Hq & Hp) & Hn)|(_ & Hp & Hn)].
        -- injection Ey as <-. exists x'. rewrite He. split_and!; [done| |done]. exists q. split; [apply Hi; by right|done].
        -- exists x'. rewrite He. split_and!; [done| |].
           ++ exists (written p). split; [apply Hi; by left|by rewrite split_simple_written].
           ++ intros (q & Hq & Hqp). apply Hn. exists x, q. by rewrite covers_split.
    + split.
      * intros (y & Ey & (q & Hq & Hp) & Hn). injection Ey as <-. apply Hi in Hq as [->|Hq]; [|by apply elem_of_nil in Hq].
        right. rewrite split_simple_written in Hp by done. split_and!; [done|done|]. intros (z & q & Ez & _). discriminate.
      * intros [(y & Ey & _)|(_ & Hp & _)]; [discriminate|]. exists x'. rewrite He. split_and!; [done| |].
        -- exists (written p). split; [apply Hi; by left|by rewrite split_simple_written].
        -- intros (q & Hq & _). by apply elem_of_nil in Hq.
  - rewrite (Hother a Hne). split; [by left|]. intros [H|(? & _)]; done.
Qed.

(** ** Which fixes are offered *)

Lemma extends_path_spec (p path : str) :
  extends_path p path = true <-> exists rest, path = p ++ lit "::" ++ rest.
Proof.
  unfold extends_path. destruct (strip_prefix p path) as [r|] eqn:E.
  - apply strip_prefix_spec in E as ->. rewrite starts_with_spec. split.
    + intros [rest ->]. by exists rest.
    + intros [rest H]. apply app_inv_head in H as ->. by exists rest.
  - split; [discriminate|]. intros [rest ->]. by rewrite strip_prefix_app in E.
Qed.

Lemma offered_paths (l : list sym_or_debug) (path : str) :
  path ∈ default [] (common_prefixes l) <->
  (forall x, x ∈ l -> ~ unreadable x) /\ exists q, path = written q /\ shared l q.
Proof.
  pose proof (common_prefixes_spec l) as H. destruct (common_prefixes l) as [out|]; cbn [default].
  - destruct H as (Hr & _ & paths & _ & Hp & Hs). change (id out) with out. rewrite Hp. change (map written paths) with (written <$> paths).
    rewrite elem_of_list_fmap. split.
    + intros (q & -> & Hq). split; [done|]. exists q. split; [done|by apply Hs].
    + intros (_ & q & -> & Hq). exists q. split; [done|by apply Hs].
  - destruct H as (x & Hx & Hu). split; [intros H; by apply elem_of_nil in H|]. intros (Hr & _). by destruct (Hr x Hx).
Qed.

Section offered.
  Context (failed_in : nat -> sandbox_config) (exported : nat -> api_config)
    (ends : bool -> api_usage -> sym_or_debug).

  Lemma not_allowing (u : api_usages) (api path : str) :
    ExcludeFromApi api path ∉ allow_api_fixes u /\ ExtendApi api path ∉ allow_api_fixes u.
  Proof.
    unfold allow_api_fixes. split; intros H; apply elem_of_list_fmap in H as (s & E & _); discriminate.
  Qed.

  Lemma exclude_fixes_spec (c : config) (a api path : str) (l : list str) :
    ExcludeFromApi api path ∈ exclude_fixes c a l <->
    api = a /\ path ∈ l /\ exists x, rc_apis (cf_raw c) !! a = Some x /\ path ∉ ac_include x /\
      exists inc rest, inc ∈ ac_include x /\ path = inc ++ lit "::" ++ rest.
  Proof.
    unfold exclude_fixes. destruct (rc_apis (cf_raw c) !! a) as [x|].
    2:{ split; [intros H; by apply elem_of_nil in H|]. intros (_ & _ & x & E & _). discriminate. }
    rewrite elem_of_list_omap. split.
    - intros (y & Hy & H). destruct (mem_str y (ac_include x)) eqn:Em; [discriminate|].
      destruct (existsb (fun p => extends_path p y) (ac_include x)) eqn:Ee; [|discriminate].
      injection H as <- <-. split_and!; [done|done|]. exists x. split_and!; [done| |].
      + intros H. apply mem_str_spec in H. congruence.
      + apply existsb_exists in Ee as (inc & Hinc & He). apply elem_of_list_In in Hinc.
        apply extends_path_spec in He as [rest ->]. by exists inc, rest.
    - intros (-> & Hl & y & Ey & Hni & inc & rest & Hinc & ->). injection Ey as <-. eexists. split; [exact Hl|].
      destruct (mem_str (inc ++ lit "::" ++ rest) (ac_include x)) eqn:Em; [by apply mem_str_spec in Em|].
      assert (Ee : existsb (fun p => extends_path p (inc ++ lit "::" ++ rest)) (ac_include x) = true).
      { apply existsb_exists. exists inc. split; [by apply elem_of_list_In|]. apply extends_path_spec. by exists rest. }
      by rewrite Ee.
  Qed.

  Lemma include_fixes_spec (c : config) (a api path : str) (l : list str) :
    ExtendApi api path ∈ include_fixes c a l <->
    api = a /\ path ∈ l /\ exists x, rc_apis (cf_raw c) !! a = Some x /\ path ∉ ac_exclude x /\ path ∉ ac_include x /\
      forall inc rest, inc ∈ ac_include x -> path <> inc ++ lit "::" ++ rest.
  Proof.
    unfold include_fixes. destruct (rc_apis (cf_raw c) !! a) as [x|].
    2:{ split; [intros H; by apply elem_of_nil in H|]. intros (_ & _ & x & E & _). discriminate. }
    rewrite elem_of_list_omap. split.
    - intros (y & Hy & H). destruct (mem_str y (ac_exclude x)) eqn:Em; [discriminate|].
      destruct (existsb (fun p => str_eqb p y || extends_path p y) (ac_include x)) eqn:Ee; [discriminate|].
      injection H as <- <-. split_and!; [done|done|]. exists x.
      assert (Hno : forall inc, inc ∈ ac_include x -> str_eqb inc y || extends_path inc y = false).
      { intros inc Hinc. destruct (str_eqb inc y || extends_path inc y) eqn:E; [|done].
        rewrite <- Ee. symmetry. apply existsb_exists. exists inc. split; [by apply elem_of_list_In|done]. }
      split_and!; [done| | |].
      + intros H. apply mem_str_spec in H. congruence.
      + intros H. specialize (Hno _ H). assert (E : str_eqb y y = true) by (by apply str_eqb_spec). rewrite E in Hno. discriminate.
      + intros inc rest Hinc E. specialize (Hno _ Hinc). apply orb_false_iff in Hno as [_ Hno].
        assert (extends_path inc y = true) by (apply extends_path_spec; by exists rest). congruence.
    - intros (-> & Hl & y & Ey & Hne & Hni & Hno). injection Ey as <-. exists path. split; [done|].
      destruct (mem_str path (ac_exclude x)) eqn:Em; [by apply mem_str_spec in Em|].
      destruct (existsb (fun p => str_eqb p path || extends_path p path) (ac_include x)) eqn:Ee; [|done].
      apply existsb_exists in Ee as (inc & Hinc & He). apply elem_of_list_In in Hinc.
      apply orb_true_iff in He as [He|He].
      + apply str_eqb_spec in He as ->. done.
      + apply extends_path_spec in He as [rest ->]. by destruct (Hno inc rest).
  Qed.

  Lemma include_no_exclude (c : config) (a api path : str) (l : list str) :
    ExcludeFromApi api path ∉ include_fixes c a l /\ ExtendApi api path ∉ exclude_fixes c a l.
  Proof.
    unfold include_fixes, exclude_fixes. destruct (rc_apis (cf_raw c) !! a) as [x|].
    - split; intros H; apply elem_of_list_omap in H as (y & _ & H).
      + destruct (mem_str y (ac_exclude x)); [discriminate|].
        by destruct (existsb (fun p => str_eqb p y || extends_path p y) (ac_include x)).
      + destruct (mem_str y (ac_include x)); [discriminate|].
        by destruct (existsb (fun p => extends_path p y) (ac_include x)).
    - split; intros H; by apply elem_of_nil in H.
  Qed.

  Lemma exclude_offered (p : problem) (u : api_usages) (c : config) (api path : str) :
    p = PDisallowedApiUsage u \/ (exists owner, p = POffTreeApiUsage u owner) ->
    ExcludeFromApi api path ∈ fixes_for_problem failed_in exported (prefixes_of ends) p c <->
    ExcludeFromApi api path ∈ exclude_fixes c (au_api u) (default [] (common_prefixes (map (ends false) (au_usages u)))).
  Proof.
    destruct (not_allowing u api path) as [Ha _].
    destruct (include_no_exclude c (au_api u) api path
                (default [] (common_prefixes (map (ends true) (au_usages u))))) as [Hi _].
    unfold prefixes_of. intros [->|[owner ->]]; cbn [fixes_for_problem]; rewrite !elem_of_app; [tauto|].
    unfold prefixes_of. tauto.
  Qed.

  Lemma include_offered (p : problem) (u : api_usages) (owner : pkg_id) (c : config) (api path : str) :
    p = POffTreeApiUsage u owner ->
    ExtendApi api path ∈ fixes_for_problem failed_in exported (prefixes_of ends) p c <->
    ExtendApi api path ∈ include_fixes c (au_api u) (default [] (common_prefixes (map (ends true) (au_usages u)))).
  Proof.
    destruct (not_allowing u api path) as [_ Ha].
    destruct (include_no_exclude c (au_api u) api path
                (default [] (common_prefixes (map (ends false) (au_usages u))))) as [_ Hi].
    unfold prefixes_of. intros ->; cbn [fixes_for_problem]; rewrite !elem_of_app. unfold prefixes_of. tauto.
  Qed.
End offered.
