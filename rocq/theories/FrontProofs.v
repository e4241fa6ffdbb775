(** Proofs about the directory, the built-in definitions, the prompt and replayed requests. *)
From Coq Require Import NArith.
From stdpp Require Import sorting.
From Verif Require Import Base BaseFacts TextModel ApiMapModel ApiMapSpec ApiMapProofs ConfigModel ConfigSpec
  ConfigProofs ConfigLoadProofs ProblemModel StoreModel TomlModel EditorModel DemangleModel DemangleSpec
  DemangleProofs IndexModel ReportModel ReportProofs PrefixProofs FrontModel FrontSpec.

(** ** The directory *)

Lemma find_manifest_spec (ex : list str -> bool) (dir : list str) :
  match find_manifest ex dir with
  | Some d => nearest_manifest ex (rev dir) d
  | None => forall d, d `prefix_of` rev dir -> ~ has_manifest ex d
  end.
Proof.
  induction dir as [|x dir IH]; cbn [find_manifest].
  - cbn [rev]. destruct (ex ([] ++ [lit "Cargo.toml"])) eqn:E.
    + split_and!; [done|exact E|]. intros o Ho _. exact Ho.
    + intros d Hd Hm. apply prefix_nil_inv in Hd as ->. unfold has_manifest in Hm. congruence.
  - destruct (ex (rev (x :: dir) ++ [lit "Cargo.toml"])) eqn:E.
    + split_and!; [done|exact E|]. intros o Ho _. exact Ho.
    + assert (Hup : forall o, o `prefix_of` rev (x :: dir) -> has_manifest ex o -> o `prefix_of` rev dir).
      { intros o Ho Hm. cbn [rev] in Ho. destruct Ho as [k Hk].
        destruct (rev k) as [|y k'] eqn:Ek.
        - assert (k = []) as -> by (rewrite <- (rev_involutive k), Ek; done).
          rewrite app_nil_r in Hk. exfalso. unfold has_manifest in Hm. rewrite <- Hk in Hm.
          cbn [rev] in E. congruence.
        - assert (k = rev k' ++ [y]) as -> by (rewrite <- (rev_involutive k), Ek; done).
          rewrite app_assoc in Hk. apply app_inj_tail in Hk as [Hk _]. exists (rev k'). done. }
      destruct (find_manifest ex dir) as [d|] eqn:F.
      * destruct IH as (H1 & H2 & H3). split_and!; [|done|].
        { etrans; [exact H1|]. cbn [rev]. by apply prefix_app_r. }
        { intros o Ho Hm. by apply H3; [apply Hup|]. }
      * intros d Hd Hm. exact (IH d (Hup d Hd Hm) Hm).
Qed.

Lemma root_nearest (ex : list str -> bool) (cwd d : list str) :
  root_path ex None (Some cwd) = Some d <-> nearest_manifest ex cwd d.
Proof.
  unfold root_path. pose proof (find_manifest_spec ex (rev cwd)) as H. rewrite rev_involutive in H.
  split.
  - intros E. rewrite E in H. exact H.
  - intros (H1 & H2 & H3). destruct (find_manifest ex (rev cwd)) as [d'|].
    + destruct H as (G1 & G2 & G3). f_equal.
      pose proof (G3 d H1 H2) as P. pose proof (H3 d' G1 G2) as Q.
      destruct P as [k ->], Q as [k' Hk]. apply (f_equal length) in Hk. rewrite !app_length in Hk.
      destruct k; [by rewrite app_nil_r|]. cbn in Hk. lia.
    + exfalso. exact (H d H1 H2).
Qed.

Lemma root_none (ex : list str -> bool) (cwd : list str) :
  root_path ex None (Some cwd) = None <-> forall d, d `prefix_of` cwd -> ~ has_manifest ex d.
Proof.
  unfold root_path. pose proof (find_manifest_spec ex (rev cwd)) as H. rewrite rev_involutive in H.
  destruct (find_manifest ex (rev cwd)) as [d|]; split; try done.
  intros G. destruct H as (H1 & H2 & _). destruct (G d H1 H2).
Qed.

(** ** The built-in definitions *)

Lemma built_in_names (api : str) : is_Some (built_ins !! api) <-> api ∈ std_api_names.
Proof.
  unfold built_ins. 
  assert (Hm : map fst built_in_list = std_api_names) by reflexivity.
  rewrite <- Hm, elem_of_list_fmap. split.
  - intros [c Hc]. apply elem_of_list_to_map_2 in Hc. by exists (api, c).
  - intros ([a c] & -> & H). apply not_eq_None_Some. intros E%not_elem_of_list_to_map. apply E.
    apply elem_of_list_fmap. by exists (a, c).
Qed.

Lemma qualified_not_std (pkg api : str) : (pkg ++ lit "::" ++ api) ∉ std_api_names.
Proof.
  intros H. assert (Hc : ":"%char ∈ pkg ++ lit "::" ++ api).
  { apply elem_of_app. right. apply elem_of_app. left. left. }
  revert H Hc. generalize (pkg ++ lit "::" ++ api). intros s Hs Hc.
  unfold std_api_names in Hs.
  repeat (apply elem_of_cons in Hs as [->|Hs];
    [revert Hc; apply (bool_decide_unpack (_ ∉ _)); vm_compute; exact I|]).
  by apply elem_of_nil in Hs.
Qed.

Lemma std_api_iff (name : list str) (api : str) :
  std_api name api <->
  (api = lit "fs" /\ (below [lit "std"; lit "fs"] name \/ below [lit "std"; lit "path"] name \/
     below [lit "std"; lit "os"; lit "linux"; lit "fs"] name \/
     below [lit "std"; lit "os"; lit "unix"; lit "fs"] name \/
     below [lit "std"; lit "os"; lit "unix"; lit "io"] name)) \/
  (api = lit "env" /\ below [lit "std"; lit "env"] name) \/
  (api = lit "net" /\ (below [lit "std"; lit "net"] name \/
     below [lit "std"; lit "os"; lit "linux"; lit "net"] name)) \/
  (api = lit "unix_sockets" /\ below [lit "std"; lit "os"; lit "unix"; lit "net"] name) \/
  (api = lit "process" /\
     (below [lit "std"; lit "process"] name \/
      below [lit "std"; lit "os"; lit "linux"; lit "process"] name \/
      below [lit "std"; lit "unix"; lit "process"] name) /\
     ~ below [lit "std"; lit "process"; lit "abort"] name /\
     ~ below [lit "std"; lit "process"; lit "exit"] name) \/
  (api = lit "terminate" /\ (below [lit "std"; lit "process"; lit "abort"] name \/
     below [lit "std"; lit "process"; lit "exit"] name)).
Proof.
  split.
  - intros [H|H|H|H|H H1 H2|H]; tauto.
  - intros [[-> H]|[[-> H]|[[-> H]|[[-> H]|[(-> & H & H1 & H2)|[-> H]]]]]]; by constructor.
Qed.

Lemma both_eq {A B} (a c : A) (b d : B) : (a, b) = (c, d) -> a = c /\ b = d.
Proof. intros H. split; [exact (f_equal fst H)|exact (f_equal snd H)]. Qed.

Lemma std_def (api : str) (b : api_config) (name : list str) :
  built_ins !! api = Some b ->
  ((exists p, p ∈ ac_include b /\ split_simple p `prefix_of` name) /\
   ~ (exists p, p ∈ ac_exclude b /\ split_simple p `prefix_of` name)) <-> std_api name api.
Proof.
  intros Hb. unfold built_ins in Hb. apply elem_of_list_to_map_2 in Hb.
  assert (Hs : forall (ps : list str) (l : list (list str)),
    map split_simple ps = l ->
    ((exists p, p ∈ ps /\ split_simple p `prefix_of` name) <-> Exists (fun q => below q name) l)).
  { intros ps l <-. rewrite Exists_exists. split.
    - intros (p & Hp & H). exists (split_simple p). split; [by apply elem_of_list_fmap_1|done].
    - intros (q & (p & -> & Hp)%elem_of_list_fmap & H). eauto. }
  assert (Hn : forall (A : Prop), (A /\ ~ Exists (fun q : list str => below q name) []) <-> A).
  { intros A. rewrite Exists_nil. tauto. }
  unfold built_in_list in Hb. rewrite std_api_iff.
  apply elem_of_cons in Hb as [Hb|Hb]; [apply both_eq in Hb as [-> ->]|
  apply elem_of_cons in Hb as [Hb|Hb]; [apply both_eq in Hb as [-> ->]|
  apply elem_of_cons in Hb as [Hb|Hb]; [apply both_eq in Hb as [-> ->]|
  apply elem_of_cons in Hb as [Hb|Hb]; [apply both_eq in Hb as [-> ->]|
  apply elem_of_cons in Hb as [Hb|Hb]; [apply both_eq in Hb as [-> ->]|
  apply elem_of_cons in Hb as [Hb|Hb]; [apply both_eq in Hb as [-> ->]|
  by apply elem_of_nil in Hb]]]]]]; cbn [perm ac_include ac_exclude].
  - rewrite (Hs _ [[lit "std"; lit "fs"]; [lit "std"; lit "os"; lit "linux"; lit "fs"];
      [lit "std"; lit "os"; lit "unix"; lit "fs"]; [lit "std"; lit "os"; lit "unix"; lit "io"];
      [lit "std"; lit "path"]]) by reflexivity; rewrite (Hs [] []) by reflexivity; rewrite Hn, !Exists_cons, Exists_nil.
    split; [tauto|].
    intros [[_ H]|[[E _]|[[E _]|[[E _]|[[E _]|[E _]]]]]]; [tauto|discriminate E..].
  - rewrite (Hs _ [[lit "std"; lit "env"]]) by reflexivity; rewrite (Hs [] []) by reflexivity; rewrite Hn, !Exists_cons, Exists_nil.
    split; [tauto|].
    intros [[E _]|[[_ H]|[[E _]|[[E _]|[[E _]|[E _]]]]]]; [discriminate E|tauto|discriminate E..].
  - rewrite (Hs _ [[lit "std"; lit "net"]; [lit "std"; lit "os"; lit "linux"; lit "net"]]) by reflexivity; rewrite (Hs [] []) by reflexivity; rewrite Hn, !Exists_cons, Exists_nil.
    split; [tauto|].
    intros [[E _]|[[E _]|[[_ H]|[[E _]|[[E _]|[E _]]]]]];
      [discriminate E|discriminate E|tauto|discriminate E..].
  - rewrite (Hs _ [[lit "std"; lit "os"; lit "unix"; lit "net"]]) by reflexivity; rewrite (Hs [] []) by reflexivity; rewrite Hn, !Exists_cons, Exists_nil.
    split; [tauto|].
    intros [[E _]|[[E _]|[[E _]|[[_ H]|[[E _]|[E _]]]]]];
      [discriminate E|discriminate E|discriminate E|tauto|discriminate E..].
  - rewrite (Hs _ [[lit "std"; lit "process"]; [lit "std"; lit "os"; lit "linux"; lit "process"];
      [lit "std"; lit "unix"; lit "process"]]) by reflexivity; rewrite (Hs _ [[lit "std"; lit "process"; lit "abort"]; [lit "std"; lit "process"; lit "exit"]]) by reflexivity; rewrite !Exists_cons, !Exists_nil.
    split; [tauto|].
    intros [[E _]|[[E _]|[[E _]|[[E _]|[(_ & H)|[E _]]]]]];
      [discriminate E|discriminate E|discriminate E|discriminate E|tauto|discriminate E].
  - rewrite (Hs _ [[lit "std"; lit "process"; lit "abort"]; [lit "std"; lit "process"; lit "exit"]]) by reflexivity; rewrite (Hs [] []) by reflexivity; rewrite Hn, !Exists_cons, !Exists_nil.
    split; [tauto|].
    intros [[E _]|[[E _]|[[E _]|[[E _]|[[E _]|[_ H]]]]]];
      [discriminate E|discriminate E|discriminate E|discriminate E|discriminate E|tauto].
Qed.

Lemma std_classification (ex : str -> list nat -> option (gmap str api_config)) (idx : crate_index)
    (root : option str) (file : raw_config) (c : config) (name : list str) :
  load_config built_ins ex idx root file = Loaded c ->
  exists apis, apis_for_name (map_to_list (rc_apis (cf_raw c))) name = Some apis /\
    forall api, api ∈ std_api_names -> rc_apis file !! api = None ->
      (api ∈ apis <-> api ∈ rc_import_std file /\ std_api name api).
Proof.
  intros Hl. destruct (apis_for_name_spec (map_to_list (rc_apis (cf_raw c))) name) as (apis & E & H).
  exists apis. split; [done|]. intros api Hstd Hnone. rewrite H.
  destruct (load_config_inv _ _ _ _ _ _ Hl) as (r1 & r2 & H1 & H2 & H3 & _ & _).
  destruct (parse_raw_apis _ _ _ H1) as [P1 P2].
  destruct (load_imports_ok _ _ _ _ H2) as (L1 & _ & _).
  assert (Ha : rc_apis (cf_raw c) = rc_apis r2) by apply (make_paths_absolute_frame _ _ _ H3).
  assert (Hr : rc_apis r2 !! api = rc_apis r1 !! api).
  { apply option_eq. intros d. rewrite L1. split; [|by left]. intros [?|Hsrc]; [done|].
    exfalso. destruct Hsrc as (pkg & pc & im & v & exp & a & Hsrc).
    assert (api = pkg ++ lit "::" ++ a) as Hq by tauto. rewrite Hq in Hstd.
    by apply qualified_not_std in Hstd. }
  assert (Ht : forall sel, touches sel (map_to_list (rc_apis (cf_raw c))) api name <->
     exists p, p ∈ sel (default api_config_default (rc_apis r1 !! api)) /\ is_Some (rc_apis r1 !! api) /\ split_simple p `prefix_of` name).
  { intros sel. unfold touches. rewrite Ha, <- Hr. split.
    - intros ([n d] & q & Hd & Hn & Hq & Hp). cbn in Hn, Hq. subst n.
      apply elem_of_map_to_list in Hd. exists q. rewrite Hd. cbn. split_and!; [done|by eexists|done].
    - intros (p & Hp & [d Hd] & Hpre). exists (api, d), p. rewrite Hd in Hp. cbn in Hp.
      split_and!; [by apply elem_of_map_to_list|done..]. }
  rewrite (Ht ac_include), (Ht ac_exclude).
  assert (Hdef : is_Some (rc_apis r1 !! api) <-> api ∈ rc_import_std file).
  { rewrite P1, Hnone. split; [intros [[? [=]]|?]; done|by right]. }
  apply built_in_names in Hstd as [b Hb]. rewrite <- (std_def api b name Hb).
  assert (Hinc : forall p, p ∈ ac_include (default api_config_default (rc_apis r1 !! api)) <->
     api ∈ rc_import_std file /\ p ∈ ac_include b).
  { intros p. rewrite (proj1 (P2 api p)), Hnone. cbn [from_option api_config_default ac_include ac_exclude]. rewrite elem_of_nil. split.
    - intros [[]|(b' & Hi & Hb' & Hp)]. rewrite Hb in Hb'. assert (b' = b) as -> by congruence. done.
    - intros [? ?]. right. by exists b. }
  assert (Hexc : forall p, p ∈ ac_exclude (default api_config_default (rc_apis r1 !! api)) <->
     api ∈ rc_import_std file /\ p ∈ ac_exclude b).
  { intros p. rewrite (proj2 (P2 api p)), Hnone. cbn [from_option api_config_default ac_include ac_exclude]. rewrite elem_of_nil. split.
    - intros [[]|(b' & Hi & Hb' & Hp)]. rewrite Hb in Hb'. assert (b' = b) as -> by congruence. done.
    - intros [? ?]. right. by exists b. }
  setoid_rewrite Hinc. setoid_rewrite Hexc. setoid_rewrite Hdef.
  split.
  - intros [(p & [Hi Hp] & _ & Hpre) Hno]. split_and!; [done|by exists p|].
    intros (q & Hq & Hqpre). apply Hno. by exists q.
  - intros (Hi & (p & Hp & Hpre) & Hno). split; [by exists p|].
    intros (q & [_ Hq] & _ & Hqpre). apply Hno. by exists q.
Qed.

(** ** Lines *)

Lemma is_space_spec (c : ascii) : is_space c = true <-> white c.
Proof.
  unfold is_space, white, between. rewrite orb_true_iff, andb_true_iff, !N.leb_le.
  rewrite (Ascii.eqb_eq c " "%char). tauto.
Qed.

Lemma trim_start_spec (s : str) :
  exists a, s = a ++ trim_start s /\ Forall white a /\
    forall c, head (trim_start s) = Some c -> ~ white c.
Proof.
  induction s as [|x s (a & H1 & H2 & H3)]; cbn [trim_start].
  - exists []. done.
  - destruct (is_space x) eqn:E.
    + exists (x :: a). split_and!; [by rewrite H1 at 1|constructor; [by apply is_space_spec|done]|done].
    + exists []. split_and!; [done|constructor|]. intros c [= <-] W. apply is_space_spec in W. congruence.
Qed.

Lemma last_rev {A} (l : list A) : last (rev l) = head l.
Proof. destruct l as [|x l]; [done|]. cbn [rev head]. by rewrite last_snoc. Qed.
Lemma head_rev {A} (l : list A) : head (rev l) = last l.
Proof. rewrite <- (rev_involutive l) at 2. by rewrite last_rev. Qed.

Lemma head_app_some {A} (l k : list A) (c : A) : head l = Some c -> head (l ++ k) = Some c.
Proof. by destruct l. Qed.

Lemma trims_to_trim (s : str) : trims_to s (trim s).
Proof.
  unfold trim. destruct (trim_start_spec s) as (a & H1 & H2 & H3).
  destruct (trim_start_spec (rev (trim_start s))) as (b & G1 & G2 & G3).
  assert (E : trim_start s = rev (trim_start (rev (trim_start s))) ++ rev b).
  { rewrite <- rev_app_distr, <- G1. by rewrite rev_involutive. }
  exists a, (rev b). split_and!; [by rewrite <- E|done|by apply Forall_rev| |].
  - intros c Hc. apply H3. rewrite E. by apply head_app_some.
  - intros c Hc. rewrite last_rev in Hc. by apply G3.
Qed.

Lemma trim_start_white (a s : str) : Forall white a -> trim_start (a ++ s) = trim_start s.
Proof.
  induction 1 as [|x a Hx Ha IH]; [done|]. cbn [app trim_start]. apply is_space_spec in Hx. by rewrite Hx.
Qed.
Lemma trim_start_stop (s : str) :
  (forall c, head s = Some c -> ~ white c) -> trim_start s = s.
Proof.
  destruct s as [|x s]; [done|]. intros H. cbn [trim_start]. destruct (is_space x) eqn:E; [|done].
  apply is_space_spec in E. by destruct (H x).
Qed.

Lemma trims_to_eq (s m : str) : trims_to s m -> trim s = m.
Proof.
  intros (a & b & -> & Ha & Hb & Hh & Hl). unfold trim. rewrite trim_start_white by done.
  destruct m as [|x m].
  - cbn [app]. assert (E : trim_start b = []).
    { rewrite <- (app_nil_r b), trim_start_white by done. done. }
    by rewrite E.
  - rewrite (trim_start_stop ((x :: m) ++ b)) by (intros c Hc; by apply Hh).
    rewrite rev_app_distr, trim_start_white by by apply Forall_rev.
    rewrite trim_start_stop; [by rewrite rev_involutive|].
    intros c Hc. rewrite head_rev in Hc. by apply Hl.
Qed.

Lemma lower_space (c : ascii) : is_space (lower c) = is_space c.
Proof. destruct c as [[] [] [] [] [] [] [] []]; reflexivity. Qed.
Lemma lower_digit (c : ascii) : is_digit (lower c) = is_digit c.
Proof. destruct c as [[] [] [] [] [] [] [] []]; reflexivity. Qed.
Lemma lower_digit_same (c : ascii) : is_digit c = true -> lower c = c.
Proof. destruct c as [[] [] [] [] [] [] [] []]; (reflexivity || discriminate). Qed.
Lemma lower_plus (c : ascii) : Ascii.eqb (lower c) "+"%char = Ascii.eqb c "+"%char.
Proof. destruct c as [[] [] [] [] [] [] [] []]; reflexivity. Qed.
Lemma lower_d (c : ascii) :
  Ascii.eqb (lower c) "d"%char = Ascii.eqb c "d"%char || Ascii.eqb c "D"%char.
Proof. destruct c as [[] [] [] [] [] [] [] []]; reflexivity. Qed.

Lemma white_lower (c : ascii) : white (lower c) <-> white c.
Proof. by rewrite <- !is_space_spec, lower_space. Qed.

Lemma trim_lower (s : str) : trim (map lower s) = map lower (trim s).
Proof.
  apply trims_to_eq. destruct (trims_to_trim s) as (a & b & E & Ha & Hb & Hh & Hl).
  assert (Hw : forall l, Forall white l -> Forall white (map lower l)).
  { intros l. induction 1; constructor; [by apply white_lower|done]. }
  exists (map lower a), (map lower b). split_and!; [by rewrite E at 1; rewrite !map_app|by apply Hw|by apply Hw| |].
  - intros c Hc. destruct (trim s) as [|x m]; [done|]. cbn in Hc. assert (c = lower x) as -> by congruence.
    rewrite white_lower. by apply Hh.
  - intros c Hc. rewrite <- head_rev, <- map_rev in Hc.
    destruct (rev (trim s)) as [|x m] eqn:Er; [done|]. cbn in Hc. assert (c = lower x) as -> by congruence.
    rewrite white_lower. apply Hl. rewrite <- head_rev, Er. done.
Qed.

(** ** Numbers *)

Lemma digit_char_iff (c : ascii) : digit_char c <-> is_digit c = true.
Proof. unfold digit_char, is_digit, between. rewrite andb_true_iff, !N.leb_le. tauto. Qed.

Lemma decimal_loop_all (s : str) (v r : N) (n len : nat) :
  decimal_loop v n s = Some (r, len) -> len = n + length s -> Forall digit_char s.
Proof.
  revert v n. induction s as [|c s IH]; intros v n H Hl; [constructor|].
  cbn [decimal_loop] in H. cbn [length] in Hl. destruct (is_digit c) eqn:E.
  - destruct (N.leb _ _); [|done]. constructor; [by apply digit_char_iff|].
    apply (IH _ _ H). lia.
  - assert (len = n) by congruence. lia.
Qed.

Lemma parse_usize_all (s : str) (r : N) : parse_usize s = Some r -> s <> [] /\ Forall digit_char s.
Proof.
  unfold parse_usize. destruct s as [|c s]; [done|]. intros H. split; [done|].
  destruct (decimal_loop 0 0 (c :: s)) as [[v len]|] eqn:E; [|done].
  destruct (Nat.eqb len (length (c :: s))) eqn:El; [|done]. apply Nat.eqb_eq in El.
  eapply decimal_loop_all; [exact E|exact El].
Qed.

Lemma parse_level_spec (s : str) (n : nat) :
  parse_level s = Some n <-> numeral s (N.of_nat n) /\ (N.of_nat n <= u64_max)%N.
Proof.
  unfold parse_level.
  assert (Hd : forall ds, parse_usize ds = Some (N.of_nat n) <->
    (ds <> [] /\ Forall digit_char ds /\
      N.of_nat n = fold_left (fun v d => v * 10 + (N_of_ascii d - 48))%N ds 0%N) /\ (N.of_nat n <= u64_max)%N).
  { intros ds. split.
    - intros H. destruct (parse_usize_all _ _ H) as [H1 H2].
      rewrite parse_usize_digits in H; [|exact H2|exact H1]. cbv zeta in H.
      destruct (N.leb _ _) eqn:E; [|done]. apply N.leb_le in E.
      assert (N.of_nat n = fold_left (fun v d => v * 10 + (N_of_ascii d - 48))%N ds 0%N) as Hn by congruence.
      split; [done|]. by rewrite Hn.
    - intros ((H1 & H2 & H3) & H4). rewrite parse_usize_digits; [|exact H2|exact H1]. cbv zeta.
      rewrite <- H3. apply N.leb_le in H4. by rewrite H4. }
  assert (Ho : forall o : option N, option_map N.to_nat o = Some n <-> o = Some (N.of_nat n)).
  { intros [o|]; cbn; [|done]. split; [intros [= <-]; by rewrite N2Nat.id|intros [= ->]; by rewrite Nat2N.id]. }
  rewrite Ho. unfold numeral. destruct s as [|c s].
  - rewrite Hd. split.
    + intros ((H1 & _) & _). done.
    + intros ((ds & [<-|H] & H1 & _) & _); done.
  - destruct (Ascii.eqb c "+"%char) eqn:E.
    + apply Ascii.eqb_eq in E as ->. rewrite Hd. split.
      * intros (H1 & H2). split; [|done]. exists s. tauto.
      * intros ((ds & [H|H] & H1 & H2 & H3) & H4).
        -- rewrite <- H in H2. apply Forall_cons in H2 as [H2 _]. by apply digit_char_iff in H2.
        -- assert (ds = s) as -> by congruence. done.
    + assert (Hs : (match c :: s with "+"%char :: s' => s' | _ => c :: s end) = c :: s).
      { destruct c as [[] [] [] [] [] [] [] []]; done. }
      rewrite Hs, Hd. split.
      * intros (H1 & H2). split; [|done]. exists (c :: s). tauto.
      * intros ((ds & [H|H] & H1 & H2 & H3) & H4).
        -- by rewrite H.
        -- assert (c = "+"%char) as -> by congruence. done.
Qed.

Lemma numeral_lower (s : str) (n : N) : numeral (map lower s) n <-> numeral s n.
Proof.
  assert (Hm : forall ds, Forall digit_char (map lower ds) <-> Forall digit_char ds).
  { intros ds. rewrite Forall_map. apply Forall_proper; [|done]. intros c. cbn.
    by rewrite !digit_char_iff, lower_digit. }
  assert (Hs : forall ds, Forall digit_char ds -> map lower ds = ds).
  { induction 1 as [|c ds Hc _ IH]; [done|]. cbn [map]. rewrite IH, lower_digit_same; [done|].
    by apply digit_char_iff. }
  unfold numeral. split.
  - intros (ds & Hor & H1 & H2 & H3).
    destruct Hor as [E|E].
    + assert (Forall digit_char s) as Hd by (rewrite <- Hm, E; done). rewrite Hs in E by done.
      exists ds. split; [by left|done].
    + destruct s as [|c s]; [done|]. cbn [map] in E.
      assert (lower c = "+"%char /\ map lower s = ds) as [Hc <-] by (split; congruence).
      assert (c = "+"%char) as ->.
      { apply Ascii.eqb_eq. rewrite <- lower_plus, Hc. done. }
      exists s. assert (Forall digit_char s) as Hd by (by rewrite <- Hm).
      rewrite (Hs s Hd) in H1, H2, H3. split; [by right|done].
  - intros (ds & Hor & H1 & H2 & H3). exists ds. split; [|done].
    destruct Hor as [->| ->]; [left|right]; cbn [map]; by rewrite Hs.
Qed.

(** ** The prompt *)

Lemma fix_index_spec (s : str) (k i : nat) :
  (N.of_nat k <= u64_max)%N ->
  fix_index s k = Some i <-> i < k /\ numeral s (N.of_nat (S i)).
Proof.
  intros Hk. unfold fix_index. split.
  - destruct (parse_level s) as [n|] eqn:E; [|done]. apply parse_level_spec in E as [E _].
    destruct (Nat.ltb n 1 || Nat.ltb k n) eqn:B; [done|]. apply orb_false_iff in B as [B1 B2].
    apply Nat.ltb_ge in B1, B2. intros [= <-]. split; [lia|].
    replace (S (n - 1)) with n by lia. done.
  - intros [Hi Hn]. assert (E : parse_level s = Some (S i)).
    { apply parse_level_spec. split; [done|lia]. }
    rewrite E. replace (Nat.ltb (S i) 1) with false by done.
    assert (Nat.ltb k (S i) = false) as -> by (apply Nat.ltb_ge; lia). cbn. f_equal. lia.
Qed.

Lemma numeral_no_d (m : str) (n : N) : numeral m n -> strip_prefix (lit "d") m = None.
Proof.
  intros (ds & [->| ->] & H1 & H2 & _); [|reflexivity].
  destruct ds as [|c ds]; [done|]. apply Forall_cons in H2 as [Hc _].
  apply strip_prefix_None. destruct (starts_with (lit "d") (c :: ds)) eqn:E; [|done].
  apply starts_with_spec in E as [k E]. assert (c = "d"%char) as -> by (cbn in E; congruence).
  by apply digit_char_iff in Hc.
Qed.

Lemma strip_d_lower (m : str) :
  strip_prefix (lit "d") (map lower m) =
  match m with
  | c :: rest => if Ascii.eqb c "d"%char || Ascii.eqb c "D"%char then Some (map lower rest) else None
  | [] => None
  end.
Proof.
  destruct m as [|c m]; [done|]. cbn [map]. rewrite <- lower_d.
  destruct (Ascii.eqb (lower c) "d"%char) eqn:E.
  - apply Ascii.eqb_eq in E. rewrite E. exact (strip_prefix_app (lit "d") (map lower m)).
  - apply strip_prefix_None. destruct (starts_with (lit "d") (lower c :: map lower m)) eqn:S; [|done].
    apply starts_with_spec in S as [k S]. assert (lower c = "d"%char) by (cbn in S; congruence).
    by apply Ascii.eqb_neq in E.
Qed.

Lemma line_action_apply (line : str) (k i : nat) :
  (N.of_nat k <= u64_max)%N -> line_action line k = Some (ApplyFix i) <-> chooses k line i.
Proof.
  intros Hk. unfold line_action, chooses. cbv zeta. rewrite trim_lower. split.
  - destruct (strip_prefix _ _) as [rest|] eqn:E.
    + by destruct (fix_index rest k).
    + destruct (fix_index _ k) as [j|] eqn:F; [|done]. intros [= ->].
      apply fix_index_spec in F as [Hi F]; [|done]. split; [done|].
      exists (trim line). split; [apply trims_to_trim|]. by apply numeral_lower.
  - intros (Hi & m & Hm & Hn). apply trims_to_eq in Hm. subst m.
    apply numeral_lower in Hn. rewrite (numeral_no_d _ _ Hn).
    assert (F : fix_index (map lower (trim line)) k = Some i) by (by apply fix_index_spec).
    by rewrite F.
Qed.

Lemma line_action_diff (line : str) (k i : nat) :
  (N.of_nat k <= u64_max)%N -> line_action line k = Some (ShowDiff i) <-> asks_for_difference k line i.
Proof.
  intros Hk. unfold line_action, asks_for_difference. cbv zeta. rewrite trim_lower, strip_d_lower. split.
  - destruct (trim line) as [|c rest] eqn:Et; [by destruct (fix_index _ k)|].
    destruct (Ascii.eqb c "d"%char || Ascii.eqb c "D"%char) eqn:E; [|by destruct (fix_index _ k)].
    destruct (fix_index _ k) as [j|] eqn:F; [|done]. intros [= ->].
    apply fix_index_spec in F as [Hi F]; [|done]. split; [done|].
    exists c, rest. split_and!.
    + rewrite <- Et. apply trims_to_trim.
    + apply orb_true_iff in E as [E|E]; apply Ascii.eqb_eq in E; tauto.
    + by apply numeral_lower.
  - intros (Hi & c & m & Hm & Hc & Hn). apply trims_to_eq in Hm. rewrite Hm.
    assert (Ascii.eqb c "d"%char || Ascii.eqb c "D"%char = true) as -> by (by destruct Hc as [->| ->]).
    apply numeral_lower in Hn.
    assert (F : fix_index (map lower m) k = Some i) by (by apply fix_index_spec).
    by rewrite F.
Qed.

Section prompt.
  Context (apply : edit -> table -> option table).

  Lemma prompt_chosen (fixes : list edit) (s : prompt_state) (line : str) (t : N) (i : nat) (e : edit)
      (d d' : table) :
    (N.of_nat (length fixes) <= u64_max)%N ->
    chooses (length fixes) line i -> fixes !! i = Some e -> ps_file s = Doc d -> apply e d = Some d' ->
    prompt_step apply fixes s (EvLine line (Some t)) = Ends (PromptState (Doc d') (Some t) (Some t)) Fixed.
  Proof.
    intros Hk Hc He Hf Ha. apply line_action_apply in Hc; [|done].
    unfold prompt_step. rewrite Hc, Hf. cbn [from_file]. rewrite He. cbn [mbind option_bind]. by rewrite Ha.
  Qed.

  Lemma prompt_diff (fixes : list edit) (s : prompt_state) (line : str) (w : option N) (i : nat) (e : edit)
      (d d' : table) :
    (N.of_nat (length fixes) <= u64_max)%N ->
    asks_for_difference (length fixes) line i -> fixes !! i = Some e -> ps_file s = Doc d ->
    apply e d = Some d' ->
    prompt_step apply fixes s (EvLine line w) = Stays s [ODiff i d d'].
  Proof.
    intros Hk Hc He Hf Ha. apply line_action_diff in Hc; [|done].
    unfold prompt_step. rewrite Hc, Hf. cbn [from_file]. rewrite He. cbn [mbind option_bind]. by rewrite Ha.
  Qed.

  Lemma prompt_invalid (fixes : list edit) (s : prompt_state) (line : str) (w : option N) :
    (N.of_nat (length fixes) <= u64_max)%N ->
    (forall i, ~ chooses (length fixes) line i /\ ~ asks_for_difference (length fixes) line i) ->
    prompt_step apply fixes s (EvLine line w) = Stays s [OInvalid].
  Proof.
    intros Hk H. unfold prompt_step.
    destruct (line_action line (length fixes)) as [[i|i]|] eqn:E; [| |done]; exfalso.
    - apply line_action_apply in E; [|done]. by destruct (H i).
    - apply line_action_diff in E; [|done]. by destruct (H i).
  Qed.

  (** How the file changes during a prompt. *)
  Lemma prompt_writes (fixes : list edit) (evs : list prompt_event) : forall (s s' : prompt_state)
      (o : list prompt_output) (en : prompt_end) (rest : list prompt_event),
    (N.of_nat (length fixes) <= u64_max)%N ->
    prompt_for_fix apply fixes s evs = (s', o, en, rest) ->
    exists used, evs = used ++ rest /\
      match en with
      | Fixed => exists before line t i e d d', used = before ++ [EvLine line (Some t)] /\
          chooses (length fixes) line i /\ fixes !! i = Some e /\
          (changed_by_others (ps_file s) before = Doc d \/
           changed_by_others (ps_file s) before = NotReadable /\ d = []) /\
          apply e d = Some d' /\ ps_file s' = Doc d'
      | _ => ps_file s' = changed_by_others (ps_file s) used
      end.
  Proof.
    induction evs as [|ev evs IH]; intros s s' o en rest Hk H; cbn [prompt_for_fix] in H.
    - injection H as <- <- <- <-. exists []. done.
    - assert (Hstep : match prompt_step apply fixes s ev with
        | Stays s1 _ => ps_file s1 = last_change (ps_file s) ev
        | Ends s1 Fixed => exists line t i e d d', ev = EvLine line (Some t) /\
            chooses (length fixes) line i /\ fixes !! i = Some e /\
            (ps_file s = Doc d \/ ps_file s = NotReadable /\ d = []) /\
            apply e d = Some d' /\ ps_file s1 = Doc d'
        | Ends s1 _ => ps_file s1 = last_change (ps_file s) ev
        end).
      { unfold prompt_step. destruct ev as [f t|line w|]; cbn [last_change]; [done| |by case_bool_decide].
        destruct (line_action line (length fixes)) as [[i|i]|] eqn:E; [| |done].
        - destruct (from_file (ps_file s)) as [d|] eqn:Ef; [|done].
          destruct (fixes !! i) as [e|] eqn:Ee; cbn [mbind option_bind]; [|done].
          destruct (apply e d) as [d'|] eqn:Ea; [|done]. destruct w as [t|]; [|done].
          exists line, t, i, e, d, d'. split_and!; [done|by apply line_action_apply|done| |done|done].
          destruct (ps_file s) as [| |d0]; cbn in Ef; [right|done|left]; [|congruence].
          split; [done|congruence].
        - destruct (from_file (ps_file s)) as [d|] eqn:Ef; [|done].
          destruct (fixes !! i) as [e|] eqn:Ee; cbn [mbind option_bind]; [|done].
          destruct (apply e d) as [d'|] eqn:Ea; [|done]. by destruct (ps_file s) eqn:Efs. }
      destruct (prompt_step apply fixes s ev) as [s1 o1|s1 e1] eqn:Es.
      + destruct (prompt_for_fix apply fixes s1 evs) as [[[s2 o2] e2] r2] eqn:Er.
        injection H as -> <- -> ->. destruct (IH _ _ _ _ _ Hk Er) as (used & -> & Hu).
        exists (ev :: used). split; [done|]. rewrite Hstep in Hu.
        destruct en; [|exact Hu..].
        destruct Hu as (before & line & t & i & e & d & d' & -> & Hu).
        exists (ev :: before), line, t, i, e, d, d'. split; [done|exact Hu].
      + injection H as -> <- -> ->. exists [ev]. split; [done|].
        destruct en; [|exact Hstep..].
        destruct Hstep as (line & t & i & e & d & d' & -> & Hu).
        exists [], line, t, i, e, d, d'. split; [done|exact Hu].
  Qed.
End prompt.
