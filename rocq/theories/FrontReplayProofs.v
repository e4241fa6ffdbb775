(** Proofs about requests that are saved and replayed, and about offered imports. *)
From Coq Require Import NArith.
From stdpp Require Import sorting.
From Verif Require Import Base BaseFacts ApiMapModel ConfigModel ConfigSpec ConfigProofs ConfigLoadProofs ProblemModel
  StoreModel TomlModel EditorModel ReloadProofs EditorApiProofs ReportModel SummaryProofs ReportProofs FrontModel FrontSpec.

Definition le_str (a b : str) : Prop := str_leb a b = true.

Lemma insert_sorted_Sorted (x : str) (l : list str) : Sorted le_str l -> Sorted le_str (insert_sorted x l).
Proof.
  induction 1 as [|y l Hl IH Hy]; cbn [insert_sorted]; [repeat constructor|].
  destruct (str_leb x y) eqn:E; [repeat constructor; done|].
  constructor; [exact IH|]. assert (Hyx : le_str y x).
  { exact (str_leb_total x y E). }
  destruct l as [|z l]; cbn [insert_sorted]; [by constructor|]. destruct (str_leb x z); constructor; [done|].
  by inversion Hy.
Qed.
Lemma sort_strs_Sorted (l : list str) : Sorted le_str (sort_strs l).
Proof. induction l as [|x l IH]; [constructor|]. by apply insert_sorted_Sorted. Qed.

Global Instance le_str_trans : Transitive le_str.
Proof. intros a b c H1 H2. exact (str_leb_trans a b c H1 H2). Qed.
Global Instance le_str_antisym : AntiSymm (=) le_str.
Proof. intros a b H1 H2. exact (str_leb_antisym a b H1 H2). Qed.

(** ** The names *)
Definition rpc_names (k : nat) : list str := map rpc_name (seq 0 k).

Fixpoint strictly (l : list str) : bool :=
  match l with
  | a :: (b :: _) as l' => str_leb a b && negb (str_eqb a b) && strictly l'
  | _ => true
  end.
Lemma strictly_thousand : strictly (rpc_names 1000) = true.
Proof. vm_compute. reflexivity. Qed.

Lemma strictly_sorted (l : list str) : strictly l = true -> Sorted le_str l.
Proof.
  induction l as [|a l IH]; [constructor|]. destruct l as [|b l]; [repeat constructor|].
  cbn [strictly]. rewrite !andb_true_iff. intros [[H1 _] H2]. constructor; [by apply IH|]. by constructor.
Qed.

Lemma strictly_head (a : str) (l : list str) : strictly (a :: l) = true -> a ∉ l.
Proof.
  intros H. pose proof (strictly_sorted _ H) as Hs. apply Sorted_StronglySorted in Hs; [|apply _].
  destruct l as [|b l]; [by intros ?%elem_of_nil|].
  cbn [strictly] in H. rewrite !andb_true_iff in H. destruct H as [[H1 H2] H3].
  apply negb_true_iff in H2. assert (Hab : a <> b) by (intros E; apply str_eqb_spec in E; congruence).
  intros [Hin|Hin]%elem_of_cons; [done|].
  apply StronglySorted_inv in Hs as [Hs _]. apply StronglySorted_inv in Hs as [_ Hs].
  apply Hab. apply (str_leb_antisym a b H1). eapply Forall_forall in Hs; [|exact Hin]. exact Hs.
Qed.

Lemma strictly_NoDup (l : list str) : strictly l = true -> NoDup l.
Proof.
  induction l as [|a l IH]; [constructor|]. intros H. constructor; [by apply strictly_head|].
  apply IH. destruct l as [|b l]; [done|]. apply andb_true_iff in H as [_ H]. exact H.
Qed.

Lemma strictly_app (l k : list str) : strictly (l ++ k) = true -> strictly l = true.
Proof.
  induction l as [|a l IH]; [done|]. destruct l as [|b l]; [done|].
  cbn [app strictly]. rewrite !andb_true_iff. intros [H1 H2]. split; [done|]. by apply IH.
Qed.

Lemma rpc_names_strictly (k : nat) : k <= 1000 -> strictly (rpc_names k) = true.
Proof.
  intros Hk. apply (strictly_app _ (map rpc_name (seq k (1000 - k)))). unfold rpc_names.
  rewrite <- map_app. replace (seq 0 k ++ seq k (1000 - k)) with (seq 0 1000); [apply strictly_thousand|].
  replace 1000 with (k + (1000 - k)) at 1 by lia. by rewrite seq_app.
Qed.

(** ** Saving and replaying *)
Section saved.
  Context {R S : Type} (print : R -> str) (parse : str -> option R)
    (handle : S -> R -> S * option outcome).

  Lemma saved_files_nodup (rs : list R) :
    NoDup (rpc_names (length rs)) ->
    map_to_list (foldl (save_request print) ∅ rs) ≡ₚ zip (rpc_names (length rs)) (map print rs).
  Proof.
    induction rs as [|r rs IH] using rev_ind; intros Hl; [done|].
    rewrite foldl_app. cbn [foldl].
    assert (Hnames : rpc_names (length (rs ++ [r])) = rpc_names (length rs) ++ [rpc_name (length rs)]).
    { unfold rpc_names. rewrite app_length. cbn [length]. rewrite seq_app, map_app. done. }
    rewrite Hnames in Hl. apply NoDup_app in Hl as (Hl & Hnd & _).
    specialize (IH Hl). set (dir := foldl (save_request print) ∅ rs) in *.
    assert (Hsize : size dir = length rs).
    { unfold size, map_size. rewrite IH, zip_with_length, map_length. unfold rpc_names.
      rewrite map_length, seq_length. lia. }
    unfold save_request at 1. rewrite Hsize.
    assert (Hnew : dir !! rpc_name (length rs) = None).
    { destruct (dir !! rpc_name (length rs)) as [t|] eqn:E; [|done]. exfalso.
      apply elem_of_map_to_list in E. rewrite IH in E. apply elem_of_zip_l in E. apply (Hnd _ E). left. }
    rewrite map_to_list_insert by done. rewrite IH, Hnames, map_app, zip_with_app.
    - cbn [map zip zip_with]. apply Permutation_cons_append.
    - unfold rpc_names. by rewrite !map_length, seq_length.
  Qed.

  Lemma saved_files (rs : list R) :
    length rs <= 1000 ->
    map_to_list (foldl (save_request print) ∅ rs) ≡ₚ zip (rpc_names (length rs)) (map print rs).
  Proof. intros Hl. by apply saved_files_nodup, strictly_NoDup, rpc_names_strictly. Qed.

  Lemma replayed_files (rs : list R) (dir : gmap str str) :
    length rs <= 1000 -> dir = foldl (save_request print) ∅ rs ->
    omap (fun name => dir !! name) (sort_strs (map fst (map_to_list dir))) = map print rs.
  Proof.
    intros Hl Hdir. pose proof (saved_files rs Hl) as Hp. rewrite <- Hdir in Hp.
    assert (Hlen : length (rpc_names (length rs)) = length (map print rs)).
    { unfold rpc_names. by rewrite !map_length, seq_length. }
    assert (Hs : sort_strs (map fst (map_to_list dir)) = rpc_names (length rs)).
    { apply (Sorted_unique le_str); [apply sort_strs_Sorted|apply strictly_sorted, rpc_names_strictly, Hl|].
      rewrite sort_strs_perm, Hp. change (map fst) with (fmap (M:=list) (@fst str str)). rewrite fst_zip; [done|lia]. }
    rewrite Hs.
    assert (Hlk : forall n t, (n, t) ∈ zip (rpc_names (length rs)) (map print rs) -> dir !! n = Some t).
    { intros n t H. apply elem_of_map_to_list. by rewrite Hp. }
    revert Hlen Hlk. generalize (rpc_names (length rs)) as ns. generalize (map print rs) as ts. clear.
    induction ts as [|t ts IH]; intros [|n ns] Hlen Hlk; try done.
    cbn [omap list_omap]. rewrite (Hlk n t) by left. f_equal. apply IH; [cbn in Hlen; lia|].
    intros m u H. apply Hlk. by right.
  Qed.

  Lemma replay_loop_spec (s : S) (rs : list R) :
    (forall r, parse (print r) = Some r) ->
    match replay_loop parse handle s (map print rs) with
    | (s', true) => all_continue handle s rs s'
    | (s', false) => stopped handle s rs s'
    end.
  Proof.
    intros Hpp. revert s. induction rs as [|r rs IH]; intros s; cbn [map replay_loop]; [constructor|].
    rewrite Hpp. destruct (handle s r) as [s1 o] eqn:E.
    assert (Hstop : o <> Some Continue -> stopped handle s (r :: rs) s1).
    { intros Ho. exists [], r, rs, s, o. split_and!; [done|constructor|done|done]. }
    destruct o as [[]|]; [|by apply Hstop..].
    specialize (IH s1). destruct (replay_loop parse handle s1 (map print rs)) as [s2 []].
    - by econstructor.
    - destruct IH as (before & r' & after & s3 & o & -> & H1 & H2 & H3).
      exists (r :: before), r', after, s3, o. split_and!; [done|by econstructor|done|done].
  Qed.

  Lemma continue_fun (s : S) (rs : list R) (s1 s2 : S) :
    all_continue handle s rs s1 -> all_continue handle s rs s2 -> s1 = s2.
  Proof.
    intros H. revert s2. induction H as [s|s r rs s1 s3 E H IH]; intros s2 H2; inversion H2; subst; [done|].
    apply IH. congruence.
  Qed.

  Lemma stopped_not_continue (s : S) (rs : list R) (s1 s2 : S) :
    all_continue handle s rs s1 -> stopped handle s rs s2 -> False.
  Proof.
    intros H. induction H as [s|s r rs s1 s3 E H IH]; intros (before & r' & after & s4 & o & Hrs & Hb & Hh & Ho).
    - by destruct before.
    - destruct before as [|b before]; cbn [app] in Hrs.
      + assert (r' = r) as -> by congruence. inversion Hb; subst. rewrite Hh in E. congruence.
      + assert (b = r) as -> by congruence. assert (rs = before ++ r' :: after) as -> by congruence.
        inversion Hb; subst. apply IH. exists before, r', after, s4, o. split_and!; [done| |done|done].
        match goal with H : handle s r = (?x, Some Continue) |- _ => rewrite E in H; injection H as <- end. done.
  Qed.

  Lemma replay_spec (s : S) (rs : list R) :
    length rs <= 1000 -> (forall r, parse (print r) = Some r) ->
    let '(s', ok) := replay_requests parse handle s (foldl (save_request print) ∅ rs) in
    (ok = true <-> all_continue handle s rs s') /\ (ok = false <-> stopped handle s rs s').
  Proof.
    intros Hl Hpp. unfold replay_requests. rewrite (replayed_files rs _ Hl eq_refl).
    pose proof (replay_loop_spec s rs Hpp) as H.
    destruct (replay_loop parse handle s (map print rs)) as [s' []]; (split; split; intros ?; try done).
    - exfalso. by eapply stopped_not_continue.
    - exfalso. by eapply stopped_not_continue.
  Qed.
End saved.

(** ** One request too many *)

Definition noting (s : list str) (r : str) : list str * option outcome := (s ++ [r], Some Continue).

Lemma noting_replay (files s : list str) : replay_loop Some noting s files = (s ++ files, true).
Proof.
  revert s. induction files as [|f files IH]; intros s; cbn [replay_loop]; [by rewrite app_nil_r|].
  unfold noting at 1. rewrite IH, <- app_assoc. done.
Qed.

Lemma names_1001 : NoDup (rpc_names 1001).
Proof.
  assert (E : rpc_names 1001 = rpc_names 1000 ++ [rpc_name 1000]).
  { unfold rpc_names. change 1001 with (1000 + 1). rewrite seq_app, map_app. done. }
  rewrite E. apply NoDup_app. split_and!; [by apply strictly_NoDup, rpc_names_strictly| |apply NoDup_singleton].
  intros x Hx ->%elem_of_list_singleton.
  assert (H : forallb (fun n => Nat.eqb (length n) 14) (rpc_names 1000) = true) by (vm_compute; reflexivity).
  rewrite forallb_forall in H. apply elem_of_list_In in Hx. apply H in Hx. vm_compute in Hx. discriminate Hx.
Qed.

Lemma adjacent_sorted (l : list str) (a b : str) (i : nat) :
  Sorted le_str l -> l !! i = Some a -> l !! S i = Some b -> le_str a b.
Proof.
  intros Hs. revert i. induction Hs as [|x l Hs IH Hx]; intros i Ha Hb; [done|].
  destruct i as [|i]; [|by apply (IH i)].
  cbn in Ha. injection Ha as ->. destruct l as [|y l]; [done|]. cbn in Hb. injection Hb as ->. by inversion Hx.
Qed.

Lemma order_1001 (rs : list str) :
  length rs = 1001 -> NoDup rs ->
  exists s', replay_requests Some noting [] (foldl (save_request (fun r => r)) ∅ rs) = (s', true) /\
    s' ≡ₚ rs /\ s' <> rs.
Proof.
  intros Hl Hnd. set (dir := foldl (save_request (fun r => r)) ∅ rs).
  set (names := sort_strs (map fst (map_to_list dir))).
  assert (Hp : map_to_list dir ≡ₚ zip (rpc_names 1001) rs).
  { pose proof (saved_files_nodup (fun r : str => r) rs) as H. rewrite Hl, map_id in H.
    apply H, names_1001. }
  assert (Hlen : length (rpc_names 1001) = 1001) by (unfold rpc_names; by rewrite map_length, seq_length).
  assert (Hn : names ≡ₚ rpc_names 1001).
  { unfold names. rewrite sort_strs_perm, Hp. change (map fst) with (fmap (M:=list) (@fst str str)).
    rewrite fst_zip; [done|]. rewrite Hlen, Hl. done. }
  assert (Hlk : forall i n t, rpc_names 1001 !! i = Some n -> rs !! i = Some t -> dir !! n = Some t).
  { intros i n t Hi Ht. apply elem_of_map_to_list. rewrite Hp. apply elem_of_list_lookup. exists i.
    apply lookup_zip_with_Some. eauto. }
  assert (Hget : forall i n, rpc_names 1001 !! i = Some n -> dir !! n = rs !! i).
  { intros i n Hi. destruct (lookup_lt_is_Some_2 rs i) as [t Ht].
    { rewrite Hl, <- Hlen. by eapply lookup_lt_Some. }
    rewrite Ht. by eapply Hlk. }
  set (s' := omap (fun name => dir !! name) names).
  assert (Hperm : s' ≡ₚ rs).
  { unfold s'. rewrite Hn.
    assert (Hall : omap (fun name => dir !! name) (rpc_names 1001) = rs); [|by rewrite Hall].
    assert (Hgen : forall (ns ts : list str), length ns = length ts ->
       (forall i n, ns !! i = Some n -> dir !! n = ts !! i) -> omap (fun name => dir !! name) ns = ts).
    { induction ns as [|n ns IH]; intros [|t ts] Hlen' H; try done. cbn [omap list_omap].
      rewrite (H 0 n eq_refl). cbn [lookup list_lookup]. f_equal. apply IH; [cbn in Hlen'; lia|].
      intros i m Hm. exact (H (S i) m Hm). }
    apply Hgen; [lia|exact Hget]. }
  exists s'. split_and!; [|exact Hperm|].
  { unfold replay_requests. rewrite noting_replay. done. }
  intros Heq.
  assert (Htotal : forall i n, names !! i = Some n -> dir !! n = s' !! i).
  { unfold s'. assert (Hdef : forall n, n ∈ names -> is_Some (dir !! n)).
    { intros n Hin. rewrite Hn in Hin. apply elem_of_list_lookup in Hin as [i Hi]. rewrite (Hget i n Hi).
      apply lookup_lt_is_Some_2. rewrite Hl, <- Hlen. by eapply lookup_lt_Some. }
    clear -Hdef. induction names as [|n names IH]; [done|]. intros i m Hm.
    destruct (Hdef n ltac:(left)) as [t Ht]. cbn [omap list_omap]. rewrite Ht.
    destruct i as [|i]; cbn in Hm |- *; [by injection Hm as ->|].
    apply IH; [|done]. intros k Hk. apply Hdef. by right. }
  assert (Hpos : forall i n, names !! i = Some n -> rpc_names 1001 !! i = Some n).
  { intros i n Hi. assert (Hin : n ∈ rpc_names 1001) by (rewrite <- Hn; by eapply elem_of_list_lookup_2).
    apply elem_of_list_lookup in Hin as [j Hj].
    pose proof (Htotal i n Hi) as H1. rewrite (Hget j n Hj), Heq in H1.
    assert (j = i) as ->; [|done].
    destruct (lookup_lt_is_Some_2 rs j) as [t Ht].
    { rewrite Hl, <- Hlen. by eapply lookup_lt_Some. }
    apply (NoDup_lookup rs j i t); [done|done|congruence]. }
  assert (Hnl : length names = 1001) by (rewrite Hn; exact Hlen).
  destruct (lookup_lt_is_Some_2 names 999 ltac:(lia)) as [a Ha].
  destruct (lookup_lt_is_Some_2 names 1000 ltac:(lia)) as [b Hb].
  pose proof (adjacent_sorted names a b 999 (sort_strs_Sorted _) Ha Hb) as Hle.
  apply Hpos in Ha, Hb. unfold rpc_names in Ha, Hb.
  change (map rpc_name) with (fmap (M:=list) rpc_name) in Ha, Hb.
  rewrite list_lookup_fmap, lookup_seq_lt in Ha, Hb by lia. cbn [fmap option_fmap option_map Nat.add] in Ha, Hb.
  assert (Ea : rpc_name 999 = a) by congruence. assert (Eb : rpc_name 1000 = b) by congruence.
  rewrite <- Ea, <- Eb in Hle. clear -Hle. vm_compute in Hle. discriminate Hle.
Qed.

(** ** Imports that are offered *)

Lemma offered_iff (ex : str -> list nat -> option (gmap str api_config)) (idx : crate_index)
    (root : str) (b : gmap str api_config) (file : raw_config) (c : config) (pkg : str) (v : list nat)
    (api : str) (def : api_config) :
  load_config b ex idx (Some root) file = Loaded c ->
  (PkgId pkg v, api, def) ∈ unused_imports ex idx (cf_raw c) <->
  (exists p, p ∈ idx /\ pk_name p = pkg /\ pk_version p = v) /\
  (exists apis, ex pkg v = Some apis /\ apis !! api = Some def) /\
  (forall pc, rc_packages file !! pkg = Some pc -> pc_import pc = None).
Proof.
  intros Hl. pose proof (loaded_packages _ _ _ _ _ _ Hl) as Hp.
  assert (Hi : forall p : package, match rc_packages (cf_raw c) !! pk_name p with
     | Some (PackageConfig _ _ _ _ _ _ _ _ _ (Some _)) => @nil (pkg_id * str * api_config)
     | _ => match ex (pk_name p) (pk_version p) with
            | None => []
            | Some apis => map (fun e : str * api_config => (PkgId (pk_name p) (pk_version p), e.1, e.2)) (map_to_list apis)
            end end =
     match rc_packages file !! pk_name p ≫= pc_import with
     | Some _ => []
     | None => match ex (pk_name p) (pk_version p) with
            | None => []
            | Some apis => map (fun e : str * api_config => (PkgId (pk_name p) (pk_version p), e.1, e.2)) (map_to_list apis)
            end end).
  { intros p. rewrite Hp, lookup_fmap. destruct (rc_packages file !! pk_name p) as [pc|]; [|done].
    cbn [fmap option_fmap option_map mbind option_bind]. pose proof (finished_import root pc) as Hf.
    destruct (finished root pc) as [? ? ? ? ? ? ? ? ? im]. cbn [pc_import] in Hf. subst im.
    by destruct (pc_import pc). }
  unfold unused_imports. rewrite <- flat_map_concat_map, elem_of_list_In, in_flat_map. split.
  - intros (p & Hpin & H). apply elem_of_list_In in Hpin. rewrite Hi in H.
    destruct (rc_packages file !! pk_name p ≫= pc_import) eqn:E; [done|].
    destruct (ex (pk_name p) (pk_version p)) as [apis|] eqn:Ex; [|done].
    apply in_map_iff in H as ([a d] & Heq & H). cbn in Heq.
    assert (pkg = pk_name p) as -> by congruence. assert (v = pk_version p) as -> by congruence.
    assert (a = api) as -> by congruence. assert (d = def) as -> by congruence.
    apply elem_of_list_In, elem_of_map_to_list in H. split_and!; [by exists p|by exists apis|].
    intros pc Hpc. rewrite Hpc in E. done.
  - intros ((p & Hpin & <- & <-) & (apis & Ex & Ha) & Hno). exists p.
    split; [by apply elem_of_list_In|]. rewrite Hi.
    assert (rc_packages file !! pk_name p ≫= pc_import = None) as ->.
    { destruct (rc_packages file !! pk_name p) as [pc|]; [|done]. by apply (Hno pc). }
    rewrite Ex. apply in_map_iff. exists (api, def). split; [done|].
    by apply elem_of_list_In, elem_of_map_to_list.
Qed.
