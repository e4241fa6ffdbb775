From Verif Require Import Base BaseFacts ApiMapModel ConfigModel ConfigSpec ConfigProofs
  ProblemModel CheckerModel CheckerSpec.

(** ** C08: the partition of usages *)

Lemma source_ids_spec env ck path :
  match pkg_ids_for_source env ck path with
  | None => source_unknown env ck path
  | Some ids => ~ source_unknown env ck path /\ forall p, p ∈ ids <-> source_of env ck path p
  end.
Proof.
  unfold pkg_ids_for_source, source_unknown, source_of.
  destruct (ck_paths ck !! path) as [ids|]; [by split; [intros [? _]|]|].
  destruct (en_in_rust_std env path).
  - split; [by intros (_ & ? & _)|]. intros p. rewrite elem_of_nil. split; [done|]. by intros [? _].
  - destruct (en_package_for_path env path) as [q|]; [|done].
    split; [by intros (_ & _ & ?)|]. intros p. rewrite elem_of_list_singleton.
    split; [by intros ->|]. by intros [_ [= ->]].
Qed.

Lemma name_starts_with_spec (name : list str) (prefix : str) :
  name_starts_with name prefix = true <-> exists rest, name = prefix :: rest.
Proof.
  destruct name as [|n name]; cbn.
  - split; [done|]. by intros [? ?].
  - rewrite str_eqb_spec. split; [intros ->; eauto|]. by intros [r [= -> _]].
Qed.

Lemma crate_of_spec (p : pkg_id) (c : str) : crate_of p c <-> c = crate_name p.
Proof.
  unfold crate_of, crate_name. generalize (pi_name p). intros l. split.
  - induction 1 as [|a b l c H _ IH]; [done|]. cbn [map]. rewrite IH. f_equal.
    destruct (Ascii.eqb_spec a "-"%char) as [->|Hn]; by destruct H as [[??]|[??]].
  - intros ->. induction l as [|a l IH]; [constructor|]. cbn [map]. constructor; [|done].
    destruct (Ascii.eqb_spec a "-"%char) as [->|Hn]; [by left|by right].
Qed.

Lemma to_name_from_outer_spec env ck u :
  match to_name_from_outer env ck u with
  | None => exists path, us_outer u = Some path /\ source_unknown env ck path
  | Some b => (b = true <-> own_code env ck u) /\
      ~ exists path, us_outer u = Some path /\ source_unknown env ck path
  end.
Proof.
  unfold to_name_from_outer, own_code. destruct (us_outer u) as [path|].
  - pose proof (source_ids_spec env ck path) as HS.
    destruct (pkg_ids_for_source env ck path) as [ids|].
    + destruct HS as [HU HS]. split.
      * rewrite existsb_exists. split.
        -- intros (p & Hp & Hn). apply name_starts_with_spec in Hn as [rest Hn].
           exists path, p, (crate_name p), rest. split; [done|]. split; [|split; [by apply crate_of_spec|done]].
           apply HS. by apply elem_of_list_In.
        -- intros (path' & p & c & rest & [= <-] & Hs & Hc%crate_of_spec & Hn). subst c. exists p.
           split; [by apply elem_of_list_In, HS|]. apply name_starts_with_spec. eauto.
      * by intros (? & [= <-] & ?).
    + eauto.
  - split.
    + split; [done|]. by intros (? & ? & ? & ? & ? & _).
    + by intros (? & ? & _).
Qed.

Lemma place_usage_spec env ck pkg u :
  match place_usage env ck pkg u with
  | None => (exists owner, reaches_off_tree env pkg u owner) /\
            exists path, us_outer u = Some path /\ source_unknown env ck path
  | Some OnTree => forall owner, ~ reaches_off_tree env pkg u owner
  | Some (OffTree owner) => reaches_off_tree env pkg u owner /\ ~ own_code env ck u /\
      ~ exists path, us_outer u = Some path /\ source_unknown env ck path
  | Some Ignored => excused env ck pkg u /\
      ~ exists path, us_outer u = Some path /\ source_unknown env ck path
  end.
Proof.
  unfold place_usage, excused, reaches_off_tree.
  destruct (en_transitive_deps env pkg) as [deps|]; [|by intros o (? & ? & ? & ? & _)].
  destruct (us_to_name u) as [|first rest] eqn:En; [by intros o (? & ? & ? & _ & ? & _)|].
  case_bool_decide as Hin.
  - by intros o (? & ? & ? & [= <-] & [= <- <-] & ? & _).
  - destruct (en_lib_owner env first) as [owner|] eqn:Eo.
    + assert (Hoff : exists deps0 first0 rest0, Some deps = Some deps0 /\
        first :: rest = first0 :: rest0 /\ first0 ∉ deps0 /\ en_lib_owner env first0 = Some owner).
      { by exists deps, first, rest. }
      pose proof (to_name_from_outer_spec env ck u) as HT.
      destruct (to_name_from_outer env ck u) as [[]|].
      * destruct HT as [[HT _] HU]. split; [|done]. split; [eauto|auto].
      * destruct HT as [[_ HT] HU]. split; [done|]. split; [|done]. intros H. by specialize (HT H).
      * split; [eauto|done].
    + intros o (? & ? & ? & [= <-] & [= <- <-] & ? & ?). congruence.
Qed.

Definition off_usages (m : list (pkg_id * list api_usage)) : list api_usage :=
  concat (map snd m).

Lemma push_off_tree_perm m p u : off_usages (push_off_tree m p u) ≡ₚ off_usages m ++ [u].
Proof.
  unfold off_usages. induction m as [|[q us] m IH]; cbn; [done|].
  case_bool_decide; cbn.
  - rewrite <- !app_assoc. f_equiv. apply Permutation_app_comm.
  - rewrite IH, app_assoc. done.
Qed.

Lemma push_off_tree_elem m p u e :
  e ∈ push_off_tree m p u ->
  e ∈ m \/ (e.1 = p /\ (e.2 = [u] \/ exists us, (p, us) ∈ m /\ e.2 = us ++ [u])).
Proof.
  induction m as [|[q us] m IH]; cbn.
  - intros ->%elem_of_list_singleton. auto.
  - case_bool_decide as Hq.
    + subst q. intros [->|He]%elem_of_cons.
      * right. split; [done|]. right. exists us. split; [left|done].
      * left. by right.
    + intros [->|He]%elem_of_cons; [left; left|].
      destruct (IH He) as [?|(H1 & [H2|(us' & H2 & H3)])].
      * left. by right.
      * auto.
      * right. split; [done|]. right. exists us'. split; [by right|done].
Qed.

Lemma push_off_tree_keys m p u :
  NoDup m.*1 -> NoDup (push_off_tree m p u).*1 /\
  (forall q, q ∈ (push_off_tree m p u).*1 <-> q = p \/ q ∈ m.*1).
Proof.
  induction m as [|[q us] m IH]; cbn.
  - intros _. split; [by apply NoDup_singleton|]. intros q.
    rewrite elem_of_list_singleton, elem_of_nil. tauto.
  - intros [Hq Hnd]%NoDup_cons. case_bool_decide as Hqp; cbn.
    + subst q. split; [by apply NoDup_cons|]. intros q. rewrite elem_of_cons. tauto.
    + destruct (IH Hnd) as [H1 H2]. split.
      * apply NoDup_cons. split; [|done]. rewrite H2. intros [?|?]; done.
      * intros q'. rewrite !elem_of_cons, H2. tauto.
Qed.

Definition partition_inv (env : environment) (ck : checker) (pkg : pkg_id)
    (acc : list api_usage * list (pkg_id * list api_usage)) : Prop :=
  (forall x, x ∈ acc.1 -> forall owner, ~ reaches_off_tree env pkg x owner) /\
  (forall e, e ∈ acc.2 -> e.2 <> [] /\
     forall x, x ∈ e.2 -> reaches_off_tree env pkg x e.1 /\ ~ own_code env ck x) /\
  NoDup acc.2.*1.

Lemma partition_usages_spec env ck pkg us acc :
  partition_inv env ck pkg acc ->
  match partition_usages env ck pkg us acc with
  | None => exists x, x ∈ us /\ (exists owner, reaches_off_tree env pkg x owner) /\
              exists path, us_outer x = Some path /\ source_unknown env ck path
  | Some acc' => partition_inv env ck pkg acc' /\
      exists rest, (acc'.1 ++ off_usages acc'.2) ++ rest ≡ₚ (acc.1 ++ off_usages acc.2) ++ us /\
        (forall x, x ∈ rest -> excused env ck pkg x) /\
        (forall x, x ∈ us -> (exists owner, reaches_off_tree env pkg x owner) ->
           ~ exists path, us_outer x = Some path /\ source_unknown env ck path)
  end.
Proof.
  revert acc. induction us as [|u us IH]; intros acc Hinv; cbn.
  - split; [done|]. exists []. split; [done|]. split; by intros ? ?%elem_of_nil.
  - pose proof (place_usage_spec env ck pkg u) as HP.
    destruct (place_usage env ck pkg u) as [p|].
    2:{ exists u. split; [left|done]. }
    assert (Hinv' : partition_inv env ck pkg (push_usage acc u p)).
    { destruct Hinv as (H1 & H2 & H3). destruct p as [|o|]; cbn.
      - split; [|done]. intros x [Hx|Hx]%elem_of_app; [by apply H1|].
        apply elem_of_list_singleton in Hx as ->. done.
      - destruct HP as (HP1 & HP2 & _). split; [done|]. split; [|by apply push_off_tree_keys].
        intros e He. apply push_off_tree_elem in He as [He|(He1 & [He|(us' & Hus & He)])].
        + by apply H2.
        + rewrite He, He1. split; [done|]. by intros x ->%elem_of_list_singleton.
        + rewrite He, He1. split; [by destruct us'|].
          intros x [Hx|Hx]%elem_of_app; [by apply (H2 _ Hus)|].
          by apply elem_of_list_singleton in Hx as ->.
      - done. }
    specialize (IH _ Hinv').
    destruct (partition_usages env ck pkg us (push_usage acc u p)) as [acc'|].
    + destruct IH as [IH1 (rest & IH2 & IH3 & IH4)]. split; [done|].
      assert (HK : forall x, x ∈ u :: us -> (exists owner, reaches_off_tree env pkg x owner) ->
           ~ exists path, us_outer x = Some path /\ source_unknown env ck path).
      { intros x [->|Hx]%elem_of_cons Ho; [|by apply IH4].
        destruct p as [|o|]; [|by apply HP..]. by destruct Ho as [o Ho%HP]. }
      destruct p as [|o|]; cbn [push_usage fst snd] in IH2.
      * exists rest. split; [|done]. rewrite IH2. rewrite <- !app_assoc. f_equiv.
        cbn. rewrite Permutation_middle. done.
      * exists rest. split; [|done]. rewrite IH2, push_off_tree_perm.
        rewrite <- !app_assoc. done.
      * exists (u :: rest). split; [|split; [|done]].
        -- rewrite <- (Permutation_middle _ _ u), IH2, <- Permutation_middle. done.
        -- intros x [->|Hx]%elem_of_cons; [by apply HP|auto].
    + destruct IH as (x & Hx & IH). exists x. split; [by right|done].
Qed.

Lemma reported_shown u on_tree off_tree :
  concat (map shown
    (map (fun e : pkg_id * list api_usage => POffTreeApiUsage (with_usages u e.2) e.1) off_tree ++
     match on_tree with [] => [] | _ => [PDisallowedApiUsage (with_usages u on_tree)] end))
  ≡ₚ on_tree ++ off_usages off_tree.
Proof.
  rewrite map_app, concat_app.
  assert (concat (map shown (map (fun e => POffTreeApiUsage (with_usages u e.2) e.1) off_tree))
          = off_usages off_tree) as ->.
  { unfold off_usages. by rewrite map_map. }
  rewrite Permutation_app_comm. f_equiv. destruct on_tree; cbn; [done|].
  by rewrite app_nil_r.
Qed.

Lemma api_used_disallowed env ck u ck' ps :
  is_allowed ck (usages_perm_sel u) (au_api u) = false ->
  api_used env ck u = (ck', Some ps) ->
  ck' = ck /\
  (exists rest, concat (map shown ps) ++ rest ≡ₚ au_usages u /\
     forall x, x ∈ rest -> excused env ck (au_pkg u) x) /\
  (forall x, x ∈ concat (map shown ps) -> ~ excused env ck (au_pkg u) x) /\
  (forall p, p ∈ ps ->
     (exists l, p = PDisallowedApiUsage (with_usages u l) /\ l <> [] /\
        forall x, x ∈ l -> forall owner, ~ reaches_off_tree env (au_pkg u) x owner) \/
     (exists l owner, p = POffTreeApiUsage (with_usages u l) owner /\ l <> [] /\
        forall x, x ∈ l -> reaches_off_tree env (au_pkg u) x owner)).
Proof.
  intros Hna. unfold api_used. rewrite Hna.
  pose proof (partition_usages_spec env ck (au_pkg u) (au_usages u) ([], [])) as HP.
  destruct (partition_usages _ _ _ _ _) as [[on_tree off_tree]|]; [|done].
  intros [= <- <-].
  destruct HP as [(H1 & H2 & H3) (rest & H4 & H5 & H6)].
  { split_and!; cbn; [by intros ? ?%elem_of_nil..|constructor]. }
  cbn in *. split; [done|]. split; [|split].
  - exists rest. split; [|done]. by rewrite reported_shown.
  - intros x. rewrite reported_shown, elem_of_app. intros [Hx|Hx] [[o Ho] Hown].
    + by apply (H1 x Hx o).
    + unfold off_usages in Hx. apply elem_of_list_In, in_concat in Hx as (l & Hl & Hx).
      apply in_map_iff in Hl as (e & <- & He).
      apply elem_of_list_In in He. apply elem_of_list_In in Hx.
      by apply (H2 e He) in Hx as [_ Hx].
  - intros p [Hp|Hp]%elem_of_app.
    + right. apply elem_of_list_fmap in Hp as (e & -> & He).
      exists e.2, e.1. split; [done|]. destruct (H2 e He) as [Hne Hall]. split; [done|].
      intros x Hx. by apply Hall.
    + left. destruct on_tree as [|x on_tree]; [by apply elem_of_nil in Hp|].
      apply elem_of_list_singleton in Hp as ->. by exists (x :: on_tree).
Qed.

Lemma api_used_error env ck u :
  (api_used env ck u).2 = None <->
  is_allowed ck (usages_perm_sel u) (au_api u) = false /\
  exists x, x ∈ au_usages u /\ (exists owner, reaches_off_tree env (au_pkg u) x owner) /\
    exists path, us_outer x = Some path /\ source_unknown env ck path.
Proof.
  unfold api_used. destruct (is_allowed _ _ _); [by split; [|intros [? _]]|].
  pose proof (partition_usages_spec env ck (au_pkg u) (au_usages u) ([], [])) as HP.
  destruct (partition_usages _ _ _ _ _) as [[on_tree off_tree]|]; cbn.
  - split; [done|]. intros (_ & x & Hx & Ho & Hp).
    destruct HP as [_ (rest & _ & _ & H)]; [|by destruct (H x Hx Ho)].
    split_and!; cbn; [by intros ? ?%elem_of_nil..|constructor].
  - split; [|done]. intros _. split; [done|]. apply HP.
    split_and!; cbn; [by intros ? ?%elem_of_nil..|constructor].
Qed.

Lemma api_used_allowed env ck u :
  is_allowed ck (usages_perm_sel u) (au_api u) = true -> (api_used env ck u).2 = Some [].
Proof. intros H. unfold api_used. by rewrite H. Qed.

(** ** update_config *)

Lemma foldl_insert_lookup {A B} (g : option A -> B -> A) (l : list (perm_sel * B))
    (m : gmap perm_sel A) (k : perm_sel) :
  NoDup l.*1 ->
  (forall v, (k, v) ∈ l ->
     foldl (fun m e => <[e.1 := g (m !! e.1) e.2]> m) m l !! k = Some (g (m !! k) v)) /\
  (k ∉ l.*1 -> foldl (fun m e => <[e.1 := g (m !! e.1) e.2]> m) m l !! k = m !! k).
Proof.
  revert m. induction l as [|[k' v'] l IH]; intros m Hnd.
  - split; [by intros ? ?%elem_of_nil|done].
  - cbn in Hnd. apply NoDup_cons in Hnd as [Hk Hnd]. cbn.
    destruct (IH (<[k' := g (m !! k') v']> m) Hnd) as [H1 H2]. split.
    + intros v [[= -> ->]|Hin]%elem_of_cons.
      * rewrite H2 by done. by rewrite lookup_insert.
      * rewrite (H1 v Hin). rewrite lookup_insert_ne; [done|].
        intros ->. apply Hk. apply elem_of_list_fmap. by exists (k, v).
    + rewrite not_elem_of_cons. intros [Hne Hni]. rewrite H2 by done.
      by rewrite lookup_insert_ne.
Qed.

Lemma foldl_map_lookup {A B} (g : option A -> B -> A) (M : gmap perm_sel B)
    (m : gmap perm_sel A) (k : perm_sel) :
  foldl (fun m e => <[e.1 := g (m !! e.1) e.2]> m) m (map_to_list M) !! k =
  match M !! k with Some v => Some (g (m !! k) v) | None => m !! k end.
Proof.
  destruct (foldl_insert_lookup g (map_to_list M) m k (NoDup_fst_map_to_list M)) as [H1 H2].
  destruct (M !! k) as [v|] eqn:E.
  - apply H1. by apply elem_of_map_to_list.
  - apply H2. intros Hin. apply elem_of_list_fmap in Hin as ([k' v] & -> & Hin).
    apply elem_of_map_to_list in Hin. cbn in *. congruence.
Qed.

Lemma update_config_lookup ck c k :
  ck_infos (update_config ck c) !! k =
  let own := match cf_permissions_no_inheritance c !! k with
             | Some pc => Some (foldl allow_own (default crate_info_default (ck_infos ck !! k))
                                  (pc_allow_apis pc))
             | None => ck_infos ck !! k
             end in
  match cf_permissions c !! k with
  | Some pc => Some (foldl allow_inherited (default crate_info_default own) (pc_allow_apis pc))
  | None => own
  end.
Proof.
  cbn zeta. unfold update_config. cbn [ck_infos].
  pose proof (foldl_map_lookup
    (fun o pc => foldl allow_inherited (default crate_info_default o) (pc_allow_apis pc))
    (cf_permissions c)) as H1.
  pose proof (foldl_map_lookup
    (fun o pc => foldl allow_own (default crate_info_default o) (pc_allow_apis pc))
    (cf_permissions_no_inheritance c)) as H2.
  unfold add_inherited, add_own. rewrite H1, H2. done.
Qed.

Lemma allow_inherited_spec l i :
  ci_unused (foldl allow_inherited i l) = ci_unused i /\
  forall api, api ∈ ci_allowed (foldl allow_inherited i l) <-> api ∈ ci_allowed i \/ api ∈ l.
Proof.
  revert i. induction l as [|a l IH]; intros i; cbn.
  - split; [done|]. intros api. rewrite elem_of_nil. tauto.
  - destruct (IH (allow_inherited i a)) as [H1 H2]. split; [by rewrite H1|].
    intros api. rewrite H2. cbn. rewrite elem_of_cons, elem_of_union, elem_of_singleton. tauto.
Qed.

Lemma allow_own_spec l i :
  (forall api, api ∈ ci_allowed (foldl allow_own i l) <-> api ∈ ci_allowed i \/ api ∈ l) /\
  (forall api, api ∈ ci_unused (foldl allow_own i l) <->
     api ∈ ci_unused i \/ (api ∈ l /\ api ∉ ci_allowed i)).
Proof.
  revert i. induction l as [|a l IH]; intros i; cbn.
  - split; intros api; rewrite elem_of_nil; tauto.
  - destruct (IH (allow_own i a)) as [H1 H2].
    unfold allow_own in H1, H2 |- *.
    case_bool_decide as Ha.
    + split; intros api.
      * rewrite H1, elem_of_cons. split; [tauto|]. intros [?|[->|?]]; auto.
      * rewrite H2, elem_of_cons. split; [tauto|]. intros [?|[[->|?] ?]]; auto; done.
    + cbn in *. split; intros api.
      * rewrite H1, elem_of_cons, elem_of_union, elem_of_singleton. tauto.
      * rewrite H2, elem_of_cons, !elem_of_union, elem_of_singleton.
        destruct (decide (api = a)) as [->|]; tauto.
Qed.

Definition allowed_set (ck : checker) (k : perm_sel) : gset str :=
  ci_allowed (default crate_info_default (ck_infos ck !! k)).
Definition unused_set (ck : checker) (k : perm_sel) : gset str :=
  ci_unused (default crate_info_default (ck_infos ck !! k)).

Lemma is_allowed_spec ck k api : is_allowed ck k api = true <-> api ∈ allowed_set ck k.
Proof.
  unfold is_allowed, allowed_set. destruct (ck_infos ck !! k); cbn; [by rewrite bool_decide_eq_true|].
  split; [done|]. by intros ?%elem_of_empty.
Qed.

Definition apis_of (m : permissions) (k : perm_sel) : list str :=
  match m !! k with Some pc => pc_allow_apis pc | None => [] end.

Lemma update_config_spec ck c k api :
  (api ∈ allowed_set (update_config ck c) k <->
     api ∈ allowed_set ck k \/ api ∈ apis_of (cf_permissions_no_inheritance c) k \/
     api ∈ apis_of (cf_permissions c) k) /\
  (api ∈ unused_set (update_config ck c) k <->
     api ∈ unused_set ck k \/
     (api ∈ apis_of (cf_permissions_no_inheritance c) k /\ api ∉ allowed_set ck k)) /\
  (is_Some (ck_infos (update_config ck c) !! k) <->
     is_Some (ck_infos ck !! k) \/ is_Some (cf_permissions_no_inheritance c !! k) \/
     is_Some (cf_permissions c !! k)).
Proof.
  unfold allowed_set, unused_set, apis_of. rewrite !update_config_lookup. cbn zeta.
  set (i := default crate_info_default (ck_infos ck !! k)).
  set (own := match cf_permissions_no_inheritance c !! k with Some _ => _ | None => _ end).
  assert (Hown : (api ∈ ci_allowed (default crate_info_default own) <->
     api ∈ ci_allowed i \/ api ∈ apis_of (cf_permissions_no_inheritance c) k) /\
     (api ∈ ci_unused (default crate_info_default own) <-> api ∈ ci_unused i \/
       (api ∈ apis_of (cf_permissions_no_inheritance c) k /\ api ∉ ci_allowed i)) /\
     (is_Some own <-> is_Some (ck_infos ck !! k) \/ is_Some (cf_permissions_no_inheritance c !! k))).
  { unfold own, apis_of. destruct (cf_permissions_no_inheritance c !! k) as [pc|]; cbn.
    - destruct (allow_own_spec (pc_allow_apis pc) i) as [H1 H2]. split; [apply H1|].
      split; [apply H2|]. split; eauto.
    - fold i. rewrite elem_of_nil. split; [tauto|]. split; [tauto|]. split; [auto|].
      intros [?|[? ?]]; done. }
  destruct Hown as (H1 & H2 & H3). unfold apis_of in H1, H2.
  destruct (cf_permissions c !! k) as [pc|]; cbn.
  - destruct (allow_inherited_spec (pc_allow_apis pc) (default crate_info_default own)) as [G1 G2].
    rewrite G2, G1, H1, H2. split; [tauto|]. split; [tauto|]. split; [|eauto]. eauto.
  - rewrite H1, H2, elem_of_nil, H3. split; [tauto|]. split; [tauto|].
    split; [tauto|]. intros [?|[?|[? ?]]]; [tauto..|done].
Qed.

(** ** api_used on the books *)

Definition cleared (api : str) (o : option crate_info) : option crate_info :=
  (fun i => CrateInfo (ci_allowed i) (ci_unused i ∖ {[api]})) <$> o.

Lemma clear_unused_lookup api sel infos k :
  clear_unused api sel infos !! k =
    if decide (k = sel) then cleared api (infos !! k) else infos !! k.
Proof.
  unfold clear_unused, cleared. destruct (decide (k = sel)) as [->|Hne].
  - destruct (infos !! sel) as [i|] eqn:E; [by rewrite lookup_insert|by rewrite E].
  - destruct (infos !! sel) as [i|]; [|done]. by rewrite lookup_insert_ne.
Qed.

Lemma mark_lookup api (pkg : str) (s : scope) infos (k : perm_sel) :
  mark_parents 5 api (pkg, s) (clear_unused api (pkg, s) infos) !! k =
    if decide (k.1 = pkg /\ k.2 ∈ chain s) then cleared api (infos !! k) else infos !! k.
Proof.
  destruct k as [pkg' s']. cbn [fst snd].
  destruct (decide (pkg' = pkg)) as [->|Hne].
  2:{ rewrite decide_False by tauto.
      destruct s; cbn; rewrite !clear_unused_lookup; repeat (case_decide; [congruence|]); done. }
  destruct s, s'; cbn; rewrite !clear_unused_lookup;
    repeat (case_decide; try congruence); try done;
    match goal with
    | H : ~ (_ /\ _) |- _ => exfalso; apply H; split; [done|]; repeat constructor
    | H : _ /\ _ |- _ => exfalso; destruct H as [_ H];
        repeat (apply elem_of_cons in H as [?|H]; [congruence|]); by apply elem_of_nil in H
    end.
Qed.

Lemma cleared_default api o :
  ci_allowed (default crate_info_default (cleared api o)) = ci_allowed (default crate_info_default o) /\
  ci_unused (default crate_info_default (cleared api o))
    = ci_unused (default crate_info_default o) ∖ {[api]}.
Proof. destruct o; cbn; [done|]. split; [done|]. set_solver. Qed.

Lemma api_used_books env ck u k :
  allowed_set (api_used env ck u).1 k = allowed_set ck k /\
  (is_Some (ck_infos (api_used env ck u).1 !! k) <-> is_Some (ck_infos ck !! k)) /\
  (forall api, api ∈ unused_set (api_used env ck u).1 k <->
     api ∈ unused_set ck k /\
     ~ (is_allowed ck (usages_perm_sel u) (au_api u) = true /\ au_api u = api /\
        pi_name (au_pkg u) = k.1 /\ k.2 ∈ chain (au_scope u))).
Proof.
  unfold api_used. destruct (is_allowed ck (usages_perm_sel u) (au_api u)) eqn:E.
  - unfold allowed_set, unused_set. cbn [fst set_infos ck_infos].
    unfold usages_perm_sel. rewrite mark_lookup.
    destruct (cleared_default (au_api u) (ck_infos ck !! k)) as [H1 H2].
    case_decide as Hk.
    + destruct Hk as [Hk1 Hk2]. rewrite H1, H2. split; [done|]. split.
      * unfold cleared. by rewrite fmap_is_Some.
      * intros api. rewrite elem_of_difference, elem_of_singleton. naive_solver.
    + split; [done|]. split; [done|]. intros api. naive_solver.
  - destruct (partition_usages _ _ _ _ _) as [[? ?]|]; cbn;
      (split; [done|]; split; [done|]; intros api; naive_solver).
Qed.

(** ** Histories *)

Lemma checker_run_app env ops1 ops2 :
  checker_run env (ops1 ++ ops2) = foldl (checker_step env) (checker_run env ops1) ops2.
Proof. apply foldl_app. Qed.

Lemma checker_run_snoc env ops op :
  checker_run env (ops ++ [op]) = checker_step env (checker_run env ops) op.
Proof. by rewrite checker_run_app. Qed.

Lemma run_allowed env ops k api :
  api ∈ allowed_set (checker_run env ops) k <->
  exists c, OpLoad c ∈ ops /\
    (api ∈ apis_of (cf_permissions_no_inheritance c) k \/ api ∈ apis_of (cf_permissions c) k).
Proof.
  induction ops as [|op ops IH] using rev_ind.
  - split; [by intros ?%elem_of_empty|]. by intros (c & ?%elem_of_nil & _).
  - rewrite checker_run_snoc. destruct op as [c|u|info]; cbn.
    + destruct (update_config_spec (checker_run env ops) c k api) as [-> _]. rewrite IH.
      setoid_rewrite elem_of_app. setoid_rewrite elem_of_list_singleton. split.
      * intros [(c' & ? & ?)|?]; [eauto|]. eauto.
      * intros (c' & [?|[= ->]] & ?); [left; eauto|]. by right.
    + destruct (api_used_books env (checker_run env ops) u k) as [-> _]. rewrite IH.
      setoid_rewrite elem_of_app. setoid_rewrite elem_of_list_singleton.
      split; intros (c' & H & ?); exists c'; [tauto|]. by destruct H.
    + etransitivity; [exact IH|].
      setoid_rewrite elem_of_app. setoid_rewrite elem_of_list_singleton.
      split; intros (c' & H & ?); exists c'; [tauto|]. by destruct H.
Qed.

Lemma run_keys env ops k :
  is_Some (ck_infos (checker_run env ops) !! k) <->
  exists c, OpLoad c ∈ ops /\
    (is_Some (cf_permissions_no_inheritance c !! k) \/ is_Some (cf_permissions c !! k)).
Proof.
  induction ops as [|op ops IH] using rev_ind.
  - split; [by intros [? ?]|]. by intros (c & ?%elem_of_nil & _).
  - rewrite checker_run_snoc. destruct op as [c|u|info]; cbn.
    + destruct (update_config_spec (checker_run env ops) c k []) as (_ & _ & ->). rewrite IH.
      setoid_rewrite elem_of_app. setoid_rewrite elem_of_list_singleton. split.
      * intros [(c' & ? & ?)|?]; [eauto|]. eauto.
      * intros (c' & [?|[= ->]] & ?); [left; eauto|]. by right.
    + destruct (api_used_books env (checker_run env ops) u k) as (_ & -> & _). rewrite IH.
      setoid_rewrite elem_of_app. setoid_rewrite elem_of_list_singleton.
      split; intros (c' & H & ?); exists c'; [tauto|]. by destruct H.
    + etransitivity; [exact IH|].
      setoid_rewrite elem_of_app. setoid_rewrite elem_of_list_singleton.
      split; intros (c' & H & ?); exists c'; [tauto|]. by destruct H.
Qed.

(** The own permissions are among the effective ones. *)
Lemma own_in_effective rc idx k pc :
  perms_from_config rc !! k = Some pc ->
  exists e, perms_with_inheritance rc idx !! k = Some e /\
    forall api, api ∈ pc_allow_apis pc -> api ∈ pc_allow_apis e.
Proof.
  destruct k as [pkg s]. intros Hpc. unfold perms_with_inheritance.
  set (m := foldl add_default_entry _ _).
  assert (Hm : m !! (pkg, s) = Some pc).
  { unfold m. rewrite entries_lookup. rewrite perms_from_config_lookup in Hpc. by rewrite Hpc. }
  destruct (apply_inheritance_lookup m (rc_sandbox rc) pkg) as (HA & HD & HL).
  assert (Hin : forall (c : package_config) (o : option package_config) (api : str),
    api ∈ pc_allow_apis c ->
    api ∈ pc_allow_apis (match o with Some p => package_inherit c p | None => c end)).
  { intros c [p|] api H; [|done]. cbn. apply merge_elem. by left. }
  destruct s.
  - rewrite HA, Hm. eexists. split; [done|]. intros api H. cbn. apply merge_elem. by left.
  - rewrite (HL Build FromBuild) by tauto. rewrite Hm. eexists. split; [done|].
    intros api H. by apply Hin.
  - rewrite (HL Test FromTest) by tauto. rewrite Hm. eexists. split; [done|].
    intros api H. by apply Hin.
  - rewrite (HD FromBuild) by tauto. rewrite Hm. eexists. split; [done|].
    intros api H. by apply Hin.
  - rewrite (HD FromTest) by tauto. rewrite Hm. eexists. split; [done|].
    intros api H. by apply Hin.
Qed.

Lemma permitted_spec idx c k api :
  made_for idx c ->
  api ∈ apis_of (cf_permissions_no_inheritance c) k \/ api ∈ apis_of (cf_permissions c) k <->
  permitted c k api.
Proof.
  intros [H1 H2]. unfold permitted, apis_of. rewrite H1, H2. split.
  - intros [H|H].
    + destruct (perms_from_config _ !! k) as [pc|] eqn:E; [|by apply elem_of_nil in H].
      destruct (own_in_effective _ idx _ _ E) as (e & He & Hin). eauto.
    + destruct (perms_with_inheritance _ _ !! k) as [pc|] eqn:E; [|by apply elem_of_nil in H].
      eauto.
  - intros (e & He & Ha). right. by rewrite He.
Qed.

Lemma section_grants_spec idx c k api :
  made_for idx c ->
  api ∈ apis_of (cf_permissions_no_inheritance c) k <-> section_grants c k api.
Proof.
  intros [_ H2]. unfold section_grants, apis_of. rewrite H2.
  destruct k as [pkg s]. rewrite perms_from_config_lookup. unfold stripped. cbn [fst snd].
  destruct s; cbn; destruct (section (cf_raw c) pkg _) as [sec|] eqn:E; cbn;
    (split; [intros H; try (by apply elem_of_nil in H); eauto|]);
    intros (sec' & Hs & Ha); congruence.
Qed.

(** Every grant of every configuration loaded so far is in force. *)
Lemma grants_accumulate env ops k api :
  (forall c, OpLoad c ∈ ops -> made_for (en_index env) c) ->
  is_allowed (checker_run env ops) k api = true <-> granted ops k api.
Proof.
  intros Hm. unfold granted. rewrite is_allowed_spec, run_allowed. split.
  - intros (c & Hc & H). exists c. split; [done|]. by apply (permitted_spec (en_index env)); [apply Hm|].
  - intros (c & Hc & H). exists c. split; [done|]. by apply (permitted_spec (en_index env)); [apply Hm|].
Qed.

Lemma unused_exact env c ops k api :
  made_for (en_index env) c ->
  (forall c', OpLoad c' ∈ ops -> c' = c) ->
  api ∈ unused_set (checker_run env (OpLoad c :: ops)) k <->
  section_grants c k api /\ ~ used_through c ops k api.
Proof.
  intros Hm. induction ops as [|op ops IH] using rev_ind; intros Hc.
  - change (checker_run env [OpLoad c]) with (update_config checker_init c).
    destruct (update_config_spec checker_init c k api) as (_ & -> & _).
    rewrite (section_grants_spec (en_index env)) by done. split.
    + intros [H|[H _]]; [by apply elem_of_empty in H|]. split; [done|].
      by intros (u & ?%elem_of_nil & _).
    + intros [H _]. right. split; [done|]. by intros ?%elem_of_empty.
  - assert (Hc' : forall c', OpLoad c' ∈ ops -> c' = c).
    { intros c' H. apply Hc. apply elem_of_app. by left. }
    specialize (IH Hc'). rewrite app_comm_cons, checker_run_snoc.
    assert (Hall : forall sel a, is_allowed (checker_run env (OpLoad c :: ops)) sel a = true
                          <-> permitted c sel a).
    { intros sel a. rewrite grants_accumulate.
      - split.
        + intros (c' & [[= ->]|H]%elem_of_cons & ?); [done|]. by rewrite <- (Hc' c' H).
        + intros H. exists c. split; [left|done].
      - intros c' [[= ->]|H]%elem_of_cons; [done|]. by rewrite (Hc' c' H). }
    destruct op as [c'|u|info]; cbn.
    + assert (c' = c) as ->. { apply Hc. apply elem_of_app. right. left. }
      destruct (update_config_spec (checker_run env (OpLoad c :: ops)) c k api) as (_ & -> & _).
      rewrite IH. split.
      * intros [[H1 H2]|[H1 H2]].
        -- split; [done|]. intros (u & [Hu|Hu]%elem_of_app & Hu2).
           ++ apply H2. by exists u.
           ++ by apply elem_of_list_singleton in Hu.
        -- exfalso. apply H2. apply is_allowed_spec. apply Hall.
           apply (permitted_spec (en_index env)); auto.
      * intros [H1 H2]. left. split; [done|]. intros (u & Hu & Hu2). apply H2.
        exists u. split; [|done]. apply elem_of_app. by left.
    + destruct (api_used_books env (checker_run env (OpLoad c :: ops)) u k) as (_ & _ & H).
      rewrite H, IH, Hall. split.
      * intros [[H1 H2] H3]. split; [done|].
        intros (v & [Hv|Hv]%elem_of_app & Hv2).
        -- apply H2. by exists v.
        -- apply elem_of_list_singleton in Hv. injection Hv as ->. apply H3.
           destruct Hv2 as (-> & ? & ? & ?). done.
      * intros [H1 H2]. split; [split; [done|]|].
        -- intros (v & Hv & Hv2). apply H2. exists v. split; [|done]. apply elem_of_app. by left.
        -- intros (H4 & <- & H6 & H7). apply H2. exists u. split; [|done].
           apply elem_of_app. right. left.
    + etransitivity; [exact IH|]. unfold used_through.
      setoid_rewrite elem_of_app. setoid_rewrite elem_of_list_singleton.
      split; intros [H1 H2]; (split; [done|]); intros (u & Hu & Hu2); apply H2; exists u; [|tauto].
      by destruct Hu as [Hu|Hu].
Qed.

(** ** check_unused *)

Lemma check_unused_ops env ops : ck_outstanding (checker_run env ops) = [].
Proof.
  induction ops as [|op ops IH] using rev_ind; [done|]. rewrite checker_run_snoc.
  destruct op as [c|u|info]; cbn; [done| |done]. unfold api_used.
  destruct (is_allowed _ _ _); [done|]. by destruct (partition_usages _ _ _ _ _) as [[]|].
Qed.

Lemma run_config env ops c :
  (forall c', OpLoad c' ∈ ops -> c' = c) ->
  ck_config (checker_run env (OpLoad c :: ops)) = c.
Proof.
  induction ops as [|op ops IH] using rev_ind; intros Hc; [done|].
  rewrite app_comm_cons, checker_run_snoc.
  assert (Hc' : forall c', OpLoad c' ∈ ops -> c' = c).
  { intros c' H. apply Hc. apply elem_of_app. by left. }
  destruct op as [c'|u|info]; cbn.
  - apply Hc. apply elem_of_app. right. left.
  - unfold api_used. destruct (is_allowed _ _ _); [by apply IH|].
    destruct (partition_usages _ _ _ _ _) as [[]|]; by apply IH.
  - by apply IH.
Qed.

Lemma elem_of_concat_map {A B} (f : A -> list B) (l : list A) (y : B) :
  y ∈ concat (map f l) <-> exists x, x ∈ l /\ y ∈ f x.
Proof.
  induction l as [|a l IH]; cbn.
  - rewrite elem_of_nil. split; [done|]. by intros (? & ?%elem_of_nil & _).
  - rewrite elem_of_app, IH. setoid_rewrite elem_of_cons. naive_solver.
Qed.

Lemma check_unused_elem env ck ps p :
  check_unused env ck = Some ps ->
  p ∈ ps <->
  (exists k i, ck_infos ck !! k = Some i /\ p ∈ unused_problem env (k, i)) \/
  (exists k pc, cf_permissions_no_inheritance (ck_config ck) !! k = Some pc /\
     p ∈ unused_sandbox_problem (k, pc)).
Proof.
  unfold check_unused. destruct (ck_outstanding ck); [|done]. intros [= <-].
  rewrite elem_of_app, !elem_of_concat_map. 
  assert (Hiff : forall A B C D : Prop, (A <-> C) -> (B <-> D) -> (A \/ B <-> C \/ D)) by tauto.
  apply Hiff.
  - split.
    + intros ([k i] & Hin & Hp). apply elem_of_map_to_list in Hin. eauto.
    + intros (k & i & Hin & Hp). exists (k, i). by rewrite elem_of_map_to_list.
  - split.
    + intros ([k i] & Hin & Hp). apply elem_of_map_to_list in Hin. eauto.
    + intros (k & i & Hin & Hp). exists (k, i). by rewrite elem_of_map_to_list.
Qed.

Lemma unused_report env c ops ps :
  made_for (en_index env) c ->
  (forall c', OpLoad c' ∈ ops -> c' = c) ->
  check_unused env (checker_run env (OpLoad c :: ops)) = Some ps ->
  (forall k apis, PUnusedAllowApi k apis ∈ ps ->
     apis <> [] /\ NoDup apis /\
     forall api, api ∈ apis <-> section_grants c k api /\ ~ used_through c ops k api) /\
  (forall k api, section_grants c k api -> ~ used_through c ops k api ->
     exists apis, PUnusedAllowApi k apis ∈ ps) /\
  (forall k, PUnusedPackageConfig k ∈ ps <->
     is_Some (section (cf_raw c) k.1 k.2) /\ ~ index_selector (en_index env) k.1 k.2) /\
  (forall k, PUnusedSandboxConfiguration k ∈ ps <->
     exists sec, section (cf_raw c) k.1 k.2 = Some sec /\
       sb_kind (pc_sandbox sec) <> None /\ k.2 <> Build /\ k.2 <> Test).
Proof.
  intros Hm Hc Hps.
  pose proof (fun k api => unused_exact env c ops k api Hm Hc) as HU.
  pose proof (run_keys env (OpLoad c :: ops)) as HK.
  pose proof (fun p => check_unused_elem _ _ _ p Hps) as HE.
  rewrite (run_config env ops c Hc) in HE.
  set (ck := checker_run env (OpLoad c :: ops)) in *.
  split_and!.
  - intros k apis Hin. apply HE in Hin as [(k' & i & Hi & Hin)|(k' & pc & _ & Hin)].
    + unfold unused_problem in Hin. cbn in Hin.
      apply elem_of_app in Hin as [Hin|Hin].
      { case_bool_decide; [by apply elem_of_nil in Hin|by apply elem_of_list_singleton in Hin]. }
      case_bool_decide as He; [by apply elem_of_nil in Hin|].
      apply elem_of_list_singleton in Hin. injection Hin as -> ->.
      split; [|split].
      * intros Hn. apply He. by apply leibniz_equiv, elements_empty_inv.
      * apply NoDup_elements.
      * intros api. rewrite elem_of_elements, <- HU. unfold unused_set. by rewrite Hi.
    + unfold unused_sandbox_problem in Hin. destruct (sb_kind _), k' as [? []]; cbn in Hin;
        try (by apply elem_of_nil in Hin); by apply elem_of_list_singleton in Hin.
  - intros k api Hg Hn.
    assert (Hin : api ∈ unused_set ck k) by by apply HU.
    unfold unused_set in Hin. destruct (ck_infos ck !! k) as [i|] eqn:Ei;
      [|by apply elem_of_empty in Hin]. cbn in Hin.
    exists (elements (ci_unused i)). apply HE. left. exists k, i. split; [done|].
    unfold unused_problem. cbn. apply elem_of_app. right.
    rewrite bool_decide_eq_false_2; [left|]. intros He. rewrite He in Hin.
    by apply elem_of_empty in Hin.
  - intros k. rewrite HE. split.
    + intros [(k' & i & Hi & Hin)|(k' & pc & _ & Hin)].
      * unfold unused_problem in Hin. cbn in Hin. apply elem_of_app in Hin as [Hin|Hin].
        2:{ case_bool_decide; [by apply elem_of_nil in Hin|by apply elem_of_list_singleton in Hin]. }
        case_bool_decide as Hs; [by apply elem_of_nil in Hin|].
        apply elem_of_list_singleton in Hin. injection Hin as ->.
        assert (Hni : ~ index_selector (en_index env) k'.1 k'.2).
        { intros H. apply Hs. destruct k'. by apply index_selector_spec. }
        split; [|done].
        destruct (proj1 (HK k')) as (c' & Hc' & Hk); [eauto|].
        assert (c' = c) as ->.
        { apply elem_of_cons in Hc' as [[= ->]|H]; [done|by apply Hc]. }
        destruct Hm as [Hm1 Hm2]. rewrite Hm1, Hm2 in Hk. destruct k' as [pkg s]. cbn in *.
        assert (Hst : is_Some (stripped (cf_raw c) pkg s) -> is_Some (section (cf_raw c) pkg s)).
        { unfold stripped. destruct s; try done. by rewrite fmap_is_Some. }
        apply Hst. destruct Hk as [Hk|Hk]; [by rewrite perms_from_config_lookup in Hk|].
        unfold perms_with_inheritance in Hk.
        set (m := foldl add_default_entry _ _) in Hk.
        assert (Hms : is_Some (m !! (pkg, s))).
        { destruct (apply_inheritance_lookup m (rc_sandbox (cf_raw c)) pkg) as (HA & HD & HL).
          destruct s.
          - rewrite HA in Hk. by rewrite fmap_is_Some in Hk.
          - rewrite (HL Build FromBuild) in Hk by tauto. by rewrite fmap_is_Some in Hk.
          - rewrite (HL Test FromTest) in Hk by tauto. by rewrite fmap_is_Some in Hk.
          - rewrite (HD FromBuild) in Hk by tauto. by rewrite fmap_is_Some in Hk.
          - rewrite (HD FromTest) in Hk by tauto. by rewrite fmap_is_Some in Hk. }
        unfold m in Hms. rewrite entries_lookup in Hms.
        destruct (stripped (cf_raw c) pkg s); [by eexists|].
        rewrite decide_False in Hms by done. done.
      * unfold unused_sandbox_problem in Hin. destruct (sb_kind _), k' as [? []]; cbn in Hin;
          try (by apply elem_of_nil in Hin); by apply elem_of_list_singleton in Hin.
    + intros [Hsec Hni]. left.
      assert (Hk : is_Some (ck_infos ck !! k)).
      { apply HK. exists c. split; [left|]. left. destruct Hm as [_ ->]. destruct k as [pkg s].
        rewrite perms_from_config_lookup. unfold stripped. cbn in *.
        destruct s; try done. by rewrite fmap_is_Some. }
      destruct Hk as [i Hi]. exists k, i. split; [done|]. unfold unused_problem. cbn.
      apply elem_of_app. left. rewrite bool_decide_eq_false_2; [left|].
      intros H. apply Hni. destruct k. by apply index_selector_spec.
  - intros k. rewrite HE. split.
    + intros [(k' & i & _ & Hin)|(k' & pc & Hpc & Hin)].
      * unfold unused_problem in Hin. cbn in Hin. apply elem_of_app in Hin as [Hin|Hin];
          case_bool_decide; try (by apply elem_of_nil in Hin); by apply elem_of_list_singleton in Hin.
      * destruct Hm as [_ Hm2]. rewrite Hm2 in Hpc. destruct k' as [pkg s].
        rewrite perms_from_config_lookup in Hpc. unfold unused_sandbox_problem in Hin.
        cbn in Hin. destruct (sb_kind (pc_sandbox pc)) as [kd|] eqn:Ek; [|by apply elem_of_nil in Hin].
        unfold stripped in Hpc.
        destruct s; try (by apply elem_of_nil in Hin); apply elem_of_list_singleton in Hin;
          injection Hin as ->; cbn.
        -- apply fmap_Some in Hpc as (sec & Hsec & ->). cbn in Ek. exists sec.
           split; [done|]. split; [congruence|done].
        -- exists pc. split; [done|]. split; [congruence|done].
        -- exists pc. split; [done|]. split; [congruence|done].
    + intros (sec & Hsec & Hk & Hb & Ht). right.
      destruct Hm as [_ Hm2]. rewrite Hm2. destruct k as [pkg s]. cbn in *.
      exists (pkg, s).
      assert (exists pc, stripped (cf_raw c) pkg s = Some pc /\ pc_sandbox pc = pc_sandbox sec)
        as (pc & Hpc & Hsb).
      { unfold stripped. destruct s; rewrite Hsec; cbn; eauto. }
      exists pc. rewrite perms_from_config_lookup. split; [done|].
      unfold unused_sandbox_problem. cbn. rewrite Hsb.
      destruct (sb_kind (pc_sandbox sec)); [|done]. destruct s; try done; left.
Qed.

(** ** C11 *)
Lemma build_script_never_reported env ops (p : package) (v : list nat) :
  (forall c, OpLoad c ∈ ops -> made_for (en_index env) c) ->
  (exists c, OpLoad c ∈ ops) ->
  p ∈ en_index env -> pk_has_build_script p = true ->
  verify_build_script_permitted (checker_run env ops) (PkgId (pk_name p) v) = [].
Proof.
  intros Hm [c Hc] Hp Hb. unfold verify_build_script_permitted.
  destruct (rc_explicit_build_scripts _); [|done].
  assert (Hk : is_Some (ck_infos (checker_run env ops) !! (pk_name p, Build))).
  { apply run_keys. exists c. split; [done|]. right. destruct (Hm c Hc) as [-> _].
    apply permission_entries; [done|]. right. by exists p. }
  cbn [pi_name]. destruct Hk as [i ->]. done.
Qed.

(** ** C08 for reachable states *)
Lemma usage_never_dropped env ops u ck' r :
  (forall c, OpLoad c ∈ ops -> made_for (en_index env) c) ->
  let ck := checker_run env ops in
  api_used env ck u = (ck', r) ->
  (granted ops (usages_perm_sel u) (au_api u) -> r = Some []) /\
  (~ granted ops (usages_perm_sel u) (au_api u) ->
   match r with
   | None =>
       exists x path, x ∈ au_usages u /\ (exists owner, reaches_off_tree env (au_pkg u) x owner) /\
         us_outer x = Some path /\ source_unknown env ck path
   | Some ps =>
       (exists rest, concat (map shown ps) ++ rest ≡ₚ au_usages u /\
          forall x, x ∈ rest -> excused env ck (au_pkg u) x) /\
       (forall x, x ∈ concat (map shown ps) -> ~ excused env ck (au_pkg u) x) /\
       (forall p, p ∈ ps ->
          (exists l, p = PDisallowedApiUsage (with_usages u l) /\ l <> [] /\
             forall x, x ∈ l -> forall owner, ~ reaches_off_tree env (au_pkg u) x owner) \/
          (exists l owner, p = POffTreeApiUsage (with_usages u l) owner /\ l <> [] /\
             forall x, x ∈ l -> reaches_off_tree env (au_pkg u) x owner))
   end).
Proof.
  intros Hm ck E. rewrite <- (grants_accumulate env ops) by done. fold ck. split.
  - intros H. pose proof (api_used_allowed env ck u H) as Hr. by rewrite E in Hr.
  - intros H%not_true_is_false. destruct r as [ps|].
    + by destruct (api_used_disallowed _ _ _ _ _ H E) as (_ & ?).
    + assert (Hn : (api_used env ck u).2 = None) by by rewrite E.
      apply api_used_error in Hn as (_ & x & Hx & Ho & path & Hp & Hu). eauto 10.
Qed.
