From Verif Require Import Base BaseFacts TextModel ConfigModel ReportModel PackageModel PackageSpec.

Lemma infos_snoc (l : list listed) (p : listed) :
  package_infos (l ++ [p]) =
  <[(ls_name p, ls_version p) := Info (ls_dir p) (ls_description p) (ls_documentation p) (ls_macro p)]> (package_infos l).
Proof. unfold package_infos. by rewrite foldl_app. Qed.

(** The last package with a key is the one that is known. *)
Lemma infos_lookup (l : list listed) (k : str * str) (i : info) :
  package_infos l !! k = Some i <->
  exists n p, l !! n = Some p /\ (ls_name p, ls_version p) = k /\
    i = Info (ls_dir p) (ls_description p) (ls_documentation p) (ls_macro p) /\
    forall m q, l !! m = Some q -> (ls_name q, ls_version q) = k -> m <= n.
Proof.
  revert i. induction l as [|x l IH] using rev_ind; intros i.
  - unfold package_infos. cbn. rewrite lookup_empty. split; [done|]. intros (n & p & Hn & _). by rewrite lookup_nil in Hn.
  - rewrite infos_snoc. destruct (decide ((ls_name x, ls_version x) = k)) as [Ek|Ek].
    + rewrite <- Ek, lookup_insert. split.
      * intros [= <-]. exists (length l), x. split; [by rewrite list_lookup_middle|]. split; [done|]. split; [done|].
        intros m q Hm _. apply lookup_lt_Some in Hm. rewrite app_length in Hm. cbn in Hm. lia.
      * intros (n & p & Hn & Hk & -> & Hlast).
        assert (n = length l) as ->.
        { pose proof (lookup_lt_Some _ _ _ Hn) as Hlt. rewrite app_length in Hlt. cbn in Hlt.
          assert (length l <= n); [|lia]. apply (Hlast (length l) x); [by rewrite list_lookup_middle|done]. }
        rewrite list_lookup_middle in Hn by done. injection Hn as ->. done.
    + rewrite lookup_insert_ne by done. rewrite IH. split.
      * intros (n & p & Hn & Hk & -> & Hlast). exists n, p. split; [by apply lookup_app_l_Some|]. split; [done|]. split; [done|].
        intros m q Hm Hq. apply lookup_app_Some in Hm as [Hm|[_ Hm]]; [by apply (Hlast m q)|].
        apply list_lookup_singleton_Some in Hm as [_ <-]. done.
      * intros (n & p & Hn & Hk & -> & Hlast). apply lookup_app_Some in Hn as [Hn|[_ Hn]]; [|by apply list_lookup_singleton_Some in Hn as [_ <-]].
        exists n, p. split; [done|]. split; [done|]. split; [done|].
        intros m q Hm Hq. apply (Hlast m q); [|done]. by apply lookup_app_l_Some.
Qed.

Lemma infos_own (l : list listed) (p : listed) :
  told_apart l -> p ∈ l ->
  package_infos l !! (ls_name p, ls_version p) = Some (Info (ls_dir p) (ls_description p) (ls_documentation p) (ls_macro p)).
Proof.
  intros Ht [n Hn]%elem_of_list_lookup. apply infos_lookup. exists n, p. split_and!; try done.
  intros m q Hm [= E1 E2]. rewrite (Ht m n q p) by done. done.
Qed.

Lemma reported_iff (l : list listed) (permitted : str -> bool) (k : str * str) :
  k ∈ reported_macros l permitted <->
  exists i, package_infos l !! k = Some i /\ in_macro i = true /\ permitted k.1 = false.
Proof.
  unfold reported_macros. rewrite elem_of_list_omap. split.
  - intros ([k' i] & Hk & E). apply elem_of_map_to_list in Hk. cbn in E.
    destruct (in_macro i) eqn:Em; [|done]. destruct (permitted k'.1) eqn:Ep; [done|]. cbn in E. injection E as <-.
    by exists i.
  - intros (i & Hk & Em & Ep). exists (k, i). split; [by apply elem_of_map_to_list|]. cbn. by rewrite Em, Ep.
Qed.

Lemma trim_end_nil (s : str) : trim_end s = [] -> Forall white s.
Proof.
  induction s as [|c s IH]; [constructor|]. cbn [trim_end]. destruct (trim_end s); [|done].
  unfold is_white. case_bool_decide; [|done]. intros _. constructor; [done|by apply IH].
Qed.

Lemma trim_end_spec (s : str) : trimmed s (trim_end s).
Proof.
  induction s as [|c s (rest & E & Hr & Hl)].
  - exists []. split_and!; [done|constructor|done].
  - cbn [trim_end]. destruct (trim_end s) as [|d t] eqn:Et.
    + pose proof (trim_end_nil s Et) as Hw. unfold is_white. case_bool_decide as Hc.
      * exists (c :: s). split_and!; [done|by constructor|done].
      * exists s. split_and!; [done|done|]. intros x [= <-]. exact Hc.
    + exists rest. split_and!; [by rewrite E at 1|done|]. intros x Hx. apply Hl. by rewrite last_cons_cons in Hx.
Qed.
