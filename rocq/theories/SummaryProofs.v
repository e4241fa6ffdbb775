(** Proofs about the summary. *)
From Coq Require Import Lia.
From Verif Require Import Base BaseFacts ApiMapModel ConfigModel SummaryModel SummarySpec.

(** ** Order *)

Lemma str_leb_total (a b : str) : str_leb a b = false -> str_leb b a = true.
Proof.
  revert b. induction a as [|x a IH]; intros [|y b]; cbn [str_leb]; try done.
  destruct (N.ltb_spec (N_of_ascii x) (N_of_ascii y)); [done|].
  destruct (N.eqb_spec (N_of_ascii x) (N_of_ascii y)) as [E|E].
  - rewrite E. rewrite N.ltb_irrefl, N.eqb_refl. apply IH.
  - intros _. destruct (N.ltb_spec (N_of_ascii y) (N_of_ascii x)); [done|lia].
Qed.

Lemma str_leb_trans (a b c : str) : str_leb a b = true -> str_leb b c = true -> str_leb a c = true.
Proof.
  revert b c. induction a as [|x a IH]; intros [|y b] [|z c]; cbn [str_leb]; try done.
  destruct (N.ltb_spec (N_of_ascii x) (N_of_ascii y)), (N.ltb_spec (N_of_ascii y) (N_of_ascii z)),
    (N.ltb_spec (N_of_ascii x) (N_of_ascii z)), (N.eqb_spec (N_of_ascii x) (N_of_ascii y)),
    (N.eqb_spec (N_of_ascii y) (N_of_ascii z)), (N.eqb_spec (N_of_ascii x) (N_of_ascii z));
    try done; try lia. apply IH.
Qed.

Notation by_name := (fun p q : package_summary => str_leb (ps_name p) (ps_name q) = true).

Lemma insert_perm (p : package_summary) (l : list package_summary) : insert_summary p l ≡ₚ p :: l.
Proof.
  induction l as [|q l IH]; cbn [insert_summary]; [done|]. destruct (str_leb _ _); [done|].
  rewrite IH. constructor.
Qed.

Lemma sort_perm (l : list package_summary) : sort_summaries l ≡ₚ l.
Proof. induction l as [|p l IH]; [done|]. cbn. rewrite insert_perm. by constructor. Qed.

Lemma insert_ordered (p : package_summary) (l : list package_summary) :
  StronglySorted by_name l -> StronglySorted by_name (insert_summary p l).
Proof.
  induction 1 as [|q l Hs IH Hall]; cbn [insert_summary].
  - repeat constructor.
  - destruct (str_leb (ps_name p) (ps_name q)) eqn:E.
    + constructor; [by constructor|]. constructor; [done|]. eapply Forall_impl; [exact Hall|].
      intros r Hr. by eapply str_leb_trans.
    + constructor; [done|]. rewrite insert_perm. constructor; [by apply str_leb_total|done].
Qed.

Lemma sort_ordered (l : list package_summary) : StronglySorted by_name (sort_summaries l).
Proof. induction l as [|p l IH]; [constructor|]. cbn. by apply insert_ordered. Qed.

(** ** Permissions *)

Lemma section_spec (c : package_config) (suffix perm : str) :
  perm ∈ section_permissions c suffix <-> exists x, grants c x /\ perm = x ++ suffix.
Proof.
  unfold section_permissions. rewrite !elem_of_app. split.
  - intros [H|[H|[H|H]]].
    + destruct (pc_allow_proc_macro c) eqn:E; [|by apply elem_of_nil in H].
      apply elem_of_list_singleton in H as ->. eexists. split; [by apply gr_proc_macro|done].
    + destruct (pc_allow_unsafe c) eqn:E; [|by apply elem_of_nil in H].
      apply elem_of_list_singleton in H as ->. eexists. split; [by apply gr_unsafe|done].
    + destruct (pc_allow_extern c) eqn:E; [|by apply elem_of_nil in H].
      apply elem_of_list_singleton in H as ->. eexists. split; [by apply gr_extern|done].
    + apply elem_of_list_fmap in H as (api & -> & Hin). exists api. split; [by apply gr_api|done].
  - intros (x & Hx & ->). destruct Hx as [E|E|E|api Hin].
    + left. rewrite E. by apply elem_of_list_singleton.
    + right. left. rewrite E. by apply elem_of_list_singleton.
    + right. right. left. rewrite E. by apply elem_of_list_singleton.
    + right. right. right. apply elem_of_list_fmap. eauto.
Qed.

Lemma summarise_spec (perms : permissions) (name perm : str) :
  perm ∈ ps_permissions (summarise perms name) <-> granted perms name perm.
Proof.
  unfold summarise. cbn [ps_permissions]. rewrite elem_of_app. split.
  - intros [H|H].
    + destruct (perms !! (name, All)) as [c|] eqn:E; [|by apply elem_of_nil in H].
      apply section_spec in H as (x & Hx & ->). rewrite app_nil_r. by eapply gd_all.
    + destruct (perms !! (name, Build)) as [c|] eqn:E; [|by apply elem_of_nil in H].
      apply section_spec in H as (x & Hx & ->). by eapply gd_build.
  - intros [c x E Hx|c x E Hx]; rewrite E.
    + left. apply section_spec. exists x. by rewrite app_nil_r.
    + right. apply section_spec. by exists x.
Qed.

(** ** Procedural macros *)

Lemma starts_app (p a b : str) (c : ascii) :
  c ∉ p -> starts_with p (a ++ c :: b) = starts_with p a.
Proof.
  revert a. induction p as [|x p IH]; intros a Hc; [by destruct a|].
  apply not_elem_of_cons in Hc as [Hx Hp]. destruct a as [|y a]; cbn [app starts_with].
  - destruct (Ascii.eqb_spec x c); [congruence|done].
  - by rewrite IH.
Qed.

Lemma ends_app (p a : str) : ends_with p (a ++ p) = true.
Proof. unfold ends_with. rewrite rev_app_distr. apply starts_with_spec. by exists (rev a). Qed.

Lemma existsb_elem {A} (f : A -> bool) (l : list A) : existsb f l = true <-> exists x, x ∈ l /\ f x = true.
Proof. rewrite existsb_exists. by setoid_rewrite elem_of_list_In. Qed.

Lemma plain_api_spec (api : str) :
  plain_api api <-> starts_with (lit "proc_macro") api = false /\ ends_with (lit "[build]") api = false.
Proof.
  unfold plain_api, ends_with. rewrite <- !not_true_iff_false, !starts_with_spec. split.
  - intros [H1 H2]. split; [by intros [x ->]; apply (H1 x)|]. intros [x E]. apply (H2 (rev x)).
    by rewrite <- (rev_involutive api), E, rev_app_distr, rev_involutive.
  - intros [H1 H2]. split; intros x ->; [apply H1; by exists x|]. apply H2. exists (rev x). by rewrite rev_app_distr.
Qed.

Lemma impure_spec (perms : permissions) (name : str) :
  (forall sel c api, perms !! sel = Some c -> api ∈ pc_allow_apis c -> plain_api api) ->
  proc_macro_with_others (summarise perms name) = true <-> impure_proc_macro perms name.
Proof.
  intros Hplain0. pose proof (fun sel c api E Hin => proj1 (plain_api_spec api) (Hplain0 sel c api E Hin)) as Hplain.
  unfold proc_macro_with_others. rewrite andb_true_iff, !existsb_elem.
  assert (Hb : forall x, starts_with (lit "proc_macro") (x ++ lit "[build]") = starts_with (lit "proc_macro") x).
  { intros x. change (lit "[build]") with ("["%char :: lit "build]"). apply starts_app.
    apply (bool_decide_unpack _). by vm_compute. }
  assert (Hpm : forall sel c x, perms !! sel = Some c -> grants c x ->
    starts_with (lit "proc_macro") x = true -> pc_allow_proc_macro c = true).
  { intros sel c x E Hx Hs. destruct Hx as [H|H|H|api Hin]; [done|discriminate Hs|discriminate Hs|].
    destruct (Hplain _ _ _ E Hin) as [Hf _]. congruence. }
  split.
  - intros [(x & Hx & Hs) (y & Hy & Hn)]. apply summarise_spec in Hx, Hy. split.
    + destruct Hx as [c x E Hg|c x E Hg].
      * exists c, All. split_and!; [by left|done|by eapply Hpm].
      * rewrite Hb in Hs. exists c, Build. split_and!; [by right|done|by eapply Hpm].
    + apply andb_true_iff in Hn as [Hn1 Hn2]. apply negb_true_iff in Hn1, Hn2.
      destruct Hy as [c y E Hg|c y E Hg]; [|by rewrite ends_app in Hn2].
      exists c. split; [done|]. destruct Hg as [H|H|H|api Hin]; [discriminate Hn1|by left|by right; left|].
      right. right. intros Hnil. rewrite Hnil in Hin. by apply elem_of_nil in Hin.
  - intros [(c & sc & Hsc & E & Hp) (d & Ed & Hd)]. split.
    + destruct Hsc as [-> | ->].
      * exists (lit "proc_macro"). split; [|done]. apply summarise_spec. eapply gd_all; [exact E|by apply gr_proc_macro].
      * exists (lit "proc_macro" ++ lit "[build]"). split; [|done]. apply summarise_spec.
        eapply gd_build; [exact E|by apply gr_proc_macro].
    + assert (forall y, grants d y -> starts_with (lit "proc_macro") y = false ->
        ends_with (lit "[build]") y = false -> exists x, x ∈ ps_permissions (summarise perms name) /\
          negb (starts_with (lit "proc_macro") x) && negb (ends_with (lit "[build]") x) = true) as Hok.
      { intros y Hy H1 H2. exists y. split; [apply summarise_spec; eapply gd_all; [exact Ed|done]|]. by rewrite H1, H2. }
      destruct Hd as [H|[H|H]].
      * by apply (Hok (lit "unsafe")); [apply gr_unsafe|..].
      * by apply (Hok (lit "extern")); [apply gr_extern|..].
      * destruct (pc_allow_apis d) as [|api apis] eqn:Ea; [done|].
        assert (api ∈ pc_allow_apis d) as Hin by (rewrite Ea; left).
        destruct (Hplain _ _ _ Ed Hin) as [H1 H2]. by apply (Hok api); [apply gr_api|..].
Qed.

(** ** Maps *)

Definition add_permissions (name : str) (m : gmap str (list str)) (l : list str) : gmap str (list str) :=
  foldl (fun m perm => <[perm := default [] (m !! perm) ++ [name]]> m) m l.

Lemma add_permissions_spec (name : str) (l : list str) : forall (m : gmap str (list str)) (perm n : str),
  (exists ns, add_permissions name m l !! perm = Some ns /\ n ∈ ns) <->
  (exists ns, m !! perm = Some ns /\ n ∈ ns) \/ n = name /\ perm ∈ l.
Proof.
  unfold add_permissions. induction l as [|x l IH]; intros m perm n; cbn [foldl].
  - split; [by left|]. intros [H|[_ H]]; [done|by apply elem_of_nil in H].
  - rewrite IH. rewrite elem_of_cons. destruct (decide (perm = x)) as [->|Hne].
    + rewrite lookup_insert. split.
      * intros [(ns & [= <-] & Hin)|[-> Hin]]; [|by right; auto].
        apply elem_of_app in Hin as [Hin|Hin].
        -- left. destruct (m !! x) as [ns|]; [by exists ns|by apply elem_of_nil in Hin].
        -- apply elem_of_list_singleton in Hin as ->. right. auto.
      * intros [(ns & E & Hin)|[-> _]]; left; eexists; (split; [reflexivity|]); apply elem_of_app.
        -- left. by rewrite E.
        -- right. by apply elem_of_list_singleton.
    + rewrite lookup_insert_ne by done. split; intros [H|[-> H]]; auto. destruct H; [done|auto].
Qed.

Lemma by_permission_spec (l : list package_summary) (perm n : str) :
  (exists ns, by_permission l !! perm = Some ns /\ n ∈ ns) <->
  (exists p, p ∈ l /\ ps_name p = n /\ perm ∈ ps_permissions p).
Proof.
  unfold by_permission.
  assert (forall m : gmap str (list str),
    (exists ns, foldl (fun m p => add_permissions (ps_name p) m (ps_permissions p)) m l !! perm = Some ns /\ n ∈ ns) <->
    (exists ns, m !! perm = Some ns /\ n ∈ ns) \/
    (exists p, p ∈ l /\ ps_name p = n /\ perm ∈ ps_permissions p)) as H.
  { induction l as [|q l IH]; intros m; cbn [foldl].
    - split; [by left|]. intros [H|(p & H & _)]; [done|by apply elem_of_nil in H].
    - rewrite IH, add_permissions_spec. split.
      + intros [[H|[-> H]]|(p & Hp & H)]; [by left| |].
        * right. exists q. split; [left|done].
        * right. exists p. split; [by right|done].
      + intros [H|(p & Hp & Hn & H)]; [by left; left|].
        apply elem_of_cons in Hp as [->|Hp]; [left; right; by subst|right; eauto]. }
  specialize (H ∅). setoid_rewrite lookup_empty in H. rewrite H. split; [|by right].
  intros [(ns & ? & _)|?]; done.
Qed.

Lemma by_package_spec (l : list package_summary) (name : str) (perms : list str) :
  (forall p q, p ∈ l -> q ∈ l -> ps_name p = ps_name q -> ps_permissions p = ps_permissions q) ->
  by_package l !! name = Some perms <-> PackageSummary name perms ∈ l.
Proof.
  unfold by_package.
  assert (forall m : gmap str (list str),
    foldl (fun m p => <[ps_name p := ps_permissions p]> m) m l !! name =
    match last (filter (fun p => ps_name p = name) l) with
    | Some p => Some (ps_permissions p)
    | None => m !! name
    end) as H.
  { induction l as [|q l IH]; intros m; cbn [foldl]; [done|]. rewrite IH, filter_cons.
    destruct (decide (ps_name q = name)) as [<-|Hne].
    - rewrite last_cons. destruct (last _); [done|]. apply lookup_insert.
    - destruct (last _); [done|]. by apply lookup_insert_ne. }
  intros Hsame. rewrite H. clear H.
  destruct (last (filter (fun p => ps_name p = name) l)) as [p|] eqn:E.
  - assert (p ∈ filter (fun p => ps_name p = name) l) as Hp by (by apply last_Some_elem_of in E).
    apply elem_of_list_filter in Hp as [<- Hp]. split.
    + intros [= <-]. by destruct p.
    + intros Hin. f_equal. symmetry. by apply (Hsame (PackageSummary (ps_name p) perms) p).
  - apply last_None in E. rewrite lookup_empty. split; [done|]. intros Hin.
    assert (PackageSummary name perms ∈ filter (fun p => ps_name p = name) l) as Hf
      by (by apply elem_of_list_filter).
    rewrite E in Hf. by apply elem_of_nil in Hf.
Qed.

(** ** Counts *)

Lemma count_perm {A} (f : A -> bool) (l l' : list A) :
  l ≡ₚ l' -> length (List.filter f l) = length (List.filter f l').
Proof.
  induction 1 as [|x l l' _ IH|x y l|l1 l2 l3 _ IH1 _ IH2]; [done| | |congruence].
  - cbn [List.filter]. destruct (f x); cbn [length]; congruence.
  - cbn [List.filter]. by destruct (f x), (f y).
Qed.

Lemma count_map (f : package_summary -> bool) (g : str -> bool) (perms : permissions) (idx : crate_index) :
  (forall name, f (summarise perms name) = true <-> g name = true) ->
  length (List.filter f (map (fun p => summarise perms (pk_name p)) idx)) =
  length (List.filter g (map pk_name idx)).
Proof.
  intros H. induction idx as [|p idx IH]; [done|]. cbn [map List.filter].
  assert (f (summarise perms (pk_name p)) = g (pk_name p)) as ->.
  { specialize (H (pk_name p)). destruct (f _), (g _); [done| | |done]; [symmetry|]; by apply H. }
  destruct (g (pk_name p)); cbn [length]; by rewrite IH.
Qed.
