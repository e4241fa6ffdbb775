(** Proofs about packages, selectors and dependency trees. *)
From Coq Require Import NArith.
From Verif Require Import Base BaseFacts TextModel TextFacts ConfigModel DemangleModel DemangleSpec
  DemangleProofs NamesProofs DepsSpec DepsProofs IndexModel IndexSpec.

(** ** Packages *)

Section index.
  Context {V : Type} `{Countable V}.
  Implicit Types (metas : list (meta V)) (m : meta V).

  Lemma name_count_one metas name : name_count metas name = 1 <-> only_one metas name.
  Proof.
    unfold name_count, only_one. split.
    - intros Hl. induction metas as [|m metas IH]; [done|].
      destruct (decide (m_name m = name)) as [Hm|Hm].
      + rewrite filter_cons_True in Hl by done. cbn in Hl. exists [], m, metas. split; [done|]. split; [done|].
        intros o Ho Heq. assert (X : o ∈ filter (fun m => m_name m = name) metas) by by apply elem_of_list_filter.
        destruct (filter _ metas); [by apply elem_of_nil in X|done].
      + rewrite filter_cons_False in Hl by done. destruct (IH Hl) as (b & x & a & -> & Hx & Ho).
        exists (m :: b), x, a. split; [done|]. split; [done|]. intros o Hin.
        cbn in Hin. apply elem_of_cons in Hin as [->|Hin]; [done|by apply Ho].
    - intros (b & m & a & -> & Hm & Ho). rewrite filter_app, filter_cons_True by done.
      assert (X : forall l, (forall o, o ∈ l -> m_name o <> name) -> filter (fun m => m_name m = name) l = []).
      { intros l Hl. induction l as [|o l IH]; [done|]. rewrite filter_cons_False.
        - apply IH. intros x Hx. apply Hl. by right.
        - apply Hl. left. }
      rewrite !X; [done| |]; intros o Hin; apply Ho, elem_of_app; [by right|by left].
  Qed.

  Lemma id_unique metas m : (id_of metas m).2 = true <-> only_one metas (m_name m).
  Proof. unfold id_of. cbn [snd]. rewrite Nat.eqb_eq. apply name_count_one. Qed.

  Lemma indexed_spec metas m : m ∈ indexed metas <-> m ∈ metas /\ is_Some (m_dir m).
  Proof. unfold indexed. rewrite elem_of_list_filter. tauto. Qed.

  Lemma package_ids_spec metas id :
    id ∈ package_ids metas <-> exists m, m ∈ metas /\ is_Some (m_dir m) /\ id = id_of metas m.
  Proof.
    unfold package_ids. rewrite elem_of_list_to_set, elem_of_list_fmap. split.
    - intros (m & -> & Hm). apply indexed_spec in Hm as [? ?]. by exists m.
    - intros (m & Hm & Hd & ->). exists m. split; [done|]. by apply indexed_spec.
  Qed.

  (** The names in the variable. *)
  Lemma internal_names metas name :
    (forall m, m ∈ metas -> proper_name (m_name m)) -> name <> [] ->
    name ∈ split_char "," (internal_env metas) <->
    exists m, m ∈ metas /\ is_Some (m_dir m) /\ m_name m = name /\ ~ only_one metas name.
  Proof.
    intros Hp Hne. unfold internal_env.
    set (l := map _ _).
    assert (Hl : forall x, x ∈ l <-> exists m, m ∈ metas /\ is_Some (m_dir m) /\ m_name m = x /\ ~ only_one metas x).
    { intros x. unfold l. rewrite elem_of_list_fmap. split.
      - intros (id & -> & Hid). apply elem_of_list_filter in Hid as [Hu Hid].
        apply elem_of_elements, package_ids_spec in Hid as (m & Hm & Hd & ->).
        exists m. split; [done|]. split; [done|]. split; [done|]. cbn [fst id_of]. intros Ho.
        apply id_unique in Ho. congruence.
      - intros (m & Hm & Hd & <- & Ho). exists (id_of metas m). split; [done|].
        apply elem_of_list_filter. split.
        + destruct (id_of metas m).2 eqn:E; [|done]. by apply id_unique in E.
        + apply elem_of_elements, package_ids_spec. by exists m. }
    destruct (decide (l = [])) as [E|E].
    - rewrite <- Hl, E. cbn. rewrite elem_of_list_singleton. split; [done|]. intros X. by apply elem_of_nil in X.
    - change (lit ",") with [","%char]. rewrite split_join; [apply Hl|done|].
      intros x Hx. apply Hl in Hx as (m & Hm & _ & <- & _). by apply Hp.
  Qed.

  Lemma id_from_env_spec parse_version show metas m env :
    (forall v, parse_version (show v) = Some v) ->
    (forall m, m ∈ metas -> proper_name (m_name m)) ->
    m ∈ metas -> is_Some (m_dir m) ->
    cargo_env show m (internal_env metas) env ->
    id_from_env parse_version env = Some (id_of metas m).
  Proof.
    intros Hv Hp Hm Hd (H1 & H2 & H3). unfold id_from_env. rewrite H1, H2, Hv, H3. unfold id_of. do 2 f_equal.
    destruct (Hp m Hm) as [Hne _].
    pose proof (internal_names metas (m_name m) Hp Hne) as Hi.
    destruct (forallb _ _) eqn:E.
    - symmetry. apply Nat.eqb_eq, name_count_one.
      destruct (decide (name_count metas (m_name m) = 1)) as [X|X]; [by apply name_count_one|].
      exfalso. rewrite forallb_forall in E.
      assert (Hin : m_name m ∈ split_char "," (internal_env metas)).
      { apply Hi. exists m. split; [done|]. split; [done|]. split; [done|]. by rewrite <- name_count_one. }
      apply elem_of_list_In, E in Hin. apply negb_true_iff in Hin. by apply str_eqb_false in Hin.
    - symmetry. apply Nat.eqb_neq. rewrite name_count_one. intros Ho.
      apply not_true_iff_false in E. apply E, forallb_forall. intros x Hx. apply negb_true_iff, str_eqb_false.
      intros ->. apply elem_of_list_In, Hi in Hx as (_ & _ & _ & _ & Hx). done.
  Qed.

  (** Directories. *)
  Lemma dir_to_id_spec metas dir id :
    dir_to_id metas !! dir = Some id <-> exists m, last_in metas dir m /\ id = id_of metas m.
  Proof.
    unfold dir_to_id.
    set (g := fun m => id_of metas m).
    assert (K : forall l (t : gmap (list str) (package_id V)),
      fold_left (fun t m => match m_dir m with Some dir => <[dir := g m]> t | None => t end) l t !! dir = Some id <->
      (exists m, last_in l dir m /\ id = g m) \/
      (forall m, m ∈ l -> m_dir m <> Some dir) /\ t !! dir = Some id).
    { induction l as [|m l IH]; intros t; cbn [fold_left].
      - split.
        + intros Hx. right. split; [|done]. intros m Hm. by apply elem_of_nil in Hm.
        + intros [(m & (b & a & X & _) & _)|[_ X]]; [by destruct b|done].
      - rewrite IH. clear IH. split.
        + intros [(x & (b & a & -> & Hx & Ha) & ->)|[Hn Ht]].
          * left. exists x. split; [|done]. exists (m :: b), a. done.
          * destruct (decide (m_dir m = Some dir)) as [Hd|Hd].
            -- left. exists m. rewrite Hd, lookup_insert in Ht. split; [|by injection Ht as <-].
               exists [], l. done.
            -- right. split.
               ++ intros x Hx. apply elem_of_cons in Hx as [->|Hx]; [done|by apply Hn].
               ++ destruct (m_dir m) as [d|]; [|done]. rewrite lookup_insert_ne in Ht by congruence. done.
        + intros [(x & (b & a & Hx & Hd & Ha) & ->)|[Hn Ht]].
          * destruct b as [|b0 b].
            -- injection Hx as -> ->. right. split; [done|]. by rewrite Hd, lookup_insert.
            -- injection Hx as -> ->. left. exists x. split; [|done]. exists b, a. done.
          * right. split; [intros x Hx; apply Hn; by right|].
            assert (X : m_dir m <> Some dir) by (apply Hn; left).
            destruct (m_dir m) as [d|]; [|done]. rewrite lookup_insert_ne by congruence. done. }
    rewrite K. split.
    - intros [(m & Hm & ->)|[_ X]]; [by exists m|]. by rewrite lookup_empty in X.
    - intros (m & Hm & ->). left. by exists m.
  Qed.

  Lemma for_path_spec (dirs : gmap (list str) (package_id V)) path id :
    package_id_for_path dirs path = Some id <->
    exists dir rest, path = dir ++ rest /\ dirs !! dir = Some id /\
      forall dir' rest', path = dir' ++ rest' -> length dir < length dir' -> dirs !! dir' = None.
  Proof.
    unfold package_id_for_path.
    assert (Hp : path = reverse (reverse path)) by by rewrite reverse_involutive.
    revert Hp. generalize (reverse path). intros rp ->. induction rp as [|c rp IH].
    - cbn [id_for_path]. change (reverse (A:=str) []) with (@nil str).
      destruct (dirs !! []) as [x|] eqn:E.
      + split.
        * intros [= ->]. exists [], []. split; [done|]. split; [done|]. intros d r Hd Hlt.
          destruct d; [cbn in Hlt; lia|done].
        * intros (d & r & Hd & Hx & _). destruct d; [|done]. congruence.
      + split; [done|]. intros (d & r & Hd & Hx & _). destruct d; [|done]. congruence.
    - cbn [id_for_path]. destruct (dirs !! reverse (c :: rp)) as [x|] eqn:E.
      + split.
        * intros [= ->]. exists (reverse (c :: rp)), []. split; [by rewrite app_nil_r|]. split; [done|].
          intros d r Hd Hlt. apply (f_equal length) in Hd. rewrite app_length in Hd. lia.
        * intros (d & r & Hd & Hx & Hn). destruct r as [|r0 r].
          -- rewrite app_nil_r in Hd. congruence.
          -- rewrite (Hn (reverse (c :: rp)) []) in E; [done|by rewrite app_nil_r|].
             rewrite Hd, app_length. cbn [length]. lia.
      + rewrite IH. clear IH. rewrite reverse_cons. split.
        * intros (d & r & Hd & Hx & Hn). exists d, (r ++ [c]). split; [by rewrite Hd, app_assoc|]. split; [done|].
          intros d' r' Hd' Hlt. destruct (decide (r' = [])) as [->|Hr].
          -- rewrite app_nil_r in Hd'. rewrite <- Hd'. by rewrite reverse_cons in E.
          -- destruct (exists_last Hr) as (r2 & y & ->). rewrite app_assoc in Hd'.
             apply app_inj_tail in Hd' as [Hd' _]. by apply (Hn d' r2).
        * intros (d & r & Hd & Hx & Hn). destruct (decide (r = [])) as [->|Hr].
          -- rewrite app_nil_r in Hd. rewrite reverse_cons in E. congruence.
          -- destruct (exists_last Hr) as (r2 & y & ->). rewrite app_assoc in Hd.
             apply app_inj_tail in Hd as [Hd ->]. exists d, r2. split; [done|]. split; [done|].
             intros d' r' Hd' Hlt. apply (Hn d' (r' ++ [y])); [|done]. by rewrite app_assoc, <- Hd'.
  Qed.

  (** Ids by name. *)
  Lemma for_path_none (dirs : gmap (list str) (package_id V)) path :
    package_id_for_path dirs path = None ->
    forall dir rest, path = dir ++ rest -> forall id, dirs !! dir = Some id -> False.
  Proof.
    unfold package_id_for_path. intros Hn dir rest -> id Hid. rewrite reverse_app in Hn.
    revert Hn. generalize (reverse rest) as r. intros r. induction r as [|x r IH]; intros Hn.
    - cbn [app] in Hn. destruct (reverse dir) eqn:E; cbn [id_for_path] in Hn;
        rewrite <- E, reverse_involutive, Hid in Hn; done.
    - cbn [app id_for_path] in Hn. destruct (dirs !! reverse (x :: r ++ reverse dir)); [done|]. by apply IH.
  Qed.

  Lemma last_in_exists (metas : list (meta V)) dir o :
    o ∈ metas -> m_dir o = Some dir -> exists m, last_in metas dir m.
  Proof.
    induction metas as [|m metas IH]; [by intros ?%elem_of_nil|]. intros Ho Hd.
    destruct (decide (Exists (fun x => m_dir x = Some dir) metas)) as [E|E].
    - apply Exists_exists in E as (x & Hx & Hxd).
      assert (Hy : exists m', last_in metas dir m').
      { clear Ho. revert Hx Hxd. clear -IH. intros Hx Hxd.
        apply elem_of_list_split in Hx as Hs. destruct Hs as (l1 & l2 & ->).
        revert IH. intros _. clear -Hxd. induction l2 as [|y l2 IH] using rev_ind.
        - exists x, l1, []. split; [done|]. split; [done|]. intros z Hz. by apply elem_of_nil in Hz.
        - destruct (decide (m_dir y = Some dir)) as [Hy|Hy].
          + exists y, (l1 ++ x :: l2), []. split; [by rewrite <- app_assoc|]. split; [done|].
            intros z Hz. by apply elem_of_nil in Hz.
          + destruct IH as (m' & b & a & E & Hm & Hall). exists m', b, (a ++ [y]).
            split; [change (l1 ++ x :: l2 ++ [y]) with (l1 ++ (x :: l2) ++ [y]);
                    rewrite app_assoc, E, <- app_assoc; done|].
            split; [done|]. intros z Hz. apply elem_of_app in Hz as [Hz|Hz]; [by apply Hall|].
            apply elem_of_list_singleton in Hz as ->. done. }
      destruct Hy as (m' & b & a & -> & Hm' & Hall). exists m', (m :: b), a. done.
    - apply elem_of_cons in Ho as [->|Ho].
      + exists m, [], metas. split; [done|]. split; [done|]. intros x Hx Hxd. destruct E. apply Exists_exists. by exists x.
      + destruct E. apply Exists_exists. by exists o.
  Qed.

  Lemma name_to_ids_spec metas name l :
    name_to_ids metas !! name = Some l ->
    forall id, id ∈ l <-> exists m, m ∈ metas /\ is_Some (m_dir m) /\ m_name m = name /\ id = id_of metas m.
  Proof.
    unfold name_to_ids. set (g := fun m => id_of metas m).
    assert (K : forall ms (t : gmap str (list (package_id V))) l,
      fold_left (fun t m => <[m_name m := default [] (t !! m_name m) ++ [g m]]> t) ms t !! name = Some l ->
      forall id, id ∈ l <-> id ∈ default [] (t !! name) \/ exists m, m ∈ ms /\ m_name m = name /\ id = g m).
    { induction ms as [|m ms IH]; intros t l0 Hl id; cbn [fold_left] in Hl.
      - rewrite Hl. cbn. split; [by left|]. intros [?|(m & Hm & _)]; [done|by apply elem_of_nil in Hm].
      - rewrite (IH _ _ Hl id). destruct (decide (m_name m = name)) as [<-|Hne].
        + rewrite lookup_insert. cbn [default]. unfold Datatypes.id. rewrite elem_of_app, elem_of_list_singleton. split.
          * intros [[?| ->]|(x & Hx & Hn & ->)]; [by left| |].
            -- right. exists m. split; [left|done].
            -- right. exists x. split; [by right|done].
          * intros [?|(x & Hx & Hn & ->)]; [by left; left|]. apply elem_of_cons in Hx as [->|Hx].
            -- left. by right.
            -- right. by exists x.
        + rewrite lookup_insert_ne by done. split.
          * intros [?|(x & Hx & Hn & ->)]; [by left|]. right. exists x. split; [by right|done].
          * intros [?|(x & Hx & Hn & ->)]; [by left|]. apply elem_of_cons in Hx as [->|Hx]; [done|].
            right. by exists x. }
    intros Hl id. rewrite (K _ _ _ Hl id), lookup_empty. cbn [default]. split.
    - intros [X|(m & Hm & Hn & ->)]; [by apply elem_of_nil in X|]. apply indexed_spec in Hm as [? ?]. by exists m.
    - intros (m & Hm & Hd & Hn & ->). right. exists m. split; [by apply indexed_spec|done].
  Qed.

  Lemma name_to_ids_some metas m :
    m ∈ metas -> is_Some (m_dir m) -> is_Some (name_to_ids metas !! m_name m).
  Proof.
    intros Hm Hd. unfold name_to_ids. assert (Hi : m ∈ indexed metas) by by apply indexed_spec.
    revert Hi. generalize (indexed metas) as ms. intros ms.
    assert (K : forall ms (t : gmap str (list (package_id V))), m ∈ ms \/ is_Some (t !! m_name m) ->
      is_Some (fold_left (fun t m => <[m_name m := default [] (t !! m_name m) ++ [id_of metas m]]> t) ms t !! m_name m)).
    { clear ms. induction ms as [|x ms IH]; intros t Hor; cbn [fold_left].
      - destruct Hor as [X|?]; [by apply elem_of_nil in X|done].
      - apply IH. destruct (decide (m_name x = m_name m)) as [->|Hne].
        + right. rewrite lookup_insert. by eexists.
        + rewrite lookup_insert_ne by done. destruct Hor as [Hor|Hor]; [|by right].
          apply elem_of_cons in Hor as [->|?]; [done|by left]. }
    intros Hi. apply K. by left.
  Qed.

  (** A package is found by its name and version. *)
  Lemma find_id metas id l :
    id ∈ package_ids metas -> name_to_ids metas !! id.1.1 = Some l ->
    find (fun x : package_id V => bool_decide (x.1.2 = id.1.2)) l = Some id.
  Proof.
    intros Hid Hl. apply package_ids_spec in Hid as (m & Hm & Hd & ->). cbn [id_of fst snd] in Hl.
    pose proof (name_to_ids_spec _ _ _ Hl) as Hs.
    destruct (find _ l) as [x|] eqn:E.
    - apply find_some in E as [Hx Hv]. apply elem_of_list_In, Hs in Hx as (o & Ho & Hdo & Hn & ->).
      apply bool_decide_eq_true in Hv. cbn [id_of fst snd] in Hv. unfold id_of. by rewrite Hn, Hv.
    - exfalso. assert (Hin : id_of metas m ∈ l) by (apply Hs; by exists m).
      apply elem_of_list_In in Hin. apply (find_none _ _ E) in Hin. apply bool_decide_eq_false in Hin. done.
  Qed.

  Lemma package_known metas id : id ∈ package_ids metas -> exists l, name_to_ids metas !! id.1.1 = Some l.
  Proof.
    intros Hid. apply package_ids_spec in Hid as (m & Hm & Hd & ->). cbn [id_of fst].
    by apply name_to_ids_some.
  Qed.
End index.

(** ** Selectors *)

Lemma token_round k : from_token (to_token k) = Some k.
Proof. by destruct k. Qed.

Lemma token_only t k : from_token t = Some k -> t = to_token k.
Proof.
  unfold from_token. destruct (str_eqb t (lit "primary")) eqn:E1; [intros [= <-]; by apply str_eqb_spec in E1|].
  destruct (str_eqb t (lit "build-script")) eqn:E2; [intros [= <-]; by apply str_eqb_spec in E2|].
  destruct (str_eqb t (lit "test")) eqn:E3; [intros [= <-]; by apply str_eqb_spec in E3|done].
Qed.

(** ** The tree *)

Lemma parse_level_decimal n ds : decimal n ds -> (N.of_nat n < 2 ^ 64)%N -> parse_level ds = Some n.
Proof.
  intros (Hne & Hd & Hv) Hlt. unfold parse_level.
  assert (E : match ds with "+"%char :: s' => s' | _ => ds end = ds).
  { destruct ds as [|c ds]; [done|]. inversion Hd as [|? ? Hc _]; subst. unfold digit in Hc.
    destruct c as [[] [] [] [] [] [] [] []]; try done. vm_compute in Hc. destruct Hc as [Hc _]. by destruct Hc. }
  rewrite E, parse_usize_digits by done. cbv zeta. rewrite Hv.
  assert (L : N.leb (N.of_nat n) u64_max = true) by (apply N.leb_le; unfold u64_max; lia).
  rewrite L. cbn. by rewrite Nat2N.id.
Qed.

Lemma digit_plain n ds : decimal n ds -> " "%char ∉ ds /\ nl ∉ ds.
Proof.
  intros (_ & Hd & _). split; intros Hin; rewrite Forall_forall in Hd; specialize (Hd _ Hin);
    unfold digit in Hd; vm_compute in Hd; destruct Hd as [Hd _]; by apply Hd.
Qed.

Lemma Forall2_map_l {A B C : Type} (f : A -> B) (R : B -> C -> Prop) (l : list A) (k : list C) :
  Forall2 R (map f l) k -> Forall2 (fun a c => R (f a) c) l k.
Proof. intros F. by apply Forall2_fmap_l. Qed.

Section tree.
  Context {V : Type} `{Countable V}.
  Context (deps : package_id V -> list (package_id V)) (lib : package_id V -> option str) (show : V -> str).
  Context (parse_version : str -> option V) (metas : list (meta V)).
  Context (Hparse : forall v, parse_version (show v) = Some v).
  Implicit Types (t : lib_tree V) (p q : package_id V).

  Notation name_of := (lib_name lib).
  Notation edge := (dep deps).
  Notation ids := (name_to_ids metas).
  Notation run := (process_lines parse_version ids).

  Definition fine p : Prop := proper_package lib show p /\ p ∈ package_ids metas.

  Lemma line_shown d p line t :
    fine p -> shown lib show d p line -> process_line parse_version ids t line = Some (add_line d (name_of p) p t).
  Proof.
    intros [(Hn & Hs & Hl) Hp] (number & more & Hd & Hlt & Hmore & _ & _ & ->).
    unfold process_line. destruct (digit_plain _ _ Hd) as [Hsp _].
    change (lit " " ++ default [] (lib p) ++ lit " " ++ p.1.1 ++ lit " v" ++ show p.1.2 ++ more)
      with (" "%char :: default [] (lib p) ++ " "%char :: p.1.1 ++ " "%char :: lit "v" ++ show p.1.2 ++ more).
    rewrite split_char_app by done.
    rewrite split_char_app by (destruct (lib p) as [l|]; [apply (Hl l eq_refl)|apply not_elem_of_nil]).
    rewrite split_char_app by apply Hn.
    assert (E : exists tail, split_char " " (lit "v" ++ show p.1.2 ++ more) = (lit "v" ++ show p.1.2) :: tail).
    { assert (X : " "%char ∉ lit "v" ++ show p.1.2).
      { rewrite not_elem_of_app. split; [|apply Hs]. by intros ?%elem_of_list_singleton. }
      rewrite app_assoc. destruct Hmore as [->|[m ->]].
      - exists []. rewrite app_nil_r. by apply split_char_none.
      - exists (split_char " " m). change (lit " " ++ m) with (" "%char :: m). by apply split_char_app. }
    destruct E as [tail ->]. rewrite (parse_level_decimal _ _ Hd Hlt).
    rewrite strip_prefix_app, Hparse.
    destruct (package_known _ _ Hp) as [l Hids]. rewrite Hids, (find_id _ _ _ Hp Hids). do 2 f_equal.
    unfold lib_name. destruct (lib p) as [l0|] eqn:El; [|done]. cbn.
    destruct (Hl l0 eq_refl) as [Hne _]. by destruct l0.
  Qed.

  Lemma line_blank t : process_line parse_version ids t [] = Some t.
  Proof. done. Qed.

  (** Popping. *)
  Lemma pop_stack_length (n : nat) (st : list (package_id V * gset str)) (ds : gmap (package_id V) (gset str)) : length (pop_stack n st ds).1 = Nat.min n (length st).
  Proof.
    revert ds. induction st as [|[id s] st IH]; intros ds; cbn [pop_stack]; [cbn; lia|].
    destruct (Nat.ltb_spec n (length ((id, s) :: st))) as [L|L].
    - rewrite IH. cbn [length] in *. lia.
    - cbn [fst]. cbn [length] in *. lia.
  Qed.

  Lemma pop_stack_id (n : nat) (st : list (package_id V * gset str)) (ds : gmap (package_id V) (gset str)) : length st <= n -> pop_stack n st ds = (st, ds).
  Proof.
    intros L. destruct st as [|[id s] st]; [done|]. cbn [pop_stack].
    destruct (Nat.ltb_spec n (length ((id, s) :: st))) as [L'|L']; [lia|done].
  Qed.

  Lemma pop_stack_pop (a b : nat) (st : list (package_id V * gset str)) (ds : gmap (package_id V) (gset str)) : a <= b ->
    pop_stack a (pop_stack b st ds).1 (pop_stack b st ds).2 = pop_stack a st ds.
  Proof.
    intros L. revert ds. induction st as [|[id s] st IH]; intros ds; [done|].
    cbn [pop_stack]. destruct (Nat.ltb_spec b (length ((id, s) :: st))) as [Lb|Lb].
    - destruct (Nat.ltb_spec a (length ((id, s) :: st))) as [La|La]; [|lia]. apply IH.
    - cbn [fst snd pop_stack]. done.
  Qed.

  Lemma flush_stack (n : nat) t : n <= length (lt_stack t) -> length (lt_stack (pop_to_level n t)) = n.
  Proof.
    intros L. unfold pop_to_level. pose proof (pop_stack_length n (lt_stack t) (lt_deps t)) as E.
    destruct (pop_stack n (lt_stack t) (lt_deps t)) as [st ds]. cbn in *. lia.
  Qed.

  Lemma flush_id (n : nat) t : length (lt_stack t) <= n -> pop_to_level n t = t.
  Proof. intros L. unfold pop_to_level. rewrite pop_stack_id by done. by destruct t. Qed.

  Lemma flush_flush a b t : a <= b -> pop_to_level a (pop_to_level b t) = pop_to_level a t.
  Proof.
    intros L. unfold pop_to_level. pose proof (pop_stack_pop a b (lt_stack t) (lt_deps t) L) as E.
    destruct (pop_stack b (lt_stack t) (lt_deps t)) as [st ds]. cbn [fst snd lt_stack lt_deps lt_libs] in *.
    by rewrite E.
  Qed.

  (** A line at a depth that has been reached. *)
  Lemma add_line_flushed d l p t :
    d <= length (lt_stack t) ->
    add_line d l p t =
    let t0 := pop_to_level d t in
    LibTree ((p, ∅) :: map (fun e => (e.1, {[l]} ∪ (e.2 ∪ default ∅ (lt_deps t0 !! p)))) (lt_stack t0))
      (<[l := p]> (lt_libs t0)) (lt_deps t0).
  Proof.
    intros L. unfold add_line. cbn [lt_stack lt_libs lt_deps].
    destruct (Nat.leb_spec d (length (lt_stack t))) as [L'|L']; [|lia].
    assert (E : pop_to_level d (LibTree (lt_stack t) (<[l:=p]> (lt_libs t)) (lt_deps t)) =
                LibTree (lt_stack (pop_to_level d t)) (<[l:=p]> (lt_libs (pop_to_level d t))) (lt_deps (pop_to_level d t))).
    { unfold pop_to_level. cbn [lt_stack lt_libs lt_deps]. by destruct (pop_stack d (lt_stack t) (lt_deps t)). }
    rewrite E. cbn [lt_stack lt_libs lt_deps]. cbv zeta.
    assert (X : Nat.ltb (length (map (fun e : package_id V * gset str =>
        (e.1, {[l]} ∪ (e.2 ∪ default ∅ (lt_deps (pop_to_level d t) !! p)))) (lt_stack (pop_to_level d t)))) (S d) = true).
    { apply Nat.ltb_lt. rewrite map_length, flush_stack by done. lia. }
    by rewrite X.
  Qed.

  Definition exact_deps p (D : gset str) : Prop := forall x, x ∈ D <-> exists r, tc edge p r /\ x = name_of r.

  Definition path_of t : list (package_id V) := map fst (lt_stack t).

  Record good (seen : list (package_id V)) t : Prop := {
    good_deps p D : lt_deps t !! p = Some D -> p ∈ seen /\ exact_deps p D;
    good_seen p : p ∈ seen -> p ∈ path_of t \/ is_Some (lt_deps t !! p);
    good_closed p : p ∈ seen -> p ∈ path_of t \/ forall c, c ∈ deps p -> c ∈ seen;
    good_libs x p : lt_libs t !! x = Some p -> p ∈ seen /\ name_of p = x;
    good_named p : p ∈ seen -> is_Some (lt_libs t !! name_of p)
  }.

  Definition grown (ps : list (package_id V)) (e e' : package_id V * gset str) : Prop :=
    e'.1 = e.1 /\ forall x, x ∈ e'.2 <-> x ∈ e.2 \/ exists p q, p ∈ ps /\ rtc edge p q /\ x = name_of q.

  Lemma grown_path ps st st' : Forall2 (grown ps) st st' -> map fst st' = map fst st.
  Proof. induction 1 as [|e e' st st' [He _] _ IH]; [done|]. cbn. by rewrite He, IH. Qed.

  Lemma run_app t a b : run t (a ++ b) = match run t a with Some t => run t b | None => None end.
  Proof.
    revert t. induction a as [|x a IH]; intros t; [done|]. cbn [app process_lines].
    destruct (process_line _ _ t x); [apply IH|done].
  Qed.

  Lemma tc_first p c q : c ∈ deps p -> rtc edge c q -> tc edge p q.
  Proof. intros Hc Hq. by eapply tc_rtc_r; [apply tc_once|]. Qed.

  Lemma tc_inv p q : tc edge p q -> exists c, c ∈ deps p /\ rtc edge c q.
  Proof.
    induction 1 as [p q Hpq|p c q Hpc Hcq _].
    - by exists q.
    - exists c. split; [done|]. by apply tc_rtc.
  Qed.

  Lemma flush_once d t p D st :
    lt_stack t = (p, D) :: st -> length st = d ->
    pop_to_level d t = LibTree st (lt_libs t) (match lt_deps t !! p with Some _ => lt_deps t | None => <[p := D]> (lt_deps t) end).
  Proof.
    intros Hst L. unfold pop_to_level. rewrite Hst. cbn [pop_stack].
    destruct (Nat.ltb_spec d (length ((p, D) :: st))) as [L'|L']; [|cbn in L'; lia].
    rewrite pop_stack_id by lia. done.
  Qed.

  Lemma listing_run (Hacyclic : forall p, ~ tc edge p p) d seen ps lines seen' :
    listing deps lib show d seen ps lines seen' ->
    forall t, d <= length (lt_stack t) ->
    good seen (pop_to_level d t) ->
    (forall q p, q ∈ path_of (pop_to_level d t) -> p ∈ ps -> ~ rtc edge p q) ->
    (forall p q, p ∈ ps -> rtc edge p q -> fine q) ->
    (forall p, p ∈ seen -> p ∈ seen') /\ (forall p, p ∈ ps -> p ∈ seen') /\
    (forall q, q ∈ seen' -> q ∈ seen \/ exists p, p ∈ ps /\ rtc edge p q) /\
    exists t', run t lines = Some t' /\ d <= length (lt_stack t') /\ good seen' (pop_to_level d t') /\
      Forall2 (grown ps) (lt_stack (pop_to_level d t)) (lt_stack (pop_to_level d t')).
  Proof.
    induction 1 as [d seen|d seen p ps line lines seen' Hp Hline Hrest IH
                   |d seen p ps line lines1 seen1 lines2 seen2 Hp Hline Hch IH1 Hrest IH2
                   |seen ps lines seen' Hrest IH]; intros t L G Hdisj Hfine.
    - split; [done|]. split; [intros p Hp; by apply elem_of_nil in Hp|]. split; [by left|].
      exists t. split; [done|]. split; [done|]. split; [done|].
      apply Forall2_same_length_lookup. split; [done|]. intros i x y Hx Hy. assert (x = y) as -> by congruence.
      split; [done|]. intros z. split; [by left|]. intros [?|(p & q & Hp & _)]; [done|by apply elem_of_nil in Hp].
    - (* shown before *)
      assert (Hfp : fine p) by (apply (Hfine p p); [left|apply rtc_refl]).
      assert (Hrun : run t (line :: lines) = run (add_line d (name_of p) p t) lines).
      { cbn [process_lines]. by rewrite (line_shown d p line t Hfp Hline). }
      rewrite Hrun. clear Hrun. rewrite (add_line_flushed d (name_of p) p t L). cbv zeta.
      set (t0 := pop_to_level d t) in *.
      assert (L0 : length (lt_stack t0) = d) by by apply flush_stack.
      set (st1 := map (fun e : package_id V * gset str => (e.1, {[name_of p]} ∪ (e.2 ∪ default ∅ (lt_deps t0 !! p)))) (lt_stack t0)).
      set (t1 := LibTree ((p, ∅) :: st1) (<[name_of p := p]> (lt_libs t0)) (lt_deps t0)).
      assert (Lst1 : length st1 = d) by (unfold st1; by rewrite map_length).
      assert (Hnp : p ∉ path_of t0).
      { intros Hin. apply (Hdisj p p Hin); [left|apply rtc_refl]. }
      destruct (good_seen _ _ G p Hp) as [?|[D HD]]; [done|].
      assert (F1 : pop_to_level d t1 = LibTree st1 (<[name_of p := p]> (lt_libs t0)) (lt_deps t0)).
      { rewrite (flush_once d t1 p ∅ st1) by done. cbn [t1 lt_deps lt_libs]. by rewrite HD. }
      assert (P1 : path_of (pop_to_level d t1) = path_of t0).
      { rewrite F1. unfold path_of, st1. cbn [lt_stack]. rewrite map_map. done. }
      destruct (IH t1) as (S1 & S2 & S3 & t' & R & L' & G' & F').
      { cbn. lia. }
      { constructor; rewrite ?P1.
        - rewrite F1. apply (good_deps _ _ G).
        - intros q Hq. rewrite F1. apply (good_seen _ _ G q Hq).
        - apply (good_closed _ _ G).
        - rewrite F1. cbn [lt_libs]. intros x q. destruct (decide (x = name_of p)) as [->|Hne].
          + rewrite lookup_insert. by intros [= <-].
          + rewrite lookup_insert_ne by done. apply (good_libs _ _ G).
        - intros q Hq. rewrite F1. cbn [lt_libs]. destruct (decide (name_of p = name_of q)) as [->|Hne].
          + rewrite lookup_insert. by eexists.
          + rewrite lookup_insert_ne by done. by apply (good_named _ _ G). }
      { intros q r Hq Hr. rewrite P1 in Hq. apply (Hdisj q r Hq). by right. }
      { intros r q Hr. apply (Hfine r q). by right. }
      split; [done|]. split.
      { intros q Hq. apply elem_of_cons in Hq as [->|Hq]; [by apply S1|by apply S2]. }
      split.
      { intros q Hq. destruct (S3 q Hq) as [?|(r & Hr & Hrq)]; [by left|]. right. exists r. split; [by right|done]. }
      exists t'. split; [done|]. split; [done|]. split; [done|].
      rewrite F1 in F'. cbn [lt_stack] in F'. unfold st1 in F'.
      apply Forall2_map_l in F'. eapply Forall2_impl; [exact F'|]. intros e e' [He1 He2]. split; [done|].
      destruct (good_deps _ _ G p D HD) as [_ Hex]. intros x. rewrite He2. cbn [snd]. rewrite HD. cbn [default].
      unfold Datatypes.id. rewrite !elem_of_union, elem_of_singleton, (Hex x). split.
      + intros [[->|[?|(r & Hr & ->)]]|(r & q & Hr & Hrq & ->)].
        * right. exists p, p. split; [left|]. split; [apply rtc_refl|done].
        * by left.
        * right. exists p, r. split; [left|]. split; [by apply tc_rtc|done].
        * right. exists r, q. split; [by right|done].
      + intros [?|(r & q & Hr & Hrq & ->)]; [by left; right; left|].
        apply elem_of_cons in Hr as [->|Hr].
        * left. apply rtc_tc in Hrq as [->|Htc]; [by left|]. right. right. by exists q.
        * right. by exists r, q.
    - (* shown first *)
      assert (Hfp : fine p) by (apply (Hfine p p); [left|apply rtc_refl]).
      assert (Hrun : run t (line :: lines1 ++ lines2) = run (add_line d (name_of p) p t) (lines1 ++ lines2)).
      { cbn [process_lines]. by rewrite (line_shown d p line t Hfp Hline). }
      rewrite Hrun. clear Hrun. rewrite (add_line_flushed d (name_of p) p t L). cbv zeta.
      set (t0 := pop_to_level d t) in *.
      assert (L0 : length (lt_stack t0) = d) by by apply flush_stack.
      assert (Hno : lt_deps t0 !! p = None).
      { destruct (lt_deps t0 !! p) as [D|] eqn:E; [|done]. by destruct (good_deps _ _ G p D E) as [X _]. }
      rewrite Hno. cbn [default].
      set (st1 := map (fun e : package_id V * gset str => (e.1, {[name_of p]} ∪ (e.2 ∪ ∅))) (lt_stack t0)).
      set (t1 := LibTree ((p, ∅) :: st1) (<[name_of p := p]> (lt_libs t0)) (lt_deps t0)).
      assert (Lst1 : length st1 = d) by (unfold st1; by rewrite map_length).
      assert (P1 : path_of t1 = p :: path_of t0).
      { unfold path_of, t1, st1. cbn [lt_stack map fst]. rewrite map_map. done. }
      assert (F1 : pop_to_level (S d) t1 = t1) by (apply flush_id; cbn; lia).
      destruct (IH1 t1) as (A1 & A2 & A3 & t2 & R2 & L2 & G2 & F2).
      { cbn. lia. }
      { rewrite F1. constructor; rewrite ?P1.
        - intros q D HD. destruct (good_deps _ _ G q D HD). split; [by right|done].
        - intros q Hq. apply elem_of_cons in Hq as [->|Hq]; [left; left|].
          destruct (good_seen _ _ G q Hq); [left; by right|by right].
        - intros q Hq. apply elem_of_cons in Hq as [->|Hq]; [left; left|].
          destruct (good_closed _ _ G q Hq) as [?|X]; [left; by right|]. right. intros c Hc. right. by apply X.
        - cbn [t1 lt_libs]. intros x q. destruct (decide (x = name_of p)) as [->|Hne].
          + rewrite lookup_insert. intros [= <-]. split; [left|done].
          + rewrite lookup_insert_ne by done. intros X. destruct (good_libs _ _ G x q X). split; [by right|done].
        - intros q Hq. cbn [t1 lt_libs]. destruct (decide (name_of p = name_of q)) as [->|Hne].
          + rewrite lookup_insert. by eexists.
          + rewrite lookup_insert_ne by done. apply elem_of_cons in Hq as [->|Hq]; [done|]. by apply (good_named _ _ G). }
      { rewrite F1, P1. intros q c Hq Hc Hcq. apply elem_of_cons in Hq as [->|Hq].
        - apply (Hacyclic p). by eapply tc_first.
        - apply (Hdisj q p Hq); [left|]. by eapply rtc_l. }
      { intros c q Hc Hcq. apply (Hfine p q); [left|]. by eapply rtc_l. }
      rewrite F1 in F2. cbn [t1 lt_stack] in F2.
      apply Forall2_cons_inv_l in F2 as ([p' D] & st2 & [Ep HD] & F2 & Hst2). cbn [fst snd] in Ep, HD. subst p'.
      assert (Lst2 : length st2 = d) by (apply Forall2_length in F2; lia).
      assert (Ld : d <= length (lt_stack t2)) by lia.
      assert (F3 : pop_to_level d t2 = LibTree st2 (lt_libs (pop_to_level (S d) t2))
                (match lt_deps (pop_to_level (S d) t2) !! p with
                 | Some _ => lt_deps (pop_to_level (S d) t2)
                 | None => <[p := D]> (lt_deps (pop_to_level (S d) t2)) end)).
      { rewrite <- (flush_flush d (S d) t2) by lia. by apply flush_once. }
      assert (P2 : path_of (pop_to_level d t2) = path_of t0).
      { rewrite F3. unfold path_of. cbn [lt_stack]. rewrite (grown_path _ _ _ F2). unfold st1. rewrite map_map. done. }
      assert (P2' : path_of (pop_to_level (S d) t2) = p :: path_of t0).
      { unfold path_of. rewrite Hst2. cbn [map fst]. f_equal. rewrite (grown_path _ _ _ F2). unfold st1. rewrite map_map. done. }
      assert (Hexact : exact_deps p D).
      { intros x. rewrite HD. split.
        - intros [X|(c & q & Hc & Hcq & ->)]; [by apply elem_of_empty in X|]. exists q. split; [|done]. by eapply tc_first.
        - intros (r & Hr & ->). right. apply tc_inv in Hr as (c & Hc & Hcr). by exists c, r. }
      destruct (IH2 t2) as (B1 & B2 & B3 & t' & R' & L' & G' & F').
      { done. }
      { constructor; rewrite ?P2.
        - rewrite F3. cbn [lt_deps]. intros q E. destruct (lt_deps (pop_to_level (S d) t2) !! p) as [Dp|] eqn:EDp.
          + apply (good_deps _ _ G2).
          + destruct (decide (q = p)) as [->|Hne].
            * rewrite lookup_insert. intros [= <-]. split; [apply A1; left|done].
            * rewrite lookup_insert_ne by done. apply (good_deps _ _ G2).
        - intros q Hq. destruct (decide (q = p)) as [->|Hne].
          + right. rewrite F3. cbn [lt_deps]. destruct (lt_deps (pop_to_level (S d) t2) !! p) as [Dp|] eqn:EDp.
            * rewrite EDp. by eexists.
            * rewrite lookup_insert. by eexists.
          + destruct (good_seen _ _ G2 q Hq) as [X|X].
            * rewrite P2' in X. apply elem_of_cons in X as [?|X]; [done|]. by left.
            * right. rewrite F3. cbn [lt_deps]. destruct (lt_deps (pop_to_level (S d) t2) !! p) as [Dp|] eqn:EDp; [done|].
              by rewrite lookup_insert_ne.
        - intros q Hq. destruct (decide (q = p)) as [->|Hne]; [right; apply A2|].
          destruct (good_closed _ _ G2 q Hq) as [X|X]; [|by right].
          rewrite P2' in X. apply elem_of_cons in X as [?|X]; [done|]. by left.
        - rewrite F3. apply (good_libs _ _ G2).
        - rewrite F3. apply (good_named _ _ G2). }
      { rewrite P2. intros q r Hq Hr. apply (Hdisj q r Hq). by right. }
      { intros r q Hr. apply (Hfine r q). by right. }
      split; [intros q Hq; apply B1, A1; by right|]. split.
      { intros q Hq. apply elem_of_cons in Hq as [->|Hq]; [apply B1, A1; left|by apply B2]. }
      split.
      { intros q Hq. destruct (B3 q Hq) as [X|(r & Hr & Hrq)].
        - destruct (A3 q X) as [Y|(c & Hc & Hcq)].
          + apply elem_of_cons in Y as [->|Y]; [|by left]. right. exists p. split; [left|apply rtc_refl].
          + right. exists p. split; [left|]. by eapply rtc_l.
        - right. exists r. split; [by right|done]. }
      exists t'. split; [by rewrite run_app, R2|]. split; [done|]. split; [done|].
      rewrite F3 in F'. cbn [lt_stack] in F'. unfold st1 in F2. apply Forall2_map_l in F2.
      eapply Forall2_transitive; [|exact F2|exact F'].
      intros e e1 e2 [E1 H1] [E2 H2]. split; [cbn in *; congruence|]. intros x. rewrite H2, H1. cbn [snd].
      rewrite !elem_of_union, elem_of_singleton. split.
      + intros [[[->|[?|X]]|(c & q & Hc & Hcq & ->)]|(r & q & Hr & Hrq & ->)].
        * right. exists p, p. split; [left|]. split; [apply rtc_refl|done].
        * by left.
        * by apply elem_of_empty in X.
        * right. exists p, q. split; [left|]. split; [by eapply rtc_l|done].
        * right. exists r, q. split; [by right|done].
      + intros [?|(r & q & Hr & Hrq & ->)]; [left; left; right; by left|].
        apply elem_of_cons in Hr as [->|Hr].
        * left. apply rtc_tc in Hrq as [->|Htc]; [left; by left|]. right.
          apply tc_inv in Htc as (c & Hc & Hcq). by exists c, q.
        * right. by exists r, q.
    - (* an empty line *)
      cbn [process_lines]. rewrite line_blank. by apply IH.
  Qed.

  Lemma rtc_closed (S : package_id V -> Prop) p q :
    (forall a b, S a -> edge a b -> S b) -> S p -> rtc edge p q -> S q.
  Proof. intros Hc Hp Hpq. induction Hpq as [|a b c Hab _ IH]; [done|]. apply IH. by eapply Hc. Qed.

  Lemma listing_lines d seen ps lines seen' :
    listing deps lib show d seen ps lines seen' ->
    (forall p q, p ∈ ps -> rtc edge p q -> fine q) ->
    Forall (fun l => nl ∉ l /\ last l <> Some cr) lines.
  Proof.
    assert (K : forall d p line, fine p -> shown lib show d p line -> nl ∉ line /\ last line <> Some cr).
    { intros d0 p line [(Hn & Hs & Hl) _] (number & more & Hd & _ & Hmore & Hnl & Hcr & ->).
      destruct (digit_plain _ _ Hd) as [_ Hdn]. split.
      - rewrite !not_elem_of_app. repeat split; try done; try (by intros ?%elem_of_list_singleton).
        + destruct (lib p) as [l|]; [apply (Hl l eq_refl)|apply not_elem_of_nil].
        + apply Hn.
        + intros X. repeat (apply elem_of_cons in X as [X|X]; [done|]). by apply elem_of_nil in X.
        + apply Hs.
      - intros X. rewrite !app_assoc in X. destruct Hmore as [->|[m ->]].
        + rewrite app_nil_r in X. apply last_Some in X as (y & Hy).
          rewrite <- !app_assoc in Hy.
          assert (Z : cr ∈ (lit "v" ++ show p.1.2)).
          { assert (W : last (number ++ lit " " ++ default [] (lib p) ++ lit " " ++ p.1.1 ++ lit " v" ++ show p.1.2) = Some cr).
            { rewrite Hy. apply last_snoc. }
            change (lit " v" ++ show p.1.2) with ([" "%char] ++ (lit "v" ++ show p.1.2)) in W.
            rewrite !app_assoc in W. rewrite <- (app_assoc _ (lit "v") (show p.1.2)) in W.
            destruct (decide (show p.1.2 = [])) as [E|E].
            - rewrite E in W. rewrite app_nil_r in W. change (lit "v") with ["v"%char] in W. by rewrite last_snoc in W.
            - destruct (exists_last E) as (z & c & Ez). rewrite Ez in W. rewrite !app_assoc in W. rewrite last_snoc in W.
              rewrite Ez. injection W as ->. rewrite !elem_of_app. right. right. left. }
          apply elem_of_app in Z as [Z|Z]; [by apply elem_of_list_singleton in Z|]. by apply Hs in Z.
        + apply last_Some in X as (y & Hy). destruct (decide (m = [])) as [->|E].
          * change (lit " " ++ []) with [" "%char] in Hy. apply app_inj_tail in Hy as [_ Hy]. done.
          * destruct (exists_last E) as (z & c & ->). rewrite !app_assoc in Hy. apply app_inj_tail in Hy as [_ ->].
            apply Hcr. change (lit " " ++ z ++ [cr]) with ((lit " " ++ z) ++ [cr]). apply last_snoc. }
    induction 1 as [d seen|d seen p ps line lines seen' Hp Hline Hrest IH
                   |d seen p ps line lines1 seen1 lines2 seen2 Hp Hline Hch IH1 Hrest IH2
                   |seen ps lines seen' Hrest IH]; intros Hfine.
    - constructor.
    - constructor.
      + apply (K d p); [|done]. apply (Hfine p p); [left|apply rtc_refl].
      + apply IH. intros r q Hr. apply Hfine. by right.
    - constructor.
      + apply (K d p); [|done]. apply (Hfine p p); [left|apply rtc_refl].
      + apply Forall_app. split.
        * apply IH1. intros c q Hc Hcq. apply (Hfine p q); [left|]. by eapply rtc_l.
        * apply IH2. intros r q Hr. apply Hfine. by right.
    - constructor; [|by apply IH]. split; [apply not_elem_of_nil|done].
  Qed.

  Lemma lines_unlines lines :
    Forall (fun l => nl ∉ l /\ last l <> Some cr) lines -> str_lines (unlines lines) = lines.
  Proof.
    induction 1 as [|l ls [H1 H2] _ IH]; [done|]. unfold unlines. cbn [map concat]. fold (unlines ls).
    rewrite <- app_assoc. cbn [app]. rewrite str_lines_lf by done. by rewrite IH.
  Qed.

  Lemma tree_built (Hacyclic : forall p, ~ tc edge p p) roots lines seen success :
    listing deps lib show 0 [] roots lines seen ->
    (forall p, in_tree deps roots p -> fine p) ->
    utf8_valid (unlines lines) = true ->
    exists t, build_tree parse_version ids success (unlines lines) = Some t /\
      (forall p, in_tree deps roots p -> exists D, lt_deps t !! p = Some D /\ exact_deps p D) /\
      (forall p, ~ in_tree deps roots p -> lt_deps t !! p = None) /\
      (forall p, in_tree deps roots p -> is_Some (lt_libs t !! name_of p)) /\
      (forall x p, lt_libs t !! x = Some p -> in_tree deps roots p /\ name_of p = x).
  Proof.
    intros Hl Hf Hu.
    assert (Hfine : forall p q, p ∈ roots -> rtc edge p q -> fine q) by (intros p q Hp Hq; apply Hf; by exists p).
    assert (F0 : pop_to_level 0 (empty_tree (V:=V)) = empty_tree) by done.
    destruct (listing_run Hacyclic 0 [] roots lines seen Hl empty_tree) as (_ & S2 & S3 & t & R & L & G & _).
    { cbn. lia. }
    { rewrite F0. constructor.
      - intros p D HD. cbn in HD. by rewrite lookup_empty in HD.
      - intros p Hp. by apply elem_of_nil in Hp.
      - intros p Hp. by apply elem_of_nil in Hp.
      - intros x p HD. cbn in HD. by rewrite lookup_empty in HD.
      - intros p Hp. by apply elem_of_nil in Hp. }
    { rewrite F0. intros q p Hq. by apply elem_of_nil in Hq. }
    { done. }
    exists (pop_to_level 0 t). unfold build_tree.
    rewrite Hu, (lines_unlines _ (listing_lines _ _ _ _ _ Hl Hfine)), R. split; [done|].
    assert (P : path_of (pop_to_level 0 t) = []).
    { unfold path_of. pose proof (flush_stack 0 t L) as E. by destruct (lt_stack (pop_to_level 0 t)). }
    assert (Hclosed : forall a b, a ∈ seen -> edge a b -> b ∈ seen).
    { intros a b Ha Hab. destruct (good_closed _ _ G a Ha) as [X|X]; [|by apply X]. rewrite P in X. by apply elem_of_nil in X. }
    assert (Hseen : forall p, p ∈ seen <-> in_tree deps roots p).
    { intros p. split.
      - intros Hp. destruct (S3 p Hp) as [X|(r & Hr & Hrp)]; [by apply elem_of_nil in X|]. by exists r.
      - intros (r & Hr & Hrp). apply (rtc_closed (fun x => x ∈ seen) r p Hclosed); [by apply S2|done]. }
    split.
    { intros p Hp. apply Hseen in Hp. destruct (good_seen _ _ G p Hp) as [X|[D HD]].
      - rewrite P in X. by apply elem_of_nil in X.
      - exists D. split; [done|]. by apply (good_deps _ _ G p D HD). }
    split.
    { intros p Hp. destruct (lt_deps (pop_to_level 0 t) !! p) as [D|] eqn:E; [|done].
      destruct Hp. apply Hseen. by apply (good_deps _ _ G p D E). }
    split.
    { intros p Hp. apply (good_named _ _ G). by apply Hseen. }
    intros x p Hx. destruct (good_libs _ _ G x p Hx) as [X Y]. split; [by apply Hseen|done].
  Qed.
End tree.
