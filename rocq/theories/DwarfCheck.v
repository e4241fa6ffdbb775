(** Deciding for concrete trees of entries whether they are laid out as they should be. Used for examples only. *)
From Verif Require Import Base TextModel TextSpec Utf8Proofs NamesModel CollectModel DwarfModel DwarfSpec DwarfProofs.

Fixpoint entries_below (anc : list die) (d : die) : list (list die * die) :=
  let '(Die o t attrs children) := d in
  (anc, d) :: match children with
              | None => []
              | Some ds => (fix go (ds : list die) : list (list die * die) :=
                              match ds with [] => [] | e :: ds => entries_below (d :: anc) e ++ go ds end) ds
              end.
Definition all_entries (ds : list die) : list (list die * die) := mjoin (map (entries_below []) ds).

Lemma entries_below_some (anc : list die) (o : nat) (t : tag) (attrs : list attr) (ds : list die) :
  entries_below anc (Die o t attrs (Some ds)) =
  (anc, Die o t attrs (Some ds)) :: mjoin (map (entries_below (Die o t attrs (Some ds) :: anc)) ds).
Proof.
  cbn [entries_below]. f_equal. generalize (Die o t attrs (Some ds)) as p. intros p.
  induction ds as [|d ds IH]; [done|]. cbn [map mjoin list_join]. by rewrite IH.
Qed.

Lemma entries_below_within (d : die) : forall base anc e, (anc, e) ∈ entries_below base d <->
  exists anc', anc = anc' ++ base /\ within [d] anc' e.
Proof.
  induction d as [o t attrs|o t attrs ds IH] using die_ind'; intros base anc e.
  - cbn [entries_below]. rewrite elem_of_list_singleton. split.
    + intros [= -> ->]. exists []. split; [done|]. constructor. left.
    + intros (anc' & -> & Hw). apply within_inv in Hw as [[-> ->%elem_of_list_singleton]|(p & anc & _ & ->%elem_of_list_singleton & Hw)]; [done|].
      cbn in Hw. apply within_inv in Hw as [[_ Hw]|(p & ? & _ & Hp & _)]; [by apply elem_of_nil in Hw|by apply elem_of_nil in Hp].
  - rewrite entries_below_some, elem_of_cons.
    assert ((anc, e) ∈ mjoin (map (entries_below (Die o t attrs (Some ds) :: base)) ds) <->
            exists anc', anc = anc' ++ Die o t attrs (Some ds) :: base /\ within ds anc' e) as ->.
    { generalize (Die o t attrs (Some ds)) as q. intros q. induction IH as [|d ds' Hd _ IHds].
      - cbn. rewrite elem_of_nil. split; [done|]. intros (anc' & _ & Hw).
        apply within_inv in Hw as [[_ Hw]|(p & ? & _ & Hp & _)]; [by apply elem_of_nil in Hw|by apply elem_of_nil in Hp].
      - cbn [map mjoin list_join]. rewrite elem_of_app.
        split.
        + intros [H|H].
          * apply Hd in H as (anc' & -> & Hw). eexists. split; [done|]. apply within_cons. by left.
          * apply IHds in H as (anc' & -> & Hw). eexists. split; [done|]. apply within_cons. by right.
        + intros (anc' & -> & [Hw|Hw]%within_cons); [left; apply Hd; by eexists|right; apply IHds; by eexists]. }
    split.
    + intros [[= -> ->]|(anc' & -> & Hw)].
      * exists []. split; [done|]. constructor. left.
      * exists (anc' ++ [Die o t attrs (Some ds)]). split; [by rewrite <-app_assoc|]. constructor; [left|done].
    + intros (anc' & -> & Hw). apply within_inv in Hw as [[-> ->%elem_of_list_singleton]|(p & anc & -> & ->%elem_of_list_singleton & Hw)]; [by left|].
      right. exists anc. split; [by rewrite <-app_assoc|done].
Qed.

Lemma all_entries_within (ds anc : list die) (d : die) : (anc, d) ∈ all_entries ds <-> within ds anc d.
Proof.
  unfold all_entries. induction ds as [|x ds IH].
  - cbn. rewrite elem_of_nil. split; [done|]. intros Hw.
    apply within_inv in Hw as [[_ Hw]|(p & ? & _ & Hp & _)]; [by apply elem_of_nil in Hw|by apply elem_of_nil in Hp].
  - cbn [map mjoin list_join]. rewrite elem_of_app, within_cons, entries_below_within.
    change (_ ∈ list_join _) with ((anc, d) ∈ mjoin (map (entries_below []) ds)). rewrite IH.
    split; intros [H|H]; try (by right); left.
    + destruct H as (anc' & -> & H). by rewrite app_nil_r.
    + exists anc. by rewrite app_nil_r.
Qed.

Definition unambiguous_b (attrs : list attr) : bool :=
  bool_decide (NoDup (omap kind attrs)) &&
  match origin_attr attrs with
  | Some _ => bool_decide (name_attr attrs = None) && bool_decide (linkage_attr attrs = None)
  | None => true
  end &&
  (forallb (fun a => match a with AtLowPc _ => false | _ => true end) attrs ||
   forallb (fun a => match a with AtRanges _ => false | _ => true end) attrs).

Lemma unambiguous_check (attrs : list attr) : unambiguous_b attrs = true -> unambiguous attrs.
Proof.
  unfold unambiguous_b. intros [[H1%bool_decide_eq_true H2]%andb_prop H3]%andb_prop. split_and!; [done| |].
  - intros r Hr. rewrite Hr in H2. apply andb_prop in H2 as [?%bool_decide_eq_true ?%bool_decide_eq_true]. done.
  - intros a r Ha Hr. apply orb_prop in H3 as [H|H]; rewrite forallb_forall in H.
    + apply elem_of_list_In in Ha. by specialize (H _ Ha).
    + apply elem_of_list_In in Hr. by specialize (H _ Hr).
Qed.

Definition unit_b (t : unit_tree) : bool :=
  forallb (fun x => Nat.ltb 0 (die_offset x.2) && unambiguous_b (die_attrs x.2)) (all_entries (ut_dies t)) &&
  bool_decide (NoDup (map (fun x => die_offset x.2) (all_entries (ut_dies t)))).

Definition before_b (t t' : unit_tree) : bool :=
  Nat.ltb (ut_offset t) (ut_offset t') &&
  forallb (fun x => Nat.ltb (ut_offset t + die_offset x.2) (ut_offset t')) (all_entries (ut_dies t)).

Fixpoint laid_out_b (ts : list unit_tree) : bool :=
  match ts with
  | [] => true
  | t :: ts => unit_b t && forallb (before_b t) ts && laid_out_b ts
  end.

Lemma NoDup_map_inj {A B} (f : A -> B) (l : list A) (x y : A) :
  NoDup (map f l) -> x ∈ l -> y ∈ l -> f x = f y -> x = y.
Proof.
  induction l as [|z l IH]; intros Hnd Hx Hy E; [by apply elem_of_nil in Hx|].
  cbn in Hnd. apply NoDup_cons in Hnd as [Hz Hnd].
  apply elem_of_cons in Hx as [->|Hx]; apply elem_of_cons in Hy as [->|Hy]; [done| | |by apply IH].
  - exfalso. apply Hz. rewrite E. by apply elem_of_list_fmap_1.
  - exfalso. apply Hz. rewrite <-E. by apply elem_of_list_fmap_1.
Qed.

Lemma laid_out_check (ts : list unit_tree) : laid_out_b ts = true -> laid_out ts.
Proof.
  intros H.
  assert (forall t, t ∈ ts -> unit_b t = true) as Hu.
  { induction ts as [|x ts IH]; intros t Ht; [by apply elem_of_nil in Ht|]. cbn in H.
    apply andb_prop in H as [[H1 H2]%andb_prop H3]. apply elem_of_cons in Ht as [->|Ht]; [done|by apply IH]. }
  assert (forall i j t t', i < j -> ts !! i = Some t -> ts !! j = Some t' -> before_b t t' = true) as Hb.
  { clear Hu. induction ts as [|x ts IH]; intros i j t t' Hij Hi Hj; [done|]. cbn in H.
    apply andb_prop in H as [[H1 H2]%andb_prop H3]. destruct j as [|j]; [lia|]. destruct i as [|i].
    - injection Hi as ->. rewrite forallb_forall in H2. apply H2. apply elem_of_list_In. by eapply elem_of_list_lookup_2.
    - apply (IH H3 i j); [lia|done|done]. }
  split_and!.
  - intros t anc d Ht Hw. pose proof (Hu t Ht) as [H1 _]%andb_prop. rewrite forallb_forall in H1.
    apply all_entries_within in Hw. apply elem_of_list_In in Hw. specialize (H1 _ Hw). cbn in H1.
    apply andb_prop in H1 as [Ho Ha]. split; [destruct (die_offset d); [done|lia]|by apply unambiguous_check].
  - intros t anc d anc' d' Ht Hw Hw' E. pose proof (Hu t Ht) as [_ H2]%andb_prop. apply bool_decide_eq_true in H2.
    apply all_entries_within in Hw, Hw'. pose proof (NoDup_map_inj _ _ (anc, d) (anc', d') H2 Hw Hw' E) as [= -> ->]. done.
  - intros i j t t' Hij Hi Hj. pose proof (Hb i j t t' Hij Hi Hj) as [H1 H2]%andb_prop. split; [by apply Nat.ltb_lt|].
    intros anc d Hw. rewrite forallb_forall in H2. apply all_entries_within in Hw. apply elem_of_list_In in Hw.
    specialize (H2 _ Hw). by apply Nat.ltb_lt in H2.
Qed.

Definition own_reference_b (t : unit_tree) (r : die_ref) : bool :=
  existsb (fun x => match r with
                    | UnitRef o => Nat.eqb (die_offset x.2) o
                    | InfoRef o => Nat.eqb o (ut_offset t + die_offset x.2)
                    | OtherRef => false
                    end) (all_entries (ut_dies t)).
Definition own_references_b (ts : list unit_tree) : bool :=
  forallb (fun t => forallb (fun x => forallb (fun a =>
    match a with AtOrigin r | AtSpecification r => own_reference_b t r | _ => true end) (die_attrs x.2))
    (all_entries (ut_dies t))) ts.

Lemma own_references_check (ts : list unit_tree) : own_references_b ts = true -> own_references ts.
Proof.
  intros H t anc d r Ht Hw Hr. unfold own_references_b in H. rewrite forallb_forall in H.
  pose proof Ht as Ht'. apply elem_of_list_In in Ht'. specialize (H _ Ht'). rewrite forallb_forall in H.
  apply all_entries_within in Hw. apply elem_of_list_In in Hw. specialize (H _ Hw). rewrite forallb_forall in H.
  assert (own_reference_b t r = true) as Hb.
  { destruct Hr as [Hr|Hr]; apply elem_of_list_In in Hr; exact (H _ Hr). }
  unfold own_reference_b in Hb. rewrite existsb_exists in Hb. destruct Hb as ([anc' d'] & Hin & E).
  apply elem_of_list_In in Hin. apply all_entries_within in Hin. exists anc', d'. split; [done|].
  destruct r as [o|o|]; [split; [done|by apply Nat.eqb_eq in E]|split; [done|by apply Nat.eqb_eq in E]|done].
Qed.

Definition matches (t : unit_tree) (r : die_ref) (d : die) : bool :=
  match r with
  | UnitRef o => Nat.eqb (die_offset d) o
  | InfoRef o => Nat.eqb o (ut_offset t + die_offset d)
  | OtherRef => false
  end.
Fixpoint resolved_b (k : nat) (t : unit_tree) (r : die_ref) : bool :=
  existsb (fun x => matches t r x.2 &&
    match specification_attr (die_attrs x.2), k with
    | None, _ => true
    | Some r', S k => resolved_b k t r'
    | Some _, 0 => false
    end) (all_entries (ut_dies t)).

Lemma resolved_check (ts : list unit_tree) (t : unit_tree) (k : nat) : forall r,
  t ∈ ts -> resolved_b k t r = true -> resolved ts k t r.
Proof.
  assert (forall r anc d, t ∈ ts -> (anc, d) ∈ all_entries (ut_dies t) -> matches t r d = true -> points_to ts t r t anc d) as Hp.
  { intros r anc d Ht Hin Hm. split; [by apply all_entries_within|].
    destruct r as [o|o|]; [|split; [done|by apply Nat.eqb_eq in Hm]|done]. split; [done|by apply Nat.eqb_eq in Hm]. }
  induction k as [|k IH]; intros r Ht H; cbn [resolved_b] in H; apply existsb_exists in H as ([anc d] & Hin & H);
    apply elem_of_list_In in Hin; apply andb_prop in H as [Hm H]; cbn [snd] in H, Hm;
    destruct (specification_attr (die_attrs d)) as [r'|] eqn:Es; try done.
  - eapply resolved_own; [by apply Hp|done].
  - eapply resolved_declared; [by apply Hp|done|]. by apply IH.
  - eapply resolved_own; [by apply Hp|done].
Qed.

Definition readable_b (t : unit_tree) : bool :=
  forallb (fun x => forallb (fun a =>
    match a with
    | AtName n => utf8_valid n
    | AtDeclFile None | AtCallFile None => false
    | AtOrigin r => resolved_b 10 t r
    | AtLinkage s => bool_decide (is_Some (is_look_through s))
    | _ => true
    end) (die_attrs x.2)) (all_entries (ut_dies t)).

Lemma readable_check (ts : list unit_tree) (t : unit_tree) : t ∈ ts -> readable_b t = true -> readable ts t.
Proof.
  intros Ht H anc d Hw. apply all_entries_within in Hw. apply elem_of_list_In in Hw.
  unfold readable_b in H. rewrite forallb_forall in H. specialize (H _ Hw). cbn [snd] in H. rewrite forallb_forall in H.
  split_and!.
  - intros n Hn. apply elem_of_list_In in Hn. apply utf8_valid_spec. exact (H _ Hn).
  - intros Hn. apply elem_of_list_In in Hn. by specialize (H _ Hn).
  - intros Hn. apply elem_of_list_In in Hn. by specialize (H _ Hn).
  - intros r Hn. apply elem_of_list_In in Hn. apply resolved_check; [done|]. exact (H _ Hn).
  - intros s Hn. apply elem_of_list_In in Hn. specialize (H _ Hn). by apply bool_decide_eq_true in H.
Qed.
