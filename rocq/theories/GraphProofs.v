(** Proofs about the targets of relocations. *)
From Verif Require Import Base BaseFacts NamesModel GraphModel GraphSpec.

(** ** The index *)

Definition indexed (pre : list obj_symbol) (infos : gmap nat symbol_info) : Prop :=
  forall i, match infos !! i with
            | Some info => exists s, first_of pre i s /\ info = SymbolInfo (os_name s) (os_address s)
            | None => forall s, s ∈ pre -> ~ defines s i
            end.

Lemma first_of_app_skip (pre : list obj_symbol) (s x : obj_symbol) (i : nat) :
  first_of pre i s -> (defines x i -> os_address s <= os_address x) -> first_of (pre ++ [x]) i s.
Proof.
  intros (l1 & l2 & -> & Hd & H1 & H2) Hx. exists l1, (l2 ++ [x]).
  split; [by rewrite <- app_assoc|]. split; [done|]. split; [done|].
  intros s' [Hs|Hs]%elem_of_app Hs'; [by apply H2|]. apply elem_of_list_singleton in Hs as ->. by apply Hx.
Qed.

Lemma index_symbols_spec (bound : nat) (syms : list obj_symbol) : forall pre infos infos',
  indexed pre infos -> index_symbols bound syms infos = Some infos' -> indexed (pre ++ syms) infos'.
Proof.
  induction syms as [|x syms IH]; intros pre infos infos' HI H; cbn [index_symbols] in H.
  { injection H as <-. by rewrite app_nil_r. }
  replace (pre ++ x :: syms) with ((pre ++ [x]) ++ syms) by (by rewrite <- app_assoc).
  assert ((forall i, ~ defines x i) -> indexed (pre ++ [x]) infos) as Hskip.
  { intros Hn i. specialize (HI i). destruct (infos !! i) as [info|].
    - destruct HI as (s & Hs & ->). exists s. split; [|done]. apply first_of_app_skip; [done|].
      intros Hd. by destruct (Hn i).
    - intros s [Hs|Hs]%elem_of_app; [by apply HI|]. apply elem_of_list_singleton in Hs as ->. apply Hn. }
  destruct (bool_decide (os_name x = []) || negb (os_definition x)) eqn:E1.
  { apply (IH (pre ++ [x]) infos); [|done]. apply Hskip. intros i (Hn & Hd & _).
    apply orb_true_iff in E1 as [E1|E1]; [by apply bool_decide_eq_true in E1|]. by rewrite Hd in E1. }
  apply orb_false_iff in E1 as [Hn Hdef]. apply bool_decide_eq_false in Hn. apply negb_false_iff in Hdef.
  destruct (os_section x) as [i|] eqn:Es.
  2:{ apply (IH (pre ++ [x]) infos); [|done]. apply Hskip. intros i (_ & _ & Hd). congruence. }
  destruct (Nat.leb i bound) eqn:Eb; [|done].
  assert (defines x i) as Hx by (split_and!; done).
  assert (forall j, j <> i -> ~ defines x j) as Hother by (intros j Hj (_ & _ & Hd); congruence).
  destruct (infos !! i) as [ex|] eqn:Ei.
  - destruct (Nat.ltb (os_address x) (si_offset ex)) eqn:El.
    + apply (IH (pre ++ [x]) (<[i := SymbolInfo (os_name x) (os_address x)]> infos)); [|done].
      intros j. destruct (decide (j = i)) as [->|Hj].
      * rewrite lookup_insert. exists x. split; [|done]. exists pre, [].
        split; [done|]. split; [done|]. split; [|intros s' Hs'; by apply elem_of_nil in Hs'].
        intros s' Hs' Hd'. pose proof (HI i) as HIi. rewrite Ei in HIi.
        destruct HIi as (s & (l1 & l2 & -> & Hds & H1 & H2) & ->). cbn in El. apply Nat.ltb_lt in El.
        apply elem_of_app in Hs' as [Hs'|Hs']; [specialize (H1 s' Hs' Hd'); lia|].
        apply elem_of_cons in Hs' as [->|Hs']; [lia|]. specialize (H2 s' Hs' Hd'). lia.
      * rewrite lookup_insert_ne by done. specialize (HI j). destruct (infos !! j) as [info|].
        -- destruct HI as (s & Hs & ->). exists s. split; [|done]. apply first_of_app_skip; [done|].
           intros Hd. by destruct (Hother j Hj).
        -- intros s [Hs|Hs]%elem_of_app; [by apply HI|]. apply elem_of_list_singleton in Hs as ->.
           by apply Hother.
    + apply (IH (pre ++ [x]) infos); [|done]. intros j. specialize (HI j). destruct (decide (j = i)) as [->|Hj].
      * rewrite Ei in HI |- *. destruct HI as (s & Hs & ->). exists s. split; [|done].
        apply first_of_app_skip; [done|]. intros _. cbn in El. apply Nat.ltb_ge in El. lia.
      * destruct (infos !! j) as [info|].
        -- destruct HI as (s & Hs & ->). exists s. split; [|done]. apply first_of_app_skip; [done|].
           intros Hd. by destruct (Hother j Hj).
        -- intros s [Hs|Hs]%elem_of_app; [by apply HI|]. apply elem_of_list_singleton in Hs as ->.
           by apply Hother.
  - apply (IH (pre ++ [x]) (<[i := SymbolInfo (os_name x) (os_address x)]> infos)); [|done].
    intros j. destruct (decide (j = i)) as [->|Hj].
    + rewrite lookup_insert. exists x. split; [|done]. exists pre, [].
      split; [done|]. split; [done|]. split; [|intros s' Hs'; by apply elem_of_nil in Hs'].
      intros s' Hs' Hd'. pose proof (HI i) as HIi. rewrite Ei in HIi. by destruct (HIi s' Hs').
    + rewrite lookup_insert_ne by done. specialize (HI j). destruct (infos !! j) as [info|].
      * destruct HI as (s & Hs & ->). exists s. split; [|done]. apply first_of_app_skip; [done|].
        intros Hd. by destruct (Hother j Hj).
      * intros s [Hs|Hs]%elem_of_app; [by apply HI|]. apply elem_of_list_singleton in Hs as ->.
        by apply Hother.
Qed.

Lemma object_index_spec (o : obj_file) (infos : gmap nat symbol_info) :
  object_index o = Some infos -> indexed (of_symbols o) infos.
Proof.
  intros H. apply (index_symbols_spec (max_section_index o) (of_symbols o) [] ∅ infos); [|done].
  intros i. rewrite lookup_empty. intros s Hs. by apply elem_of_nil in Hs.
Qed.

Lemma first_of_unique (symbols : list obj_symbol) (i : nat) (a b : obj_symbol) :
  first_of symbols i a -> first_of symbols i b -> a = b.
Proof.
  intros (l1 & l2 & E1 & Ha & Ha1 & Ha2) (k1 & k2 & E2 & Hb & Hb1 & Hb2). rewrite E1 in E2.
  apply app_eq_app in E2 as (l & [[-> E]|[-> E]]).
  - destruct l as [|c l]; [by injection E as ->|]. injection E as -> ->.
    specialize (Ha1 c). specialize (Hb2 a).
    assert (c ∈ k1 ++ c :: l) as Hc1 by (apply elem_of_app; right; left).
    assert (a ∈ l ++ a :: l2) as Hc2 by (apply elem_of_app; right; left).
    specialize (Ha1 Hc1 Hb). specialize (Hb2 Hc2 Ha). lia.
  - destruct l as [|c l]; [by injection E as ->|]. injection E as -> ->.
    specialize (Hb1 c). specialize (Ha2 b).
    assert (c ∈ l1 ++ c :: l) as Hc1 by (apply elem_of_app; right; left).
    assert (b ∈ l ++ b :: k2) as Hc2 by (apply elem_of_app; right; left).
    specialize (Hb1 Hc1 Ha). specialize (Ha2 Hc2 Hb). lia.
Qed.

Lemma first_of_defines (symbols : list obj_symbol) (i : nat) (s : obj_symbol) :
  first_of symbols i s -> s ∈ symbols /\ defines s i.
Proof. intros (l1 & l2 & -> & Hd & _). split; [|done]. apply elem_of_app. right. left. Qed.

Section targets.
Context (o : obj_file) (infos : gmap nat symbol_info) (bin : gmap str nat).
Context (Hwf : well_formed o) (Hidx : object_index o = Some infos).

Lemma max_index_le (sec : obj_section) : sec ∈ of_sections o -> sc_index sec <= max_section_index o.
Proof.
  unfold max_section_index. intros H. induction (of_sections o) as [|x l IH]; [by apply elem_of_nil in H|].
  cbn. apply elem_of_cons in H as [->|H]; [lia|]. specialize (IH H). cbn in IH. lia.
Qed.

Lemma infos_first (i : nat) (info : symbol_info) :
  infos !! i = Some info ->
  exists s, first_of (of_symbols o) i s /\ info = SymbolInfo (os_name s) (os_address s).
Proof. intros E. pose proof (object_index_spec o infos Hidx i) as H. by rewrite E in H. Qed.

Lemma first_infos (i : nat) (s : obj_symbol) :
  first_of (of_symbols o) i s -> infos !! i = Some (SymbolInfo (os_name s) (os_address s)).
Proof.
  intros Hs. pose proof (object_index_spec o infos Hidx i) as H. destruct (infos !! i) as [info|].
  - destruct H as (s' & Hs' & ->). by rewrite (first_of_unique _ _ _ _ Hs Hs').
  - destruct (first_of_defines _ _ _ Hs) as [Hin Hd]. by destruct (H s Hin).
Qed.

Lemma known_dec (sym : obj_symbol) :
  negb (bool_decide (os_name sym = [])) &&
    (bool_decide (is_Some (bin !! os_name sym)) || bool_decide (os_section sym = None)) = true <->
  known bin sym.
Proof.
  unfold known, linked.
  rewrite andb_true_iff, negb_true_iff, orb_true_iff, bool_decide_eq_false, !bool_decide_eq_true. done.
Qed.

Lemma get_symbol (t : rel_target) (s : str) :
  get_symbol_or_section o infos bin t = Some (SsSymbol s) <-> stands_for o bin t s.
Proof.
  unfold get_symbol_or_section, stands_for. destruct t as [n|].
  2:{ split; [done|]. intros (n & sym & ? & _). done. }
  destruct (of_symbols o !! n) as [sym|] eqn:En.
  2:{ split; [done|]. intros (n' & sym' & [= ->] & E & _). congruence. }
  destruct (negb _ && _) eqn:Ek.
  - apply known_dec in Ek. split.
    + intros [= <-]. exists n, sym. split; [done|]. split; [done|]. by left.
    + intros (n' & sym' & [= <-] & E & [[_ ->]|[Hn _]]); [congruence|]. by replace sym' with sym in Hn by congruence.
  - assert (~ known bin sym) as Hk by (intros Hk; apply known_dec in Hk; congruence).
    split.
    + destruct (os_section sym) as [i|] eqn:Ei; [|done]. unfold section_or_first.
      destruct (Nat.leb i _) eqn:El; [|done]. destruct (infos !! i) as [info|] eqn:Einf; [|done].
      destruct (bool_decide (is_Some (bin !! si_symbol info))) eqn:Eb; [|intros ?; discriminate]. intros [= <-]. apply bool_decide_eq_true in Eb.
      destruct (infos_first _ _ Einf) as (first & Hf & ->). exists n, sym. split; [done|]. split; [done|]. right.
      split; [done|]. exists i, first. done.
    + intros (n' & sym' & [= <-] & E & [[Hk' _]|[_ (i & first & Hi & Hf & Hl & ->)]]);
        replace sym' with sym in * by congruence; [done|]. rewrite Hi.
      unfold section_or_first. rewrite (first_infos _ _ Hf). cbn.
      destruct (first_of_defines _ _ _ Hf) as [Hin Hd]. destruct (proj2 Hwf _ _ Hin Hd) as [sec [Hsec <-]].
      pose proof (max_index_le sec Hsec) as Hm. apply Nat.leb_le in Hm. rewrite Hm.
      rewrite bool_decide_eq_true_2 by done. done.
Qed.

Lemma get_section (t : rel_target) (i : nat) :
  get_symbol_or_section o infos bin t = Some (SsSection i) <->
  anonymous o bin t i /\ i <= max_section_index o.
Proof.
  unfold get_symbol_or_section, anonymous. destruct t as [n|].
  2:{ split; [done|]. intros [(n & sym & ? & _) _]. done. }
  destruct (of_symbols o !! n) as [sym|] eqn:En.
  2:{ split; [done|]. intros [(n' & sym' & [= ->] & E & _) _]. congruence. }
  destruct (negb _ && _) eqn:Ek.
  { apply known_dec in Ek. split; [done|]. intros [(n' & sym' & [= <-] & E & Hn & _) _].
    by replace sym' with sym in Hn by congruence. }
  assert (~ known bin sym) as Hk by (intros Hk; apply known_dec in Hk; congruence).
  split.
  - destruct (os_section sym) as [j|] eqn:Ei; [|done]. unfold section_or_first.
    destruct (Nat.leb j _) eqn:El; [|done]. apply Nat.leb_le in El.
    destruct (infos !! j) as [info|] eqn:Einf.
    + destruct (bool_decide (is_Some (bin !! si_symbol info))) eqn:Eb; [intros ?; discriminate|]. apply bool_decide_eq_false in Eb. intros [= <-].
      split; [|done]. exists n, sym. split_and!; [done..|]. intros first Hf Hl.
      rewrite (first_infos _ _ Hf) in Einf. injection Einf as <-. by apply Eb.
    + intros [= <-]. split; [|done]. exists n, sym. split_and!; [done..|]. intros first Hf Hl.
      rewrite (first_infos _ _ Hf) in Einf. done.
  - intros [(n' & sym' & [= <-] & E & _ & Hi & Hf) Hm]. replace sym' with sym in * by congruence. rewrite Hi.
    unfold section_or_first. apply Nat.leb_le in Hm. rewrite Hm. destruct (infos !! i) as [info|] eqn:Einf; [|done].
    destruct (infos_first _ _ Einf) as (first & Hfirst & ->). cbn.
    rewrite bool_decide_eq_false_2; [done|]. intros Hl. by apply (Hf first).
Qed.

Lemma section_found (i : nat) (sec : obj_section) :
  section_by_index o i = Some sec <-> section_at o i sec.
Proof.
  unfold section_by_index, section_at. destruct Hwf as [Hnd _]. revert Hnd.
  induction (of_sections o) as [|x l IH]; intros Hnd; cbn.
  { split; [done|]. intros [H _]. by apply elem_of_nil in H. }
  apply NoDup_cons in Hnd as [Hx Hnd]. destruct (Nat.eqb_spec (sc_index x) i) as [<-|Hne].
  - split; [intros [= <-]; split; [left|done]|]. intros [H E]. apply elem_of_cons in H as [->|H]; [done|].
    destruct Hx. rewrite <- E. by apply elem_of_list_fmap_1.
  - rewrite (IH Hnd), elem_of_cons. split; [intros [H E]; by split; [right|]|].
    intros [[->|H] E]; [done|by split].
Qed.

Lemma get_broken (t : rel_target) :
  get_symbol_or_section o infos bin t = None -> broken o bin t.
Proof.
  intros E. split.
  - intros s Hs%get_symbol. congruence.
  - intros i sec Ha [Hsec <-]. assert (get_symbol_or_section o infos bin t = Some (SsSection (sc_index sec))) as E';
      [|congruence]. apply get_section. split; [done|]. by apply max_index_le.
Qed.

(** ** The search *)

(** [t] is dealt with. *)
Definition covered (symbols : list str) (visited : gset nat) (t : rel_target) : Prop :=
  (forall s, stands_for o bin t s -> s ∈ symbols) /\ (forall i, anonymous o bin t i -> i ∈ visited) /\
  ~ broken o bin t.

Lemma covered_mono (l l' : list str) (v v' : gset nat) (t : rel_target) :
  covered l v t -> l ⊆ l' -> v ⊆ v' -> covered l' v' t.
Proof. intros (H1 & H2 & H3) Hl Hv. split_and!; [|set_solver|done]. intros s Hs. by apply Hl, H1. Qed.

Definition closed (symbols : list str) (visited visited0 : gset nat) : Prop :=
  forall i sec off t, i ∈ visited -> i ∉ visited0 -> section_at o i sec -> (off, t) ∈ sc_relocations sec ->
    covered symbols visited t.

Definition reached (ts : list rel_target) (symbols0 symbols : list str) : Prop :=
  forall s, s ∈ symbols -> s ∈ symbols0 \/ exists t, t ∈ ts /\ refers_to o bin t s.

Definition all_there (visited : gset nat) : Prop := forall i, i ∈ visited -> exists sec, section_at o i sec.

Definition search_ok (ts : list rel_target) (symbols0 : list str) (visited0 : gset nat) (r : targets_result)
    : Prop :=
  match r with
  | TOk symbols visited =>
      symbols0 ⊆ symbols /\ visited0 ⊆ visited /\ reached ts symbols0 symbols /\
      closed symbols visited visited0 /\ Forall (covered symbols visited) ts /\ all_there visited
  | TError => exists t t', t ∈ ts /\ leads_to o bin t t' /\ broken o bin t'
  | TFuel => True
  end.

Lemma search_app (ts us : list rel_target) (l : list str) (v : gset nat) (l' : list str) (v' : gset nat)
    (r : targets_result) :
  search_ok ts l v (TOk l' v') -> search_ok us l' v' r -> search_ok (ts ++ us) l v r.
Proof.
  intros (H1 & H2 & H3 & H4 & H5 & H6) Hr. destruct r as [l'' v''| |]; cbn [search_ok] in *; [|destruct Hr as (t & t' & Ht & Hr); exists t, t'; split; [apply elem_of_app; by right|done]|done].
  destruct Hr as (K1 & K2 & K3 & K4 & K5 & K6). split_and!.
  - set_solver.
  - set_solver.
  - intros s Hs. destruct (K3 s Hs) as [Hs'|(t & Ht & Hts)].
    + destruct (H3 s Hs') as [?|(t & Ht & Hts)]; [by left|]. right. exists t. split; [apply elem_of_app; by left|done].
    + right. exists t. split; [apply elem_of_app; by right|done].
  - intros i sec off t Hi Hn Hsec Ht. destruct (decide (i ∈ v')) as [Hv|Hv].
    + eapply covered_mono; [by eapply H4|done|done].
    + by eapply K4.
  - apply Forall_app. split; [|done]. eapply Forall_impl; [exact H5|]. cbn. intros t Ht. by eapply covered_mono.
  - done.
Qed.

Lemma fold_stuck (f : targets_result -> nat * rel_target -> targets_result) (r : targets_result)
    (rels : list (nat * rel_target)) :
  (forall rel, f r rel = r) -> foldl f r rels = r.
Proof. intros H. induction rels as [|rel rels IH]; [done|]. cbn. by rewrite H. Qed.

Definition search_all (fuel : nat) (r : targets_result) (rels : list (nat * rel_target)) : targets_result :=
  foldl (fun r rel => match r with
                      | TOk symbols visited => add_targets fuel o infos bin rel.2 symbols visited
                      | _ => r
                      end) r rels.

Lemma search_all_ok (fuel : nat) :
  (forall t l v, all_there v -> search_ok [t] l v (add_targets fuel o infos bin t l v)) ->
  forall rels l v, all_there v -> search_ok (map snd rels) l v (search_all fuel (TOk l v) rels).
Proof.
  intros IH rels. unfold search_all. induction rels as [|[off t] rels IHr]; intros l v Hv.
  { cbn. split_and!; [done|done|intros s Hs; by left|intros i sec off t Hi Hn; done|done|done]. }
  cbn [foldl map snd]. change (t :: map snd rels) with ([t] ++ map snd rels).
  specialize (IH t l v Hv). destruct (add_targets fuel o infos bin t l v) as [l' v'| |] eqn:E.
  - eapply search_app; [exact IH|]. apply IHr. by destruct IH as (_ & _ & _ & _ & _ & ?).
  - rewrite fold_stuck by done. destruct IH as (t0 & t' & Ht & Hr). exists t0, t'.
    split; [apply elem_of_app; by left|done].
  - by rewrite fold_stuck.
Qed.

Lemma add_targets_ok (fuel : nat) :
  forall t l v, all_there v -> search_ok [t] l v (add_targets fuel o infos bin t l v).
Proof.
  induction fuel as [|fuel IH]; intros t l v Hv; cbn [add_targets]; [done|].
  destruct (get_symbol_or_section o infos bin t) as [[s|i]|] eqn:E.
  - apply get_symbol in E. cbn. split_and!.
    + set_solver.
    + done.
    + intros s' Hs'. apply elem_of_app in Hs' as [Hs'|Hs']; [by left|]. apply elem_of_list_singleton in Hs' as ->.
      right. exists t. split; [left|]. exists t. split; [constructor|done].
    + intros i sec off t' Hi Hn. done.
    + apply Forall_singleton. split_and!.
      * intros s' Hs'. apply get_symbol in E, Hs'. assert (s' = s) as -> by congruence. set_solver.
      * intros i Hi. destruct Hi as (n & sym & -> & Hn & Hk & Hi & Hf).
        destruct E as (n' & sym' & [= <-] & Hn' & Hc). replace sym' with sym in * by congruence.
        destruct Hc as [[Hk' _]|[_ (i' & first & Hi' & Hf' & Hl & _)]]; [done|].
        replace i' with i in * by congruence. by destruct (Hf first Hf').
      * intros [Hb _]. by destruct (Hb s).
    + done.
  - pose proof E as E'. apply get_section in E' as [Ha Hm].
    assert (forall s, ~ stands_for o bin t s) as Hns by (intros s Hs%get_symbol; congruence).
    assert (forall j, anonymous o bin t j -> j = i) as Hj.
    { intros j Hj. destruct Hj as (n & sym & -> & Hn & _ & Hi & _).
      destruct Ha as (n' & sym' & [= <-] & Hn' & _ & Hi' & _). congruence. }
    destruct (bool_decide (i ∈ v)) eqn:Ev.
    + apply bool_decide_eq_true in Ev. cbn. split_and!; [done|done|intros s Hs; by left|intros j sec off t' Hj' Hn; done| |done].
      apply Forall_singleton. split_and!.
      * intros s Hs. by destruct (Hns s).
      * by intros j ->%Hj.
      * intros [_ Hb]. destruct (Hv i Ev) as [sec Hsec]. by destruct (Hb i sec Ha).
    + apply bool_decide_eq_false in Ev. destruct (section_by_index o i) as [sec|] eqn:Es.
      * pose proof Es as Hsec. apply section_found in Hsec.
        assert (all_there ({[i]} ∪ v)) as Hv'.
        { intros j [Hj'|Hj']%elem_of_union; [|by apply Hv]. apply elem_of_singleton in Hj' as ->. by exists sec. }
        pose proof (search_all_ok fuel IH (sc_relocations sec) l ({[i]} ∪ v) Hv') as H.
        unfold search_all in H. destruct (foldl _ _ _) as [l' v'| |]; cbn [search_ok] in *; [| |done].
        -- destruct H as (H1 & H2 & H3 & H4 & H5 & H6). split_and!.
           ++ done.
           ++ set_solver.
           ++ intros s Hs. destruct (H3 s Hs) as [?|(t' & Ht' & (t'' & Hlead & Hst))]; [by left|]. right.
              exists t. split; [left|]. exists t''. split; [|done].
              apply elem_of_list_fmap in Ht' as ([off t1] & -> & Hin). by econstructor.
           ++ intros j sec' off t' Hj' Hn Hsec' Ht'. destruct (decide (j = i)) as [->|Hne].
              ** apply section_found in Hsec', Hsec. assert (sec' = sec) as -> by congruence.
                 rewrite Forall_forall in H5. apply H5. apply elem_of_list_fmap. by exists (off, t').
              ** eapply H4; [done| |done|done]. set_solver.
           ++ apply Forall_singleton. split_and!.
              ** intros s Hs. by destruct (Hns s).
              ** intros j ->%Hj. set_solver.
              ** intros [_ Hb]. by destruct (Hb i sec Ha).
           ++ done.
        -- destruct H as (t' & t'' & Ht' & Hlead & Hb). exists t, t''. split; [left|]. split; [|done].
           apply elem_of_list_fmap in Ht' as ([off t1] & -> & Hin). by econstructor.
      * cbn. exists t, t. split; [left|]. split; [constructor|]. split; [done|].
        intros j sec Hj'. rewrite (Hj j Hj'). intros Hsec%section_found. congruence.
  - cbn. exists t, t. split; [left|]. split; [constructor|]. by apply get_broken.
Qed.

(** ** The fuel is enough *)

Definition unvisited (v : gset nat) : nat :=
  length (List.filter (fun sec => negb (bool_decide (sc_index sec ∈ v))) (of_sections o)).

Lemma unvisited_mono (v v' : gset nat) : v ⊆ v' -> unvisited v' <= unvisited v.
Proof.
  intros H. unfold unvisited. induction (of_sections o) as [|x l IH]; [done|]. cbn.
  destruct (bool_decide (sc_index x ∈ v')) eqn:E'; destruct (bool_decide (sc_index x ∈ v)) eqn:E; cbn; try lia.
  apply bool_decide_eq_true in E. apply bool_decide_eq_false in E'. set_solver.
Qed.

Lemma unvisited_less (v : gset nat) (sec : obj_section) :
  sec ∈ of_sections o -> sc_index sec ∉ v -> unvisited ({[sc_index sec]} ∪ v) < unvisited v.
Proof.
  intros Hin Hn. unfold unvisited. induction (of_sections o) as [|x l IH]; [by apply elem_of_nil in Hin|].
  assert (length (List.filter (fun s => negb (bool_decide (sc_index s ∈ ({[sc_index sec]} ∪ v : gset nat)))) l) <=
          length (List.filter (fun s => negb (bool_decide (sc_index s ∈ v))) l)) as Hle.
  { clear IH Hin. induction l as [|y l IH]; [done|]. cbn.
    destruct (bool_decide (sc_index y ∈ ({[sc_index sec]} ∪ v : gset nat))) eqn:E';
      destruct (bool_decide (sc_index y ∈ v)) eqn:E; cbn; try lia.
    apply bool_decide_eq_true in E. apply bool_decide_eq_false in E'. set_solver. }
  cbn. apply elem_of_cons in Hin as [->|Hin].
  - rewrite bool_decide_eq_true_2 by set_solver. rewrite bool_decide_eq_false_2 by done. cbn. lia.
  - specialize (IH Hin).
    destruct (bool_decide (sc_index x ∈ ({[sc_index sec]} ∪ v : gset nat))) eqn:E';
      destruct (bool_decide (sc_index x ∈ v)) eqn:E; cbn; try lia.
    apply bool_decide_eq_true in E. apply bool_decide_eq_false in E'. set_solver.
Qed.

Lemma add_targets_fuel (fuel : nat) :
  forall t l v, unvisited v < fuel ->
  match add_targets fuel o infos bin t l v with
  | TOk _ v' => v ⊆ v'
  | TError => True
  | TFuel => False
  end.
Proof.
  induction fuel as [|fuel IH]; intros t l v Hf; [lia|]. cbn [add_targets].
  destruct (get_symbol_or_section o infos bin t) as [[s|i]|] eqn:E; [done| |done].
  destruct (bool_decide (i ∈ v)) eqn:Ev; [done|]. apply bool_decide_eq_false in Ev.
  destruct (section_by_index o i) as [sec|] eqn:Es; [|done].
  pose proof Es as Hsec. apply section_found in Hsec as [Hin <-].
  pose proof (unvisited_less v sec Hin Ev) as Hl.
  assert (forall rels l0 v0, {[sc_index sec]} ∪ v ⊆ v0 ->
    match search_all fuel (TOk l0 v0) rels with TOk _ v' => v0 ⊆ v' | TError => True | TFuel => False end) as H.
  { intros rels. unfold search_all. induction rels as [|[off t'] rels IHr]; intros l0 v0 Hv0; [cbn; reflexivity|].
    cbn [foldl snd]. specialize (IH t' l0 v0).
    destruct (add_targets fuel o infos bin t' l0 v0) as [l1 v1| |].
    - assert (v0 ⊆ v1) as H1 by (apply IH; pose proof (unvisited_mono _ _ Hv0); lia).
      specialize (IHr l1 v1). destruct (foldl _ _ _) as [l2 v2| |]; [|done|].
      + etrans; [exact H1|]. apply IHr. set_solver.
      + apply IHr. set_solver.
    - by rewrite fold_stuck.
    - destruct IH. pose proof (unvisited_mono _ _ Hv0). lia. }
  specialize (H (sc_relocations sec) l ({[sc_index sec]} ∪ v) (reflexivity _)). unfold search_all in H.
  destruct (foldl _ _ _) as [l1 v1| |]; [set_solver|done|done].
Qed.

Lemma leads_covered (l : list str) (v : gset nat) :
  closed l v ∅ -> forall t t', leads_to o bin t t' -> covered l v t -> covered l v t'.
Proof.
  intros Hc t t' H. induction H as [t|t i sec off t1 t2 Ha Hsec Hin _ IH]; [done|].
  intros (_ & Hv & _). apply IH. by apply (Hc i sec off t1); [apply Hv| |..].
Qed.

Lemma leads_trans (t t' t'' : rel_target) : leads_to o bin t t' -> leads_to o bin t' t'' -> leads_to o bin t t''.
Proof. intros H. induction H; [done|]. intros ?. econstructor; eauto. Qed.

Lemma target_symbols_ok (t : rel_target) :
  match target_symbols o infos bin t with
  | TOk symbols _ => (forall s, s ∈ symbols <-> refers_to o bin t s) /\
                     forall t', leads_to o bin t t' -> ~ broken o bin t'
  | TError => exists t', leads_to o bin t t' /\ broken o bin t'
  | TFuel => False
  end.
Proof.
  unfold target_symbols.
  assert (all_there ∅) as Hv by (intros i Hi; set_solver).
  pose proof (add_targets_ok (S (S (length (of_sections o)))) t [] ∅ Hv) as H.
  pose proof (add_targets_fuel (S (S (length (of_sections o)))) t [] ∅) as Hf.
  destruct (add_targets _ _ _ _ _ _ _) as [l v| |].
  - destruct H as (_ & _ & H3 & H4 & H5 & _). rewrite Forall_singleton in H5. split.
    + intros s. split.
      * intros Hs. destruct (H3 s Hs) as [Hn|(t' & Ht' & Hr)]; [by apply elem_of_nil in Hn|].
        by apply elem_of_list_singleton in Ht' as ->.
      * intros (t' & Hl & Hst). destruct (leads_covered l v H4 t t' Hl H5) as (Hs & _). by apply Hs.
    + intros t' Hl. by destruct (leads_covered l v H4 t t' Hl H5) as (_ & _ & ?).
  - destruct H as (t1 & t' & Ht1 & Hr). apply elem_of_list_singleton in Ht1 as ->. by exists t'.
  - apply Hf. unfold unvisited.
    assert (forall (f : obj_section -> bool) l, length (List.filter f l) <= length l) as Hle.
    { intros f l. induction l as [|x l IH]; [done|]. cbn. destruct (f x); cbn; lia. }
    match goal with |- length (List.filter ?f _) < _ => specialize (Hle f (of_sections o)) end. lia.
Qed.
End targets.

Lemma max_section_index_le (o : obj_file) (sec : obj_section) :
  sec ∈ of_sections o -> sc_index sec <= max_section_index o.
Proof.
  unfold max_section_index. induction (of_sections o) as [|x l IH]; intros H; [by apply elem_of_nil in H|].
  cbn. apply elem_of_cons in H as [->|H]; [lia|]. specialize (IH H). lia.
Qed.

Lemma object_index_total (o : obj_file) : well_formed o -> exists infos, object_index o = Some infos.
Proof.
  intros [_ Hd]. unfold object_index.
  assert (forall syms infos, (forall s, s ∈ syms -> s ∈ of_symbols o) ->
    exists infos', index_symbols (max_section_index o) syms infos = Some infos') as H.
  { intros syms. induction syms as [|x syms IH]; intros infos Hs; [by exists infos|]. cbn [index_symbols].
    assert (forall s, s ∈ syms -> s ∈ of_symbols o) as Hs' by (intros s ?; apply Hs; by right).
    destruct (bool_decide (os_name x = [])) eqn:En; cbn [orb]; [by apply IH|].
    destruct (os_definition x) eqn:Ed; cbn [negb]; [|by apply IH].
    destruct (os_section x) as [i|] eqn:Ei; [|by apply IH].
    apply bool_decide_eq_false in En.
    destruct (Hd x i (Hs x ltac:(left))) as (sec & Hsec & Hidx); [done|].
    pose proof (max_section_index_le o sec Hsec) as Hle. rewrite Hidx in Hle.
    destruct (Nat.leb_spec i (max_section_index o)); [|lia].
    destruct (match infos !! i with Some _ => _ | None => _ end); by apply IH. }
  apply H. done.
Qed.

Lemma load_symbols_spec (syms : list (str * nat)) : forall bin bin',
  load_symbols syms bin = Some bin' ->
  forall s, linked bin' s <-> linked bin s \/ exists a, (s, a) ∈ syms /\ is_look_through s = Some false.
Proof.
  unfold linked. induction syms as [|[x a] syms IH]; intros bin bin' H s; cbn [load_symbols] in H.
  { injection H as <-. split; [by left|]. intros [?|(a & Ha & _)]; [done|by apply elem_of_nil in Ha]. }
  destruct (is_look_through x) as [[]|] eqn:El; [| |done].
  - rewrite (IH _ _ H s). split; intros [?|(b & Hb & E)]; [by left| |by left|].
    + right. exists b. split; [by right|done].
    + apply elem_of_cons in Hb as [[= -> ->]|Hb]; [congruence|]. right. by exists b.
  - rewrite (IH _ _ H s). rewrite lookup_insert_is_Some. split.
    + intros [[->|[_ ?]]|(b & Hb & E)].
      * right. exists a. split; [left|done].
      * by left.
      * right. exists b. split; [by right|done].
    + intros [?|(b & Hb & E)].
      * left. destruct (decide (x = s)); [by left|by right].
      * apply elem_of_cons in Hb as [[= -> ->]|Hb]; [left; by left|]. right. by exists b.
Qed.
