From Verif Require Import Base BaseFacts ApiMapModel ApiMapSpec.

(** ** split_simple *)
Lemma split_simple_nonempty s : split_simple s <> [].
Proof.
  destruct s as [|a s]; cbn; [done|].
  destruct (split_simple s); [|destruct a as [[] [] [] [] [] [] [] []]; try done;
    destruct s as [|[[] [] [] [] [] [] [] []] s]; done].
  destruct a as [[] [] [] [] [] [] [] []]; try done;
    destruct s as [|[[] [] [] [] [] [] [] []] s]; done.
Qed.

Lemma split_simple_cons_other a s :
  a <> ":"%char ->
  split_simple (a :: s) =
    match split_simple s with p :: ps => (a :: p) :: ps | [] => [[a]] end.
Proof.
  intros H. cbn. destruct a as [[] [] [] [] [] [] [] []]; done.
Qed.

Lemma split_simple_colons s :
  split_simple (":"%char :: ":"%char :: s) = [] :: split_simple s.
Proof. done. Qed.

Lemma split_simple_plain s : ":"%char ∉ s -> split_simple s = [s].
Proof.
  induction s as [|a s IH]; [done|].
  rewrite not_elem_of_cons. intros [H1 H2].
  rewrite split_simple_cons_other by congruence. by rewrite IH.
Qed.

Lemma split_simple_app x s :
  ":"%char ∉ x -> split_simple (x ++ lit "::" ++ s) = x :: split_simple s.
Proof.
  induction x as [|a x IH]; intros H; [done|].
  apply not_elem_of_cons in H as [H1 H2].
  change ((a :: x) ++ lit "::" ++ s) with (a :: (x ++ lit "::" ++ s)).
  rewrite split_simple_cons_other by congruence. by rewrite IH.
Qed.

Lemma split_simple_written l : plain_path l -> split_simple (written l) = l.
Proof.
  unfold written. intros [Hne H]. induction l as [|x l IH]; [done|].
  destruct l as [|y l].
  - cbn [join]. apply split_simple_plain, H. left.
  - change (join (lit "::") (x :: y :: l)) with (x ++ lit "::" ++ join (lit "::") (y :: l)).
    rewrite split_simple_app by (apply H; left).
    f_equal. apply IH; [done|]. intros z Hz. apply H. by right.
Qed.

Lemma split_simple_cons a s :
  ~ (a = ":"%char /\ exists s', s = ":"%char :: s') ->
  split_simple (a :: s) = match split_simple s with p :: ps => (a :: p) :: ps | [] => [[a]] end.
Proof.
  intros H. destruct (decide (a = ":"%char)) as [->|Ha]; [|by apply split_simple_cons_other].
  destruct s as [|b s]; [done|]. destruct (decide (b = ":"%char)) as [->|Hb]; [by destruct H; eauto|].
  cbn. destruct b as [[] [] [] [] [] [] [] []]; done.
Qed.

Lemma no_colons_cons (a : ascii) (s : str) :
  (forall x y, a :: s <> x ++ lit "::" ++ y) <->
  ~ (a = ":"%char /\ exists s', s = ":"%char :: s') /\ (forall x y, s <> x ++ lit "::" ++ y).
Proof.
  split.
  - intros H. split.
    + intros (-> & s' & ->). by apply (H [] s').
    + intros x y ->. by apply (H (a :: x) y).
  - intros [H1 H2] [|b x] y E.
    + injection E as -> ->. apply H1. split; [done|]. by exists y.
    + injection E as -> ->. by apply (H2 x y).
Qed.

Lemma split_simple_single (s : str) : (forall a b, s <> a ++ lit "::" ++ b) -> split_simple s = [s].
Proof.
  induction s as [|a s IH]; [done|]. intros [H1 H2]%no_colons_cons.
  rewrite split_simple_cons by done. by rewrite IH.
Qed.

Lemma split_simple_first (s rest : str) :
  (forall a b, s ++ lit ":" <> a ++ lit "::" ++ b) -> split_simple (s ++ lit "::" ++ rest) = s :: split_simple rest.
Proof.
  induction s as [|a s IH]; [done|]. intros [H1 H2]%no_colons_cons.
  change ((a :: s) ++ lit "::" ++ rest) with (a :: (s ++ lit "::" ++ rest)).
  rewrite split_simple_cons, IH; [done|done|]. intros (-> & s' & E). apply H1. split; [done|].
  destruct s as [|b s]; [by exists []|]. injection E as -> _. by eexists.
Qed.

(** Cutting at colons is what the model does. *)
Lemma split_simple_cut (s : str) (l : list str) : cut_at_colons s l <-> split_simple s = l.
Proof.
  split.
  - induction 1 as [s H|s rest l H _ IH]; [by apply split_simple_single|]. by rewrite split_simple_first, IH.
  - intros <-. remember (length s) as n eqn:En. revert s En. induction (lt_wf n) as [n _ IH]. intros s ->.
    destruct s as [|a s]; [apply cut_last; by intros [] ? ?|].
    assert ((a = ":"%char /\ exists s', s = ":"%char :: s') \/ ~ (a = ":"%char /\ exists s', s = ":"%char :: s'))
      as [(-> & s' & ->)|Hn].
    { destruct (decide (a = ":"%char)) as [->|Ha]; [|right; by intros [? _]]. destruct s as [|b s].
      - right. by intros (_ & s' & ?).
      - destruct (decide (b = ":"%char)) as [->|Hb]; [left; eauto|]. right. by intros (_ & s' & [= ? _]). }
    + rewrite split_simple_colons. apply (cut_first [] s'); [by intros [|? []] ? ?|].
      by apply (IH (length s')); [cbn; lia|].
    + rewrite split_simple_cons by done. pose proof (IH (length s) ltac:(cbn; lia) s eq_refl) as H.
      inversion H as [s0 H0 E1 E2|s0 rest l H0 H1 E1 E2]; subst.
      * apply cut_last. by apply no_colons_cons.
      * change (s0 ++ ":"%char :: ":"%char :: rest) with (s0 ++ lit "::" ++ rest) in E2. rewrite <- E2.
        apply (cut_first (a :: s0) rest); [|done]. apply no_colons_cons. split; [|done].
        intros (-> & s' & E). apply Hn. split; [done|]. destruct s0 as [|b s0]; [by eexists|].
        injection E as -> _. by eexists.
Qed.

Lemma covers_split (p : str) (name : list str) : covers p name <-> split_simple p `prefix_of` name.
Proof.
  split.
  - intros (l & H%split_simple_cut & Hp). by rewrite H.
  - intros H. exists (split_simple p). split; [by apply split_simple_cut|done].
Qed.

(** ** The label of the node at a path *)
Fixpoint label (t : api_map) (p : list str) : option (gset str) :=
  match p with
  | [] => Some (node_apis t)
  | k :: p' =>
      match child_get k (node_children t) with
      | Some sub => label sub p'
      | None => None
      end
  end.

Lemma str_eqb_refl k : str_eqb k k = true.
Proof. by apply str_eqb_spec. Qed.

Lemma str_eqb_neq a b : str_eqb a b = false <-> a <> b.
Proof. unfold str_eqb. apply bool_decide_eq_false. Qed.

(** [am_get] is the label of the deepest existing node on the way. *)
Lemma am_get_label t key :
  exists p, p `prefix_of` key /\ label t p = Some (am_get t key) /\
    forall q, q `prefix_of` key -> is_Some (label t q) -> q `prefix_of` p.
Proof.
  revert t. induction key as [|k key IH]; intros t; cbn.
  - exists []. split; [apply prefix_nil|]. split; [done|].
    intros q Hq _. done.
  - destruct (child_get k (node_children t)) as [sub|] eqn:E.
    + destruct (IH sub) as (p & Hp & Hl & Hmax). exists (k :: p).
      split; [by apply prefix_cons|]. split; [cbn; by rewrite E|].
      intros [|k' q] Hq Hs; [apply prefix_nil|].
      assert (k' = k) as -> by (by apply prefix_cons_inv_1 in Hq).
      apply prefix_cons, Hmax; [by apply prefix_cons_inv_2 in Hq|].
      cbn in Hs. by rewrite E in Hs.
    + exists []. split; [apply prefix_nil|]. split; [done|].
      intros [|k' q] Hq Hs; [done|].
      assert (k' = k) as -> by (by apply prefix_cons_inv_1 in Hq).
      cbn in Hs. rewrite E in Hs. by destruct Hs.
Qed.

(** ** create_entry *)
Lemma child_get_upsert k f l k' :
  child_get k' (child_upsert k f l) =
    if decide (k' = k) then Some (f (default api_map_empty (child_get k l)))
    else child_get k' l.
Proof.
  induction l as [|[k2 t] l IH]; cbn.
  - case_decide as H.
    + subst. by rewrite str_eqb_refl.
    + apply str_eqb_neq in H. by rewrite H.
  - destruct (str_eqb k k2) eqn:E.
    + apply str_eqb_spec in E as <-. cbn. case_decide as H.
      * subst. by rewrite str_eqb_refl.
      * assert (H2 := H). apply str_eqb_neq in H2. by rewrite H2.
    + cbn. destruct (str_eqb k' k2) eqn:E2.
      * apply str_eqb_spec in E2 as <-. case_decide as H; [|done].
        subst. by rewrite str_eqb_refl in E.
      * rewrite IH. done.
Qed.

Lemma label_nil_node t : label t [] = Some (node_apis t).
Proof. done. Qed.

(** A node of a table in which all labels are empty. *)
Definition blank (t : api_map) : Prop :=
  forall p a, label t p = Some a -> a = ∅.

Lemma blank_empty : blank api_map_empty.
Proof. intros [|k p] a; cbn; congruence. Qed.

Lemma label_create_entry key t p :
  label (create_entry key t) p =
    match label t p with
    | Some a => Some a
    | None => if decide (p `prefix_of` key) then Some ∅ else None
    end.
Proof.
  revert t p. induction key as [|k key IH]; intros t p.
  - cbn [create_entry]. destruct (label t p) eqn:E; [done|].
    case_decide as H; [|done]. apply prefix_nil_inv in H as ->. done.
  - destruct p as [|k' p]; [done|].
    cbn [create_entry label node_children]. rewrite child_get_upsert.
    destruct (decide (k' = k)) as [->|Hne].
    + destruct (child_get k (node_children t)) as [sub|] eqn:E; cbn [default from_option id].
      * rewrite IH. destruct (label sub p); [done|].
        destruct (decide (p `prefix_of` key)), (decide (k :: p `prefix_of` k :: key));
          try done.
        -- by destruct n; apply prefix_cons.
        -- by destruct n; apply prefix_cons_inv_2 in p0.
      * rewrite IH. destruct (label api_map_empty p) as [a|] eqn:E2.
        -- pose proof (blank_empty _ _ E2) as ->.
           destruct p; [|done].
           rewrite decide_True; [done|]. apply prefix_cons, prefix_nil.
        -- destruct (decide (p `prefix_of` key)), (decide (k :: p `prefix_of` k :: key));
             try done.
           ++ by destruct n; apply prefix_cons.
           ++ by destruct n; apply prefix_cons_inv_2 in p0.
    + destruct (child_get k' (node_children t)) as [sub|] eqn:E.
      * destruct (label sub p); [done|].
        rewrite decide_False; [done|]. intros H. by apply prefix_cons_inv_1 in H.
      * rewrite decide_False; [done|]. intros H. by apply prefix_cons_inv_1 in H.
Qed.

Lemma label_create_paths paths t p :
  label (fold_left (fun t p => create_entry (split_simple p) t) paths t) p =
    match label t p with
    | Some a => Some a
    | None =>
        if decide (Exists (fun q => p `prefix_of` split_simple q) paths)
        then Some ∅ else None
    end.
Proof.
  revert t. induction paths as [|q paths IH]; intros t; cbn [fold_left].
  - destruct (label t p); [done|]. rewrite decide_False; [done|].
    intros H. by inversion H.
  - rewrite IH, label_create_entry. destruct (label t p); [done|].
    destruct (decide (p `prefix_of` split_simple q)) as [H|H].
    + rewrite decide_True; [done|]. by left.
    + destruct (decide (Exists _ paths)) as [H2|H2].
      * rewrite decide_True; [done|]. by right.
      * rewrite decide_False; [done|]. intros H3.
        inversion H3; subst; auto.
Qed.

Definition all_paths (apis : list (str * api_config)) : list str :=
  concat (map (fun d => ac_include d.2 ++ ac_exclude d.2) apis).

Lemma create_all_alt apis t :
  create_all apis t =
    fold_left (fun t p => create_entry (split_simple p) t) (all_paths apis) t.
Proof.
  unfold create_all, all_paths. revert t.
  induction apis as [|d apis IH]; intros t; [done|].
  cbn [fold_left map concat]. rewrite IH. symmetry. apply fold_left_app.
Qed.

Lemma label_create_all apis p :
  label (create_all apis api_map_empty) p =
    if decide (p = [] \/ Exists (fun q => p `prefix_of` split_simple q) (all_paths apis))
    then Some ∅ else None.
Proof.
  rewrite create_all_alt, label_create_paths.
  destruct p as [|k p]; cbn [label api_map_empty node_children child_get node_apis].
  - by rewrite decide_True by auto.
  - destruct (decide (Exists _ _)).
    + by rewrite decide_True by auto.
    + rewrite decide_False; [done|]. intros [?|?]; done.
Qed.

(** ** update_subtree *)
Lemma child_get_map f l k :
  child_get k (map (fun p : str * api_map => (p.1, f p.2)) l) = f <$> child_get k l.
Proof.
  induction l as [|[k' t] l IH]; cbn; [done|].
  by destruct (str_eqb k k').
Qed.

Lemma label_update_subtree f t p :
  label (update_subtree f t) p = f <$> label t p.
Proof.
  revert t. induction p as [|k p IH]; intros [a c]; cbn.
  - done.
  - rewrite child_get_map. destruct (child_get k c); cbn; [apply IH|done].
Qed.

Lemma child_modify_Some k f l l' k' :
  child_modify k f l = Some l' ->
  exists t t', child_get k l = Some t /\ f t = Some t' /\
    child_get k' l' = if decide (k' = k) then Some t' else child_get k' l.
Proof.
  revert l'. induction l as [|[k2 t] l IH]; intros l'; cbn; [done|].
  destruct (str_eqb k k2) eqn:E.
  - apply str_eqb_spec in E as <-. destruct (f t) as [t'|] eqn:E2; [|done].
    intros [= <-]. exists t, t'. split; [done|]. split; [done|]. cbn.
    case_decide as H.
    + subst. by rewrite str_eqb_refl.
    + assert (H2 := H). apply str_eqb_neq in H2. by rewrite H2.
  - destruct (child_modify k f l) as [l2|] eqn:E2; [|done].
    intros [= <-]. destruct (IH l2) as (t0 & t' & H1 & H2 & H3); [done|].
    exists t0, t'. split; [done|]. split; [done|]. cbn.
    destruct (str_eqb k' k2) eqn:E3; [|done].
    apply str_eqb_spec in E3 as <-. rewrite decide_False; [done|].
    intros ->. by rewrite str_eqb_refl in E.
Qed.

Lemma child_modify_is_Some k f l t :
  child_get k l = Some t -> is_Some (f t) -> is_Some (child_modify k f l).
Proof.
  intros H Hf. induction l as [|[k2 t2] l IH]; cbn in *; [done|].
  destruct (str_eqb k k2).
  - injection H as ->. destruct Hf as [? ->]. eauto.
  - destruct IH as [? ->]; [done|]. eauto.
Qed.

Lemma update_at_is_Some key f t :
  is_Some (label t key) -> is_Some (update_at key f t).
Proof.
  revert t. induction key as [|k key IH]; intros t H; cbn in *; [eauto|].
  destruct (child_get k (node_children t)) as [sub|] eqn:E; [|by destruct H].
  destruct (child_modify_is_Some k (update_at key f) _ _ E (IH _ H)) as [? ->].
  eauto.
Qed.

Lemma label_update_at key f t t' p :
  update_at key f t = Some t' ->
  label t' p = if decide (key `prefix_of` p) then f <$> label t p else label t p.
Proof.
  revert t t' p. induction key as [|k key IH]; intros t t' p; cbn [update_at].
  - intros [= <-]. rewrite label_update_subtree.
    by rewrite decide_True by apply prefix_nil.
  - destruct (child_modify k (update_at key f) (node_children t)) as [c|] eqn:E; [|done].
    intros [= <-]. destruct p as [|k' p].
    + rewrite decide_False; [done|]. apply prefix_nil_not.
    + destruct (child_modify_Some _ _ _ _ k' E) as (s & s' & H1 & H2 & H3).
      cbn [label node_children]. rewrite H3.
      destruct (decide (k' = k)) as [->|Hne].
      * rewrite (IH _ _ p H2), H1.
        destruct (decide (key `prefix_of` p)), (decide (k :: key `prefix_of` k :: p));
          try done.
        -- by destruct n; apply prefix_cons.
        -- by destruct n; apply prefix_cons_inv_2 in p0.
      * rewrite decide_False; [done|].
        intros Hp. apply prefix_cons_inv_1 in Hp. congruence.
Qed.

Lemma label_update_at_dom key f t t' p :
  update_at key f t = Some t' -> is_Some (label t' p) <-> is_Some (label t p).
Proof.
  intros H. rewrite (label_update_at _ _ _ _ p H).
  case_decide; [|done]. by rewrite fmap_is_Some.
Qed.

(** ** The passes: labels after a pass over all definitions. *)
Lemma update_paths_ok f paths t :
  (forall q, q ∈ paths -> is_Some (label t (split_simple q))) ->
  exists t', update_paths f paths t = Some t' /\
    (forall p, is_Some (label t' p) <-> is_Some (label t p)) /\
    (forall p a, label t p = Some a ->
       (forall s, f (f s) = f s) ->
       label t' p = Some (if decide (Exists (fun q => split_simple q `prefix_of` p) paths)
                          then f a else a)).
Proof.
  revert t. induction paths as [|q paths IH]; intros t Hdom; cbn [update_paths].
  - exists t. split; [done|]. split; [done|].
    intros p a Hl _. rewrite decide_False; [done|]. intros H. by inversion H.
  - destruct (update_at_is_Some (split_simple q) f t) as [t1 E1]; [apply Hdom; left|].
    rewrite E1.
    destruct (IH t1) as (t' & H1 & H2 & H3).
    { intros q' Hq'. apply (label_update_at_dom _ _ _ _ _ E1). apply Hdom. by right. }
    exists t'. split; [done|]. split.
    + intros p. rewrite H2. by apply label_update_at_dom with (1 := E1).
    + intros p a Hl Hidem.
      pose proof (label_update_at _ _ _ _ p E1) as HL. rewrite Hl in HL. cbn in HL.
      destruct (decide (split_simple q `prefix_of` p)) as [Hq|Hq].
      * rewrite (H3 _ _ HL Hidem), Hidem.
        rewrite (decide_True (P := Exists _ (q :: paths))) by (by left).
        by destruct (decide _).
      * rewrite (H3 _ _ HL Hidem).
        destruct (decide (Exists _ paths)) as [Hp|Hp].
        -- rewrite decide_True; [done|]. by right.
        -- rewrite decide_False; [done|]. intros Hc. inversion Hc; subst; auto.
Qed.

(** Membership of one API after one pass. *)
Lemma update_all_ok sel f apis t :
  (forall n s, f n (f n s) = f n s) ->
  (forall d q, d ∈ apis -> q ∈ sel d.2 -> is_Some (label t (split_simple q))) ->
  exists t', update_all sel f apis t = Some t' /\
    (forall p, is_Some (label t' p) <-> is_Some (label t p)).
Proof.
  intros Hidem. revert t. induction apis as [|[n d] apis IH]; intros t Hdom; cbn [update_all].
  - exists t. done.
  - destruct (update_paths_ok (f n) (sel d) t) as (t1 & H1 & H2 & H3).
    { intros q Hq. apply (Hdom (n, d)); [left|done]. }
    rewrite H1. destruct (IH t1) as (t' & H4 & H5).
    { intros d' q Hd Hq. apply H2. apply (Hdom d'); [by right|done]. }
    exists t'. split; [done|]. intros p. by rewrite H5.
Qed.

Definition touches (sel : api_config -> list str) (apis : list (str * api_config))
    (api : str) (p : list str) : Prop :=
  exists d q, d ∈ apis /\ d.1 = api /\ q ∈ sel d.2 /\ split_simple q `prefix_of` p.

Lemma touches_cons sel n d apis api p :
  touches sel ((n, d) :: apis) api p <->
    (n = api /\ exists q, q ∈ sel d /\ split_simple q `prefix_of` p) \/
    touches sel apis api p.
Proof.
  unfold touches. split.
  - intros (d' & q & Hd & H1 & H2 & H3). apply elem_of_cons in Hd as [->|Hd].
    + left. split; [done|]. eauto.
    + right. exists d', q. auto.
  - intros [[H1 (q & H2 & H3)]|(d' & q & Hd & H1 & H2 & H3)].
    + exists (n, d), q. split; [left|]. auto.
    + exists d', q. split; [by right|]. auto.
Qed.

Lemma update_all_include apis t t' p a api :
  (forall d q, d ∈ apis -> q ∈ ac_include d.2 -> is_Some (label t (split_simple q))) ->
  update_all ac_include (fun n s => {[n]} ∪ s) apis t = Some t' ->
  label t p = Some a ->
  exists a', label t' p = Some a' /\
    (api ∈ a' <-> api ∈ a \/ touches ac_include apis api p).
Proof.
  revert t a. induction apis as [|[n d] apis IH]; intros t a Hdom; cbn [update_all].
  - intros [= <-] Hl. exists a. split; [done|]. split; [auto|].
    intros [?|(d & q & H & _)]; [done|]. by apply elem_of_nil in H.
  - destruct (update_paths_ok (fun s => {[n]} ∪ s) (ac_include d) t) as (t1 & H1 & H2 & H3).
    { intros q Hq. apply (Hdom (n, d)); [left|done]. }
    rewrite H1. intros H4 Hl.
    specialize (H3 p a Hl).
    destruct (IH t1 (if decide (Exists (fun q => split_simple q `prefix_of` p) (ac_include d))
                     then {[n]} ∪ a else a)) as (a' & Ha' & Hm).
    + intros d' q Hd Hq. apply H2. apply (Hdom d'); [by right|done].
    + done.
    + apply H3. intros s; set_solver.
    + exists a'. split; [done|]. rewrite Hm, touches_cons.
      case_decide as HE.
      * apply Exists_exists in HE as (q & Hq1 & Hq2).
        rewrite elem_of_union, elem_of_singleton. split.
        -- intros [[->|?]|?]; [|by left|by right; right].
           right. left. split; [done|]. eauto.
        -- intros [?|[[-> _]|?]]; auto.
      * split.
        -- intros [?|?]; auto.
        -- intros [?|[[_ (q & Hq1 & Hq2)]|?]]; auto.
           destruct HE. apply Exists_exists. eauto.
Qed.

Lemma update_all_exclude apis t t' p a api :
  (forall d q, d ∈ apis -> q ∈ ac_exclude d.2 -> is_Some (label t (split_simple q))) ->
  update_all ac_exclude (fun n s => s ∖ {[n]}) apis t = Some t' ->
  label t p = Some a ->
  exists a', label t' p = Some a' /\
    (api ∈ a' <-> api ∈ a /\ ~ touches ac_exclude apis api p).
Proof.
  revert t a. induction apis as [|[n d] apis IH]; intros t a Hdom; cbn [update_all].
  - intros [= <-] Hl. exists a. split; [done|]. split; [|by intros []].
    intros ?. split; [done|]. intros (d & q & Hx & _). by apply elem_of_nil in Hx.
  - destruct (update_paths_ok (fun s => s ∖ {[n]}) (ac_exclude d) t) as (t1 & H1 & H2 & H3).
    { intros q Hq. apply (Hdom (n, d)); [left|done]. }
    rewrite H1. intros H4 Hl.
    assert (H3' := H3 p a Hl). specialize (H3' ltac:(intros s; set_solver)).
    destruct (IH t1 (if decide (Exists (fun q => split_simple q `prefix_of` p) (ac_exclude d))
                     then a ∖ {[n]} else a)) as (a' & Ha' & Hm).
    + intros d' q Hd Hq. apply H2. apply (Hdom d'); [by right|done].
    + done.
    + done.
    + exists a'. split; [done|]. rewrite Hm, touches_cons.
      case_decide as HE.
      * apply Exists_exists in HE as (q & Hq1 & Hq2).
        rewrite elem_of_difference, elem_of_singleton. split.
        -- intros [[? ?] ?]. split; [done|]. intros [[-> _]|?]; auto.
        -- intros [? Hn]. split; [|naive_solver]. split; [done|].
           intros ->. apply Hn. left. split; [done|]. eauto.
      * split.
        -- intros [? Hn]. split; [done|].
           intros [[_ (q & Hq1 & Hq2)]|?]; [|auto].
           destruct HE. apply Exists_exists. eauto.
        -- intros [? Hn]. split; [done|]. intros ?. apply Hn. auto.
Qed.

Lemma all_paths_spec apis q :
  q ∈ all_paths apis <-> exists d, d ∈ apis /\ (q ∈ ac_include d.2 \/ q ∈ ac_exclude d.2).
Proof.
  unfold all_paths. induction apis as [|d apis IH]; cbn [map concat].
  - split; [by intros ?%elem_of_nil|]. intros (d & H & _). by apply elem_of_nil in H.
  - rewrite elem_of_app, elem_of_app, IH. split.
    + intros [H|(d' & H1 & H2)]; [exists d|exists d']; (split; [|tauto]).
      * left.
      * by right.
    + intros (d' & [->|H1]%elem_of_cons & H2); [auto|]. right. eauto.
Qed.

Lemma created_paths apis q :
  q ∈ all_paths apis ->
  is_Some (label (create_all apis api_map_empty) (split_simple q)).
Proof.
  intros H. rewrite label_create_all, decide_True; [eauto|].
  right. apply Exists_exists. exists q. done.
Qed.

Lemma load_apis_ok apis :
  exists t, load_apis apis = Some t /\
    (forall p, is_Some (label t p) <-> is_Some (label (create_all apis api_map_empty) p)) /\
    (forall p a api, label t p = Some a ->
       (api ∈ a <-> touches ac_include apis api p /\ ~ touches ac_exclude apis api p)).
Proof.
  unfold load_apis.
  set (t0 := create_all apis api_map_empty).
  assert (Hi : forall d q, d ∈ apis -> q ∈ ac_include d.2 -> is_Some (label t0 (split_simple q))).
  { intros d q Hd Hq. apply created_paths, all_paths_spec. eauto. }
  assert (He : forall d q, d ∈ apis -> q ∈ ac_exclude d.2 -> is_Some (label t0 (split_simple q))).
  { intros d q Hd Hq. apply created_paths, all_paths_spec. eauto. }
  destruct (update_all_ok ac_include (fun n s => {[n]} ∪ s) apis t0) as (t1 & E1 & D1);
    [intros; set_solver|done|].
  assert (He1 : forall d q, d ∈ apis -> q ∈ ac_exclude d.2 -> is_Some (label t1 (split_simple q))).
  { intros d q Hd Hq. apply D1. eauto. }
  destruct (update_all_ok ac_exclude (fun n s => s ∖ {[n]}) apis t1) as (t2 & E2 & D2);
    [intros; set_solver|done|].
  rewrite E1. exists t2. split; [done|]. split.
  { intros p. by rewrite D2, D1. }
  intros p a api Hl.
  assert (is_Some (label t0 p)) as [a0 H0] by (rewrite <- D1, <- D2; eauto).
  destruct (update_all_include _ _ _ p a0 api Hi E1 H0) as (a1 & H1 & M1).
  destruct (update_all_exclude _ _ _ p a1 api He1 E2 H1) as (a2 & H2 & M2).
  rewrite Hl in H2. injection H2 as ->. rewrite M2, M1.
  assert (a0 = ∅) as ->.
  { unfold t0 in H0. rewrite label_create_all in H0. case_decide; congruence. }
  rewrite elem_of_empty. tauto.
Qed.

(** The lookup, for configurations given by arbitrary strings. *)
Lemma apis_for_name_spec apis name :
  exists s, apis_for_name apis name = Some s /\
    forall api, api ∈ s <->
      touches ac_include apis api name /\ ~ touches ac_exclude apis api name.
Proof.
  unfold apis_for_name.
  destruct (load_apis_ok apis) as (t & E & D & M). rewrite E.
  exists (am_get t name). split; [done|]. intros api.
  destruct (am_get_label t name) as (p & Hp & Hl & Hmax).
  rewrite (M p _ api Hl).
  assert (Hsame : forall sel, (forall d q, d ∈ apis -> q ∈ sel d.2 -> q ∈ all_paths apis) ->
                  touches sel apis api p <-> touches sel apis api name).
  { intros sel Hsel. unfold touches. split.
    - intros (d & q & ? & ? & ? & ?). exists d, q. repeat (split; [done|]).
      by etrans.
    - intros (d & q & Hd & ? & Hq & ?). exists d, q. repeat (split; [done|]).
      apply Hmax; [done|]. apply D, created_paths. eauto. }
  rewrite !Hsame; [done| |].
  - intros d q ? ?. apply all_paths_spec. eauto.
  - intros d q ? ?. apply all_paths_spec. eauto.
Qed.

Lemma touches_in_file sel sel' defs api name :
  (forall d, d ∈ defs -> sel (in_file d).2 = map written (sel' d)) ->
  (forall d p, d ∈ defs -> p ∈ sel' d -> plain_path p) ->
  touches sel (map in_file defs) api name <->
  exists d p, d ∈ defs /\ ad_name d = api /\ p ∈ sel' d /\ p `prefix_of` name.
Proof.
  intros Hsel Hwf. unfold touches. split.
  - intros (x & q & Hx & H1 & H2 & H3).
    apply elem_of_list_fmap in Hx as (d & -> & Hd).
    rewrite (Hsel d Hd) in H2. apply elem_of_list_fmap in H2 as (p & -> & Hp).
    rewrite split_simple_written in H3 by eauto. exists d, p. done.
  - intros (d & p & Hd & H1 & H2 & H3). exists (in_file d), (written p).
    split; [apply elem_of_list_fmap; eauto|]. split; [done|].
    split.
    + rewrite (Hsel d Hd). apply elem_of_list_fmap. eauto.
    + by rewrite split_simple_written by eauto.
Qed.

Lemma classification defs name :
  (forall d, d ∈ defs -> well_formed_def d) ->
  exists s, apis_for_name (map in_file defs) name = Some s /\
    forall api, api ∈ s <-> belongs defs name api.
Proof.
  intros Hwf. destruct (apis_for_name_spec (map in_file defs) name) as (s & E & H).
  exists s. split; [done|]. intros api. rewrite H. unfold belongs.
  rewrite (touches_in_file ac_include ad_include), (touches_in_file ac_exclude ad_exclude);
    try done.
  - intros d p Hd Hp. destruct (Hwf d Hd) as [H1 H2]. auto.
  - intros d p Hd Hp. destruct (Hwf d Hd) as [H1 H2]. auto.
Qed.

Lemma order_irrelevant defs defs' name :
  (forall d, d ∈ defs -> well_formed_def d) ->
  defs ≡ₚ defs' ->
  apis_for_name (map in_file defs) name = apis_for_name (map in_file defs') name.
Proof.
  intros Hwf Hp.
  destruct (classification defs name Hwf) as (s & E & H).
  destruct (classification defs' name) as (s' & E' & H').
  { intros d Hd. apply Hwf. by rewrite Hp. }
  rewrite E, E'. f_equal. apply set_eq. intros api. rewrite H, H'.
  unfold belongs. by setoid_rewrite Hp.
Qed.

Lemma never_panics apis name : is_Some (apis_for_name apis name).
Proof. destruct (apis_for_name_spec apis name) as (s & E & _). eauto. Qed.

(** The table that the configuration's definitions make, whatever strings they contain. *)
Lemma apis_for_name_owned (defs : gmap str api_config) (name : list str) :
  exists s, apis_for_name (map_to_list defs) name = Some s /\ forall api, api ∈ s <-> owned defs name api.
Proof.
  destruct (apis_for_name_spec (map_to_list defs) name) as (s & E & H). exists s. split; [done|]. intros api.
  rewrite H. unfold touches, owned. split.
  - intros [([k x] & q & Hin & Hk & Hq & Hp) Hn]. cbn in Hk, Hq. subst k. apply elem_of_map_to_list in Hin.
    exists x. split; [done|]. split; [exists q; split; [done|by apply covers_split]|].
    intros (p & Hp1 & Hp2%covers_split). apply Hn.
    exists (api, x), p. split; [by apply elem_of_map_to_list|]. done.
  - intros (x & Hx & (p & Hp1 & Hp2%covers_split) & Hn). split.
    + exists (api, x), p. split; [by apply elem_of_map_to_list|]. done.
    + intros ([k y] & q & Hin & Hk & Hq & Hq2). cbn in Hk, Hq. subst k. apply elem_of_map_to_list in Hin.
      rewrite Hx in Hin. injection Hin as <-. apply Hn. exists q. split; [done|by apply covers_split].
Qed.
