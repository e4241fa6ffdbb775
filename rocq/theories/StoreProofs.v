From Verif Require Import Base BaseFacts ApiMapModel ConfigModel ProblemModel StoreModel StoreSpec.

(** ** Keys and merging *)

Lemma dedup_key_idem p : dedup_key (dedup_key p) = dedup_key p.
Proof. by destruct p. Qed.

Lemma merge_spec a b :
  dedup_key a = dedup_key b ->
  exists m, merge_problem a b = Some m /\ dedup_key m = dedup_key a /\
    (forall u, u ∈ usages_in a -> u ∈ usages_in m) /\
    (forall u, u ∈ usages_in b -> u ∈ usages_in m).
Proof.
  intros H.
  assert (Hcase : (exists ua ub, a = PDisallowedApiUsage ua /\ b = PDisallowedApiUsage ub) \/
    (merge_problem a b = Some a /\ forall u, u ∈ usages_in b -> u ∈ usages_in a)).
  { destruct a, b; try discriminate H; try (right; split; [done|]; cbn; congruence); eauto.
    right. split; [done|]. injection H as -> ->. done. }
  destruct Hcase as [(ua & ub & -> & ->)|[-> Hu]]; [|by exists a].
  destruct ua, ub. unfold with_usages in H. cbn in H. injection H as -> -> ->.
  cbn. rewrite bool_decide_eq_true_2 by done. eexists. split; [done|]. split; [done|]. cbn.
  split; intros v Hv; apply elem_of_app; auto.
Qed.

(** ** Well-formed stores *)

Lemma key_get_spec k l id :
  NoDup l.*1 -> key_get k l = Some id <-> (k, id) ∈ l.
Proof.
  induction l as [|[k' id'] l IH]; cbn.
  - intros _. rewrite elem_of_nil. done.
  - intros [Hk Hnd]%NoDup_cons. rewrite elem_of_cons. case_bool_decide as E.
    + subst k'. split.
      * intros [= ->]. by left.
      * intros [[= ->]|H]; [done|]. exfalso. apply Hk. apply elem_of_list_fmap. by exists (k, id).
    + rewrite IH by done. split; [tauto|]. by intros [[= -> ->]|?].
Qed.

Lemma key_get_None k l : key_get k l = None <-> k ∉ l.*1.
Proof.
  induction l as [|[k' id'] l IH]; cbn.
  - split; [by intros _ ?%elem_of_nil|done].
  - rewrite elem_of_cons. case_bool_decide as E; [subst; split; [done|]; intros H; by destruct H; left|].
    rewrite IH. tauto.
Qed.

(** A store whose tables agree; [h] is the key that is left over while its problem
    is being replaced. *)
Definition consistent (h : option (problem * nat)) (s : store) : Prop :=
  NoDup (st_ids s).*1 /\
  (forall k id, (k, id) ∈ st_ids s ->
     (h = Some (k, id) /\ st_problems s !! id = Some None) \/
     exists p, st_problems s !! id = Some (Some p) /\ dedup_key p = k) /\
  (forall id p, st_problems s !! id = Some (Some p) -> (dedup_key p, id) ∈ st_ids s) /\
  (forall k id, h = Some (k, id) -> (k, id) ∈ st_ids s /\ st_problems s !! id = Some None).

(** What adding problems may do to a store. *)
Definition grows (s s' : store) : Prop :=
  st_entries s' = st_entries s /\ st_aborted s' = st_aborted s /\
  (forall j, st_problems s !! j = Some None -> st_problems s' !! j = Some None) /\
  (forall j q, st_problems s !! j = Some (Some q) ->
     exists q', st_problems s' !! j = Some (Some q') /\ dedup_key q' = dedup_key q /\
       forall u, u ∈ usages_in q -> u ∈ usages_in q') /\
  (forall j, length (st_problems s) <= j -> st_problems s' !! j <> Some None).

Lemma grows_refl s : grows s s.
Proof.
  split_and!; try done.
  - intros j q H. eauto.
  - intros j Hj H. apply lookup_lt_Some in H. lia.
Qed.

Lemma grows_length s s' : grows s s' -> length (st_problems s) <= length (st_problems s').
Proof.
  intros (_ & _ & H1 & H2 & _).
  destruct (decide (length (st_problems s') < length (st_problems s))) as [Hlt|]; [|lia].
  destruct (lookup_lt_is_Some_2 (st_problems s) (length (st_problems s'))) as [[q|] Hq]; [done|..].
  - apply H2 in Hq as (q' & Hq & _). apply lookup_lt_Some in Hq. lia.
  - apply H1 in Hq. apply lookup_lt_Some in Hq. lia.
Qed.

Lemma grows_trans s1 s2 s3 : grows s1 s2 -> grows s2 s3 -> grows s1 s3.
Proof.
  intros HA HB. pose proof (grows_length _ _ HA).
  destruct HA as (A1 & A2 & A3 & A4 & A5), HB as (B1 & B2 & B3 & B4 & B5).
  split_and!; [congruence..|auto| |].
  - intros j q Hq. destruct (A4 j q Hq) as (q' & Hq' & Hk & Hu).
    destruct (B4 j q' Hq') as (q'' & Hq'' & Hk' & Hu').
    exists q''. split; [done|]. split; [congruence|auto].
  - intros j Hj Hn. destruct (decide (j < length (st_problems s2))) as [Hlt|Hge].
    + destruct (lookup_lt_is_Some_2 (st_problems s2) j Hlt) as [[q|] Hq].
      * apply B4 in Hq as (q' & Hq & _). congruence.
      * by apply (A5 j).
    + apply (B5 j); [lia|done].
Qed.

(** [p] is represented at [id] in [s']; it was already open in [s] or is new. *)
Definition placed (s s' : store) (p : problem) (id : nat) : Prop :=
  exists q, st_problems s' !! id = Some (Some q) /\ dedup_key q = dedup_key p /\
    (forall u, u ∈ usages_in p -> u ∈ usages_in q) /\
    (id < length (st_problems s) ->
       exists q0, st_problems s !! id = Some (Some q0) /\ dedup_key q0 = dedup_key p).

Lemma add_problem_spec h s p :
  consistent h s ->
  match add_problem s p with
  | None => exists id, h = Some (dedup_key p, id)
  | Some (s', id) => consistent h s' /\ grows s s' /\ placed s s' p id /\
      (forall id', h <> Some (dedup_key p, id'))
  end.
Proof.
  intros (H1 & H2 & H3 & H4). unfold add_problem.
  destruct (key_get (dedup_key p) (st_ids s)) as [id|] eqn:E.
  - apply key_get_spec in E; [|done].
    destruct (H2 _ _ E) as [[-> Hn]|(q & Hq & Hk)].
    { rewrite Hn. eauto. }
    rewrite Hq.
    assert (Hh : forall id', h <> Some (dedup_key p, id')).
    { intros id' ->. destruct (H4 _ _ eq_refl) as [Hin Hnone].
      assert (id' = id) as ->; [|congruence].
      apply key_get_spec in Hin; [|done]. apply key_get_spec in E; [|done]. congruence. }
    case_bool_decide as Epq.
    + subst q. split; [done|]. split; [apply grows_refl|]. split; [|done].
      exists p. split_and!; try done. eauto.
    + destruct (merge_spec q p Hk) as (m & Em & Hkm & Hum1 & Hum2). rewrite Em.
      assert (Hlt : id < length (st_problems s)) by by apply lookup_lt_Some in Hq.
      assert (HL : forall j, <[id:=Some m]> (st_problems s) !! j =
                    if decide (j = id) then Some (Some m) else st_problems s !! j).
      { intros j. case_decide as Ej; [subst; by apply list_lookup_insert|].
        by apply list_lookup_insert_ne. }
      split; [|split; [|split; [|done]]].
      * split_and!; cbn; [done| | |].
        -- intros k j Hin. rewrite HL. case_decide as Ej.
           ++ subst j. right. exists m. split; [done|].
              destruct (H2 _ _ Hin) as [[_ ?]|(q' & Hq' & Hk')]; congruence.
           ++ by apply H2.
        -- intros j q'. rewrite HL. case_decide as Ej; [|by apply H3].
           intros [= <-]. subst j. by rewrite Hkm, Hk.
        -- intros k j ->. destruct (H4 _ _ eq_refl) as [? Hn]. split; [done|]. rewrite HL.
           case_decide; [congruence|done].
      * split_and!; cbn; try done.
        -- intros j Hj. rewrite HL. case_decide; [congruence|done].
        -- intros j q' Hj. rewrite HL. case_decide as Ej; [|eauto].
           subst j. exists m. split; [done|]. assert (q' = q) as -> by congruence. auto.
        -- intros j Hj Hn. apply lookup_lt_Some in Hn. rewrite insert_length in Hn. lia.
      * exists m. cbn. rewrite HL, decide_True by done. split; [done|]. split; [congruence|].
        split; [auto|]. eauto.
  - apply key_get_None in E.
    set (n := length (st_problems s)).
    assert (HL : forall j o, (st_problems s ++ [Some p]) !! j = Some o <->
                   st_problems s !! j = Some o \/ (j = n /\ o = Some p)).
    { intros j o. rewrite lookup_app_Some. split.
      - intros [?|[Hge Hj]]; [by left|]. right.
        destruct (j - length (st_problems s)) as [|i] eqn:Ei; [|done].
        cbn in Hj. injection Hj as <-. split; [|done]. unfold n. lia.
      - intros [?|[-> ->]]; [by left|]. right. unfold n. rewrite Nat.sub_diag. done. }
    split; [|split; [|split]].
    + split_and!; cbn.
      * apply NoDup_cons. done.
      * intros k j [[= -> ->]|Hin]%elem_of_cons.
        -- right. exists p. rewrite HL. auto.
        -- destruct (H2 _ _ Hin) as [[? ?]|(q & ? & ?)].
           ++ left. rewrite HL. auto.
           ++ right. exists q. rewrite HL. auto.
      * intros j q. rewrite HL. intros [H|[-> [= ->]]]; [right; by apply H3|left].
      * intros k j Hh. destruct (H4 _ _ Hh). rewrite HL. split; [by right|by left].
    + split_and!; cbn; try done.
      * intros j Hj. rewrite HL. by left.
      * intros j q Hj. exists q. rewrite HL. auto.
      * intros j Hj. rewrite HL. intros [H|[_ ?]]; [|done]. apply lookup_lt_Some in H. lia.
    + exists p. cbn. rewrite HL. split; [by right|]. split; [done|]. split; [done|]. unfold n. lia.
    + intros id' ->. destruct (H4 _ _ eq_refl) as [Hin _]. apply E.
      apply elem_of_list_fmap. by exists (dedup_key p, id').
Qed.

Lemma placed_grows_r s s' s'' p id : placed s s' p id -> grows s' s'' -> placed s s'' p id.
Proof.
  intros (q & Hq & Hk & Hu & Ho) (_ & _ & _ & H & _).
  destruct (H _ _ Hq) as (q' & Hq' & Hk' & Hu'). exists q'.
  split; [done|]. split; [congruence|]. split; [auto|done].
Qed.

Lemma placed_grows_l s s' s'' p id : grows s s' -> placed s' s'' p id -> placed s s'' p id.
Proof.
  intros HG (q & Hq & Hk & Hu & Ho). exists q. do 3 (split; [done|]). intros Hlt.
  pose proof (grows_length _ _ HG). destruct (Ho ltac:(lia)) as (q0 & Hq0 & Hk0).
  destruct HG as (_ & _ & H1 & H2 & _).
  destruct (lookup_lt_is_Some_2 _ _ Hlt) as [[q1|] Hq1].
  - exists q1. split; [done|]. destruct (H2 _ _ Hq1) as (q2 & Hq2 & Hk2 & _). congruence.
  - apply H1 in Hq1. congruence.
Qed.

Lemma add_problems_spec h ps : forall s,
  consistent h s ->
  match add_problems s ps with
  | None => exists p id, p ∈ ps /\ h = Some (dedup_key p, id)
  | Some (s', ids) => consistent h s' /\ grows s s' /\ Forall2 (placed s s') ps ids /\
      (forall p id', p ∈ ps -> h <> Some (dedup_key p, id'))
  end.
Proof.
  induction ps as [|p ps IH]; intros s Hc; cbn.
  - split; [done|]. split; [apply grows_refl|]. split; [constructor|]. by intros p id ?%elem_of_nil.
  - pose proof (add_problem_spec h s p Hc) as HA.
    destruct (add_problem s p) as [[s1 id]|].
    2:{ destruct HA as [id ->]. exists p, id. split; [left|done]. }
    destruct HA as (Hc1 & Hg1 & Hp1 & Hh1). specialize (IH s1 Hc1).
    destruct (add_problems s1 ps) as [[s2 ids]|].
    + destruct IH as (Hc2 & Hg2 & Hp2 & Hh2). split; [done|].
      split; [by eapply grows_trans|]. split.
      * constructor; [by eapply placed_grows_r|].
        eapply Forall2_impl; [exact Hp2|]. intros q j. by apply placed_grows_l.
      * intros q j [->|Hq]%elem_of_cons; auto.
    + destruct IH as (q & j & Hq & ->). exists q, j. split; [by right|done].
Qed.

(** ** Single operations *)

Lemma add_spec s c ps :
  consistent None s ->
  match store_add s c ps with
  | None => ps = []
  | Some (s', ids) => ps <> [] /\ consistent None s' /\
      Forall2 (placed s s') ps ids /\
      exists s1, grows s s1 /\ st_problems s' = st_problems s1 /\ st_ids s' = st_ids s1 /\
        st_aborted s' = st_aborted s /\
        st_entries s' = st_entries s ++ [Notification (list_to_set ids) c true]
  end.
Proof.
  intros Hc. unfold store_add. destruct ps as [|p ps]; [done|].
  pose proof (add_problems_spec None (p :: ps) s Hc) as HA.
  destruct (add_problems s (p :: ps)) as [[s1 ids]|].
  - destruct HA as (Hc1 & Hg & Hp & _). split; [done|]. split; [exact Hc1|]. split; [exact Hp|].
    exists s1. destruct Hg as (G1 & G2 & G). cbn. rewrite G1. split_and!; try done.
  - by destruct HA as (? & ? & _ & ?).
Qed.

Lemma replace_spec s id ps :
  consistent None s ->
  match store_replace s id ps with
  | None => (forall q, st_problems s !! id <> Some (Some q)) \/
      exists q p, st_problems s !! id = Some (Some q) /\ p ∈ ps /\ dedup_key p = dedup_key q
  | Some (s', ids, sent) =>
      consistent None s' /\
      exists q, st_problems s !! id = Some (Some q) /\
        (forall p, p ∈ ps -> dedup_key p <> dedup_key q) /\
        let s0 := set_problems s (<[id := None]> (st_problems s)) in
        Forall2 (placed s0 s') ps ids /\
        exists s1, grows s0 s1 /\ st_problems s' = st_problems s1 /\
          st_aborted s' = st_aborted s /\
          st_entries s' = map (fun e => (replace_in_entry id ids e).1) (st_entries s) /\
          sent = concat (map (fun e => (replace_in_entry id ids e).2) (st_entries s))
  end.
Proof.
  intros Hc. unfold store_replace.
  destruct (st_problems s !! id) as [[q|]|] eqn:Eq; [|left; congruence..].
  set (s0 := set_problems s (<[id := None]> (st_problems s))).
  assert (Hlt : id < length (st_problems s)) by by apply lookup_lt_Some in Eq.
  assert (HL : forall j, st_problems s0 !! j =
                    if decide (j = id) then Some None else st_problems s !! j).
  { intros j. cbn. case_decide as Ej; [subst; by apply list_lookup_insert|].
    by apply list_lookup_insert_ne. }
  assert (Hc0 : consistent (Some (dedup_key q, id)) s0).
  { destruct Hc as (H1 & H2 & H3 & H4). split_and!; [done| | |].
    - intros k j Hin. rewrite HL. case_decide as Ej.
      + subst j. left. split; [|done].
        destruct (H2 _ _ Hin) as [[? _]|(q' & Hq' & <-)]; [done|congruence].
      + destruct (H2 _ _ Hin) as [[? _]|?]; [done|by right].
    - intros j p. rewrite HL. case_decide; [done|]. apply H3.
    - intros k j [= <- <-]. split; [by apply H3|]. rewrite HL. by rewrite decide_True. }
  pose proof (add_problems_spec _ ps s0 Hc0) as HA.
  destruct (add_problems s0 ps) as [[s1 ids]|].
  - destruct HA as (Hc1 & Hg & Hp & Hh). split.
    + destruct Hc1 as (H1 & H2 & H3 & H4).
      destruct (H4 _ _ eq_refl) as [Hk Hkn].
      split_and!; cbn.
      * unfold key_remove. clear -H1. induction (st_ids s1) as [|[k j] l IH]; cbn; [constructor|].
        cbn in H1. apply NoDup_cons in H1 as [Hk Hnd].
        case_decide; cbn; [|auto]. apply NoDup_cons. split; [|auto].
        intros Hin. apply Hk. apply elem_of_list_fmap in Hin as (e & -> & He).
        apply elem_of_list_filter in He as [_ He]. by apply elem_of_list_fmap_1.
      * intros k j Hin. apply elem_of_list_filter in Hin as [Hne Hin]. right.
        destruct (H2 _ _ Hin) as [[E _]|?]; [|done]. destruct Hne. cbn. congruence.
      * intros j p Hj. apply elem_of_list_filter. split; [|by apply H3]. cbn. intros Hkq.
        apply H3 in Hj as Hin. rewrite Hkq in Hin.
        apply key_get_spec in Hin; [|done]. apply key_get_spec in Hk; [|done].
        assert (j = id) as -> by congruence. congruence.
      * done.
    + exists q. split; [done|]. split.
      { intros p Hpp Hkp. apply (Hh p id Hpp). by rewrite Hkp. }
      cbn zeta. split; [exact Hp|]. exists s1.
      destruct Hg as (G1 & G2 & G). cbn. rewrite G1. split_and!; try done.
      * by rewrite map_map.
      * by rewrite map_map.
  - destruct HA as (p & j & Hp & [= Hk _]). right. exists q, p. done.
Qed.

(** ** Histories *)

Lemma store_run_snoc s ops op :
  store_run s (ops ++ [op]) =
  match store_run s ops with
  | None => None
  | Some (s1, es) =>
      match store_step s1 op with
      | None => None
      | Some (s2, e) => Some (s2, es ++ [e])
      end
  end.
Proof.
  revert s. induction ops as [|o ops IH]; intros s; cbn.
  - destruct (store_step s op) as [[s' e]|]; done.
  - destruct (store_step s o) as [[s' e]|]; [|done]. rewrite IH.
    destruct (store_run s' ops) as [[s1 es]|]; [|done].
    by destruct (store_step s1 op) as [[s2 e2]|].
Qed.

Lemma step_op s op s' e : store_step s op = Some (s', e) -> se_op e = op.
Proof.
  destruct op as [c ps|id ps|]; cbn.
  - destruct (store_add s c ps) as [[]|]; [|done]. by intros [= _ <-].
  - destruct (store_replace s id ps) as [[[]]|]; [|done]. by intros [= _ <-].
  - by intros [= _ <-].
Qed.

(** Induction over histories. *)
Lemma history_ind (P : store -> list store_event -> Prop) :
  P store_init [] ->
  (forall s es s' e, history s es -> P s es ->
     store_step s (se_op e) = Some (s', e) -> P s' (es ++ [e])) ->
  forall s es, history s es -> P s es.
Proof.
  intros H0 HS s es [ops Hrun]. revert s es Hrun.
  induction ops as [|op ops IH] using rev_ind; intros s es Hrun.
  - by injection Hrun as <- <-.
  - rewrite store_run_snoc in Hrun.
    destruct (store_run store_init ops) as [[s1 es1]|] eqn:E1; [|done].
    destruct (store_step s1 op) as [[s2 e]|] eqn:E2; [|done]. injection Hrun as <- <-.
    apply (HS s1); [by exists ops|by apply IH|]. by rewrite (step_op _ _ _ _ E2).
Qed.

Lemma history_snoc_inv s es e :
  history s (es ++ [e]) ->
  exists s0, history s0 es /\ store_step s0 (se_op e) = Some (s, e).
Proof.
  intros [ops Hrun]. revert Hrun. destruct ops as [|op ops _] using rev_ind; intros Hrun.
  - injection Hrun as _ H. by destruct es.
  - rewrite store_run_snoc in Hrun.
    destruct (store_run store_init ops) as [[s1 es1]|] eqn:E1; [|done].
    destruct (store_step s1 op) as [[s2 e2]|] eqn:E2; [|done].
    injection Hrun as <- Hes. apply app_inj_tail in Hes as [-> ->].
    exists s1. split; [by exists ops|]. by rewrite (step_op _ _ _ _ E2).
Qed.

Lemma history_prefix s es1 es2 :
  history s (es1 ++ es2) -> exists s1, history s1 es1.
Proof.
  revert s. induction es2 as [|e es2 IH] using rev_ind; intros s.
  - rewrite app_nil_r. eauto.
  - rewrite app_assoc. intros (s0 & H & _)%history_snoc_inv. eauto.
Qed.

Lemma history_consistent s es : history s es -> consistent None s.
Proof.
  revert s es. apply history_ind.
  - split_and!; cbn; [constructor| | |done].
    + by intros ? ? ?%elem_of_nil.
    + by intros id p ?.
  - intros s es s' e _ Hc. destruct (se_op e) as [c ps|id ps|]; cbn.
    + pose proof (add_spec s c ps Hc) as HA. destruct (store_add s c ps) as [[s1 ids]|]; [|done].
      intros [= <- _]. by destruct HA as (_ & ? & _).
    + pose proof (replace_spec s id ps Hc) as HA.
      destruct (store_replace s id ps) as [[[s1 ids] sent]|]; [|done].
      intros [= <- _]. by destruct HA as (? & _).
    + intros [= <- _]. exact Hc.
Qed.

(** Uniform description of what one operation does to the problems. *)
Definition replaced_id (op : store_op) : option nat :=
  match op with SReplace id _ => Some id | _ => None end.

Lemma step_problems s es s' e :
  history s es -> store_step s (se_op e) = Some (s', e) ->
  exists s0 s1,
    (match replaced_id (se_op e) with
     | Some id => (exists q, st_problems s !! id = Some (Some q) /\
                     forall p, p ∈ submitted (se_op e) -> dedup_key p <> dedup_key q) /\
                  st_problems s0 = <[id := None]> (st_problems s)
     | None => st_problems s0 = st_problems s
     end) /\
    grows s0 s1 /\ st_problems s' = st_problems s1 /\
    Forall2 (placed s0 s') (submitted (se_op e)) (se_ids e).
Proof.
  intros Hc%history_consistent. destruct (se_op e) as [c ps|id ps|] eqn:Eop; cbn.
  - pose proof (add_spec s c ps Hc) as HA. destruct (store_add s c ps) as [[s2 ids]|]; [|done].
    intros [= <- <-]. destruct HA as (_ & _ & Hp & s1 & Hg & Hps & _).
    exists s, s1. done.
  - pose proof (replace_spec s id ps Hc) as HA.
    destruct (store_replace s id ps) as [[[s2 ids] sent]|]; [|done].
    intros [= <- <-]. destruct HA as (_ & q & Hq & Hk & Hp & s1 & Hg & Hps & _).
    eexists _, s1. split; [split; [eauto|]|]; [|split; [exact Hg|split; [done|exact Hp]]]. done.
  - intros [= <- <-]. exists s, s. split; [done|]. split; [apply grows_refl|]. split; [done|].
    constructor.
Qed.

Lemma closed_snoc es e id :
  closed (es ++ [e]) id <-> closed es id \/ replaced_id (se_op e) = Some id.
Proof.
  unfold closed. setoid_rewrite elem_of_app. setoid_rewrite elem_of_list_singleton. split.
  - intros (x & ps & [Hx| ->] & H); [left; eauto|right]. by rewrite H.
  - intros [(x & ps & ? & ?)|H]; [eauto|]. destruct (se_op e) eqn:E; try done.
    cbn in H. injection H as ->. eauto.
Qed.

(** Which ids are closed. *)
Lemma closed_iff s es id :
  history s es -> closed es id <-> st_problems s !! id = Some None.
Proof.
  intros H. revert id. revert s es H. apply (history_ind (fun s es => forall id, closed es id <-> st_problems s !! id = Some None)).
  - intros id. split; [by intros (? & ? & ?%elem_of_nil & _)|done].
  - intros s es s' e Hh IH Hstep id. rewrite closed_snoc.
    destruct (step_problems _ _ _ _ Hh Hstep) as (s0 & s1 & H0 & Hg & -> & _).
    assert (Hs0 : closed es id \/ replaced_id (se_op e) = Some id <->
                  st_problems s0 !! id = Some None).
    { rewrite IH. destruct (replaced_id (se_op e)) as [j|].
      - destruct H0 as [(q & Hq & _) ->]. apply lookup_lt_Some in Hq as Hlt.
        destruct (decide (j = id)) as [->|Hne].
        + rewrite list_lookup_insert by done. tauto.
        + rewrite list_lookup_insert_ne by done. split; [|tauto]. intros [?|[= ->]]; done.
      - rewrite H0. split; [|tauto]. by intros [?|?]. }
    rewrite Hs0. destruct Hg as (_ & _ & G1 & G2 & G3). split; [apply G1|].
    intros Hn. destruct (decide (id < length (st_problems s0))) as [Hlt|Hge].
    + destruct (lookup_lt_is_Some_2 _ _ Hlt) as [[q|] Hq]; [|done].
      apply G2 in Hq as (q' & Hq' & _). congruence.
    + exfalso. by apply (G3 id); [lia|].
Qed.

Lemma replaced_was_open s es s' e id :
  history s es -> store_step s (se_op e) = Some (s', e) ->
  replaced_id (se_op e) = Some id -> ~ closed es id.
Proof.
  intros Hh Hstep Hid. destruct (step_problems _ _ _ _ Hh Hstep) as (s0 & s1 & H0 & _).
  rewrite Hid in H0. destruct H0 as [(q & Hq & _) _]. rewrite (closed_iff _ _ _ Hh). congruence.
Qed.

(** Ids handed out by an operation are open right after it. *)
Lemma new_ids_open s es s' e id :
  history s es -> store_step s (se_op e) = Some (s', e) -> id ∈ se_ids e ->
  exists q, st_problems s' !! id = Some (Some q).
Proof.
  intros Hh Hstep Hid. destruct (step_problems _ _ _ _ Hh Hstep) as (s0 & s1 & _ & _ & _ & HF).
  apply elem_of_list_lookup in Hid as [k Hk].
  destruct (Forall2_lookup_r _ _ _ _ _ HF Hk) as (p & _ & (q & Hq & _)). eauto.
Qed.

(** ** C14, C15 *)

Lemma got_id_snoc es e p id :
  got_id (es ++ [e]) p id <->
  got_id es p id \/ exists k, submitted (se_op e) !! k = Some p /\ se_ids e !! k = Some id.
Proof.
  unfold got_id. setoid_rewrite elem_of_app. setoid_rewrite elem_of_list_singleton.
  split.
  - intros (x & k & [H| ->] & ?); eauto.
  - intros [(x & k & ? & ?)|(k & ?)]; eauto.
Qed.

(** The state of an id after one more operation. *)
Lemma step_id s es s' e id q' :
  history s es -> store_step s (se_op e) = Some (s', e) ->
  st_problems s' !! id = Some (Some q') -> id < length (st_problems s) ->
  exists q, st_problems s !! id = Some (Some q) /\ dedup_key q' = dedup_key q /\
    forall u, u ∈ usages_in q -> u ∈ usages_in q'.
Proof.
  intros Hh Hstep Hq' Hlt.
  destruct (step_problems _ _ _ _ Hh Hstep) as (s0 & s1 & H0 & Hg & Heq & _).
  rewrite Heq in Hq'. destruct Hg as (_ & _ & G1 & G2 & _).
  assert (Hlen : length (st_problems s0) = length (st_problems s)).
  { destruct (replaced_id (se_op e)); [destruct H0 as [_ ->]; by rewrite insert_length|by rewrite H0]. }
  destruct (lookup_lt_is_Some_2 (st_problems s0) id ltac:(lia)) as [[q|] Hq].
  2:{ apply G1 in Hq. congruence. }
  exists q. destruct (G2 _ _ Hq) as (q2 & Hq2 & Hk & Hu).
  assert (q2 = q') as -> by congruence. split; [|done].
  destruct (replaced_id (se_op e)) as [j|]; [|by rewrite <- H0].
  destruct H0 as [(q3 & Hq3 & _) H0]. rewrite H0 in Hq.
  destruct (decide (j = id)) as [->|].
  - by rewrite list_lookup_insert in Hq.
  - by rewrite list_lookup_insert_ne in Hq.
Qed.

Lemma step_length s es s' e :
  history s es -> store_step s (se_op e) = Some (s', e) ->
  length (st_problems s) <= length (st_problems s').
Proof.
  intros Hh Hstep. destruct (step_problems _ _ _ _ Hh Hstep) as (s0 & s1 & H0 & Hg & -> & _).
  apply grows_length in Hg. 
  assert (Hlen : length (st_problems s0) = length (st_problems s)); [|lia].
  destruct (replaced_id (se_op e)); [destruct H0 as [_ ->]; by rewrite insert_length|by rewrite H0].
Qed.

Lemma ids_stable s es :
  history s es ->
  (forall p id, got_id es p id -> id < length (st_problems s)) /\
  (forall p id q, got_id es p id -> st_problems s !! id = Some (Some q) ->
     dedup_key q = dedup_key p /\ forall u, u ∈ usages_in p -> u ∈ usages_in q) /\
  (forall p p' id, got_id es p id -> got_id es p' id -> dedup_key p = dedup_key p').
Proof.
  revert s es. apply history_ind.
  - split_and!; by intros ? * (? & ? & ?%elem_of_nil & _).
  - intros s es s' e Hh (IH1 & IH2 & IH3) Hstep.
    pose proof (step_length _ _ _ _ Hh Hstep) as Hlen.
    assert (Hnew : forall k p id, submitted (se_op e) !! k = Some p -> se_ids e !! k = Some id ->
      exists q, st_problems s' !! id = Some (Some q) /\ dedup_key q = dedup_key p /\
        (forall u, u ∈ usages_in p -> u ∈ usages_in q) /\
        (id < length (st_problems s) ->
           exists q0, st_problems s !! id = Some (Some q0) /\ dedup_key q0 = dedup_key p)).
    { intros k p id Hp Hid.
      destruct (step_problems _ _ _ _ Hh Hstep) as (s0 & s1 & H0 & Hg & Heq & HF).
      pose proof (Forall2_lookup_lr _ _ _ _ _ _ HF Hp Hid) as (q & Hq & Hk & Hu & Ho).
      exists q. do 3 (split; [done|]). intros Hlt.
      destruct (step_id _ _ _ _ _ _ Hh Hstep Hq Hlt) as (q0 & Hq0 & Hk0 & _).
      exists q0. split; [done|]. congruence. }
    split_and!.
    + intros p id [H|(k & Hp & Hid)]%got_id_snoc; [apply IH1 in H; lia|].
      destruct (Hnew _ _ _ Hp Hid) as (q & Hq & _). by apply lookup_lt_Some in Hq.
    + intros p id q [H|(k & Hp & Hid)]%got_id_snoc Hq.
      * destruct (step_id _ _ _ _ _ _ Hh Hstep Hq (IH1 _ _ H)) as (q0 & Hq0 & Hk0 & Hu0).
        destruct (IH2 _ _ _ H Hq0) as [Hk Hu]. split; [congruence|auto].
      * destruct (Hnew _ _ _ Hp Hid) as (q1 & Hq1 & Hk & Hu & _).
        assert (q1 = q) as -> by congruence. auto.
    + assert (Hmix : forall p p' id k, got_id es p id -> submitted (se_op e) !! k = Some p' ->
        se_ids e !! k = Some id -> dedup_key p = dedup_key p').
      { intros p p' id k H Hp Hid. destruct (Hnew _ _ _ Hp Hid) as (_ & _ & _ & _ & Ho).
        destruct (Ho (IH1 _ _ H)) as (q0 & Hq0 & Hk0).
        destruct (IH2 _ _ _ H Hq0) as [Hk _]. congruence. }
      intros p p' id [H|(k & Hp & Hid)]%got_id_snoc [H'|(k' & Hp' & Hid')]%got_id_snoc.
      * eauto.
      * eauto.
      * symmetry. eauto.
      * destruct (Hnew _ _ _ Hp Hid) as (q & Hq & Hk & _).
        destruct (Hnew _ _ _ Hp' Hid') as (q' & Hq' & Hk' & _). congruence.
Qed.

Lemma open_from_spec n l id p :
  (id, p) ∈ open_from n l <-> n <= id /\ l !! (id - n) = Some (Some p).
Proof.
  revert n. induction l as [|[q|] l IH]; intros n; cbn.
  - rewrite elem_of_nil. split; [done|]. by intros [_ ?].
  - rewrite elem_of_cons, IH. split.
    + intros [[= -> ->]|[Hle H]]; [rewrite Nat.sub_diag; done|].
      split; [lia|]. replace (id - n) with (S (id - S n)) by lia. done.
    + intros [Hle H]. destruct (id - n) as [|m] eqn:E; cbn in H.
      * left. injection H as ->. f_equal. lia.
      * right. split; [lia|]. by replace (id - S n) with m by lia.
  - rewrite IH. split.
    + intros [Hle H]. split; [lia|]. replace (id - n) with (S (id - S n)) by lia. done.
    + intros [Hle H]. destruct (id - n) as [|m] eqn:E; cbn in H; [done|].
      split; [lia|]. by replace (id - S n) with m by lia.
Qed.

Lemma is_open_iff s id p : is_open s id p <-> st_problems s !! id = Some (Some p).
Proof.
  unfold is_open, store_open. rewrite open_from_spec, Nat.sub_0_r. split; [tauto|].
  split; [lia|done].
Qed.

Lemma open_from_sorted n l : StronglySorted lt (open_from n l).*1.
Proof.
  revert n. induction l as [|[q|] l IH]; intros n; cbn; [constructor| |apply IH].
  constructor; [apply IH|]. apply Forall_forall. intros id Hin.
  apply elem_of_list_fmap in Hin as ([id' p] & -> & Hin). apply open_from_spec in Hin as [Hle _].
  cbn. lia.
Qed.

Lemma distinct_keys s es id id' p p' :
  history s es -> is_open s id p -> is_open s id' p' -> dedup_key p = dedup_key p' -> id = id'.
Proof.
  intros (H1 & _ & H3 & _)%history_consistent. rewrite !is_open_iff. intros Ho Ho' Hk.
  apply H3 in Ho, Ho'. rewrite Hk in Ho.
  apply key_get_spec in Ho; [|done]. apply key_get_spec in Ho'; [|done]. congruence.
Qed.

Lemma open_unless_closed s es id :
  history s es -> (exists p, got_id es p id) -> ~ closed es id -> exists q, is_open s id q.
Proof.
  intros Hh [p Hp] Hc. destruct (ids_stable _ _ Hh) as (H1 & _).
  destruct (lookup_lt_is_Some_2 _ _ (H1 _ _ Hp)) as [[q|] Hq].
  - exists q. by apply is_open_iff.
  - by apply (closed_iff _ _ _ Hh) in Hq.
Qed.

Lemma new_ids_at_end s es s' e id q :
  history s es -> store_step s (se_op e) = Some (s', e) ->
  is_open s' id q -> (exists q0, is_open s id q0) \/ forall j q0, is_open s j q0 -> j < id.
Proof.
  intros Hh Hstep. rewrite is_open_iff. intros Hq.
  destruct (decide (id < length (st_problems s))) as [Hlt|Hge].
  - left. destruct (step_id _ _ _ _ _ _ Hh Hstep Hq Hlt) as (q0 & Hq0 & _).
    exists q0. by apply is_open_iff.
  - right. intros j q0 Hj%is_open_iff%lookup_lt_Some. lia.
Qed.

Lemma never_reused s es s' e id :
  history s es -> store_step s (se_op e) = Some (s', e) -> closed es id ->
  id ∉ se_ids e /\ forall q, ~ is_open s' id q.
Proof.
  intros Hh Hstep Hc.
  assert (Hh' : history s' (es ++ [e])).
  { destruct Hh as [ops Hops]. exists (ops ++ [se_op e]). rewrite store_run_snoc, Hops, Hstep. done. }
  assert (Hn : st_problems s' !! id = Some None).
  { apply (closed_iff _ _ _ Hh'). apply closed_snoc. by left. }
  split.
  - intros Hid. destruct (new_ids_open _ _ _ _ _ Hh Hstep Hid) as [q Hq]. congruence.
  - intros q Hq%is_open_iff. congruence.
Qed.

Lemma ids_length s es s' e :
  history s es -> store_step s (se_op e) = Some (s', e) ->
  length (se_ids e) = length (submitted (se_op e)).
Proof.
  intros Hh Hstep. destruct (step_problems _ _ _ _ Hh Hstep) as (s0 & s1 & _ & _ & _ & HF).
  symmetry. by apply Forall2_length in HF.
Qed.

Lemma panics_iff s es op :
  history s es ->
  store_step s op = None <->
  (exists c, op = SAdd c []) \/
  (exists id ps, op = SReplace id ps /\
     ((forall q, ~ is_open s id q) \/
      exists q p, is_open s id q /\ p ∈ ps /\ dedup_key p = dedup_key q)).
Proof.
  intros Hc%history_consistent. setoid_rewrite is_open_iff. destruct op as [c ps|id ps|]; cbn.
  - pose proof (add_spec s c ps Hc) as HA. destruct (store_add s c ps) as [[s1 ids]|].
    + split; [done|]. destruct HA as [HA _]. intros [(c' & [= <- ->])|(? & ? & ? & _)]; done.
    + split; [|done]. subst ps. eauto.
  - pose proof (replace_spec s id ps Hc) as HA.
    destruct (store_replace s id ps) as [[[s1 ids] sent]|].
    + split; [done|]. destruct HA as (_ & q & Hq & Hk & _).
      intros [(c' & ?)|(id' & ps' & [= <- <-] & [H|(q' & p & Hq' & Hp & Hkp)])]; [done| |].
      * by apply H in Hq.
      * assert (q' = q) as -> by congruence. by apply Hk in Hkp.
    + split; [|done]. intros _. right. eauto 10.
  - split; [done|]. intros [[? ?]|(? & ? & ? & _)]; done.
Qed.

(** ** C13 *)

Lemma received_app es es' c : received (es ++ es') c = received es c ++ received es' c.
Proof. unfold received. by rewrite map_app, concat_app, omap_app. Qed.

Lemma clients_app es es' : clients (es ++ es') = clients es ++ clients es'.
Proof. apply omap_app. Qed.

Lemma replaced_by_snoc es e id id' :
  replaced_by (es ++ [e]) id id' <->
  replaced_by es id id' \/ (replaced_id (se_op e) = Some id /\ id' ∈ se_ids e).
Proof.
  unfold replaced_by. setoid_rewrite elem_of_app. setoid_rewrite elem_of_list_singleton. split.
  - intros (x & ps & [Hx| ->] & H & Hin); [left; eauto|right]. by rewrite H.
  - intros [(x & ps & ? & ? & ?)|[H Hin]]; [eauto 10|].
    destruct (se_op e) eqn:E; try done. cbn in H. injection H as ->. eauto 10.
Qed.

Lemma replaced_by_closed es id id' : replaced_by es id id' -> closed es id.
Proof. intros (e & ps & ? & ? & _). by exists e, ps. Qed.

Lemma rtc_snoc_mono es e id id' :
  rtc (replaced_by es) id id' -> rtc (replaced_by (es ++ [e])) id id'.
Proof.
  induction 1 as [|x y z Hxy _ IH]; [apply rtc_refl|].
  eapply rtc_l; [apply replaced_by_snoc; left; exact Hxy|done].
Qed.

(** The ids that stem from given ones after one more operation. *)
Lemma stems_snoc s es s' e ids id :
  history s es -> store_step s (se_op e) = Some (s', e) ->
  (forall i, i ∈ ids -> i < length (st_problems s)) ->
  stems_from (es ++ [e]) ids id <->
  stems_from es ids id \/
  (exists r, replaced_id (se_op e) = Some r /\ stems_from es ids r /\ id ∈ se_ids e).
Proof.
  intros Hh Hstep Hids. split.
  - intros (i & Hi & Hr).
    assert (Hst : stems_from es ids i) by (exists i; split; [done|apply rtc_refl]).
    clear Hi. induction Hr as [x|x y z Hxy Hyz IH]; [by left|].
    apply replaced_by_snoc in Hxy as [Hxy|[Hrep Hy]].
    + apply IH. destruct Hst as (s0 & Hs0 & Hr0). exists s0. split; [done|].
      eapply rtc_r; eauto.
    + right. exists x. split; [done|]. split; [done|].
      (* y is open after the step, so nothing replaced it *)
      assert (Hno : forall w, ~ replaced_by (es ++ [e]) y w).
      { intros w Hw%replaced_by_closed. destruct (new_ids_open _ _ _ _ _ Hh Hstep Hy) as [q Hq].
        assert (Hh' : history s' (es ++ [e])).
        { destruct Hh as [ops Hops]. exists (ops ++ [se_op e]).
          rewrite store_run_snoc, Hops, Hstep. done. }
        apply (closed_iff _ _ _ Hh') in Hw. congruence. }
      destruct Hyz as [|? w ? Hw _]; [done|]. by apply Hno in Hw.
  - intros [(i & Hi & Hr)|(r & Hr & (i & Hi & Hst) & Hid)].
    + exists i. split; [done|]. by apply rtc_snoc_mono.
    + exists i. split; [done|]. eapply rtc_r; [by apply rtc_snoc_mono|].
      apply replaced_by_snoc. by right.
Qed.

Lemma all_closed_snoc s es s' e ids :
  history s es -> store_step s (se_op e) = Some (s', e) ->
  (forall i, i ∈ ids -> i < length (st_problems s)) ->
  all_closed es ids -> all_closed (es ++ [e]) ids.
Proof.
  intros Hh Hstep Hids Hall id Hst. apply closed_snoc.
  apply (stems_snoc _ _ _ _ _ _ Hh Hstep Hids) in Hst as [Hst|(r & Hr & Hst & _)].
  - left. by apply Hall.
  - exfalso. apply (replaced_was_open _ _ _ _ _ Hh Hstep Hr). by apply Hall.
Qed.

(** The ids of a submission are known in every later state. *)
Lemma ids_known s es1 e es2 :
  history s (es1 ++ e :: es2) -> forall i, i ∈ se_ids e -> i < length (st_problems s).
Proof.
  intros Hh i Hi. destruct (ids_stable _ _ Hh) as (H & _).
  apply elem_of_list_lookup in Hi as [k Hk].
  assert (exists p, submitted (se_op e) !! k = Some p) as [p Hp].
  { apply lookup_lt_is_Some_2. apply lookup_lt_Some in Hk.
    rewrite cons_middle, app_assoc in Hh. apply history_prefix in Hh as [s1 Hh].
    apply history_snoc_inv in Hh as (s0 & Hh & Hstep).
    by rewrite <- (ids_length _ _ _ _ Hh Hstep). }
  apply (H p). exists e, k. split; [|done]. apply elem_of_app. right. left.
Qed.

Lemma all_closed_extend s es1 e es2 es3 :
  history s (es1 ++ e :: es2 ++ es3) ->
  all_closed (es1 ++ e :: es2) (se_ids e) -> all_closed (es1 ++ e :: es2 ++ es3) (se_ids e).
Proof.
  revert s. induction es3 as [|x es3 IH] using rev_ind; intros s Hh Hall.
  - by rewrite app_nil_r.
  - assert (Heq : es1 ++ e :: es2 ++ es3 ++ [x] = (es1 ++ e :: es2 ++ es3) ++ [x]).
    { rewrite <- app_assoc. cbn. by rewrite <- app_assoc. }
    rewrite Heq in Hh |- *. apply history_snoc_inv in Hh as (s0 & Hh & Hstep).
    eapply all_closed_snoc; [done..| |by eapply IH].
    by eapply ids_known.
Qed.

(** The state of the waiting clients. *)
Definition waiting (s : store) (es : list store_event) (ids : list nat) (c : nat) : Prop :=
  exists n, n ∈ st_entries s /\ ne_client n = c /\ ne_sender n = true /\
    ne_ids n <> ∅ /\
    forall id, id ∈ ne_ids n <-> stems_from es ids id /\ ~ closed es id.

Definition not_waiting (s : store) (c : nat) : Prop :=
  forall n, n ∈ st_entries s -> ne_client n = c -> ne_sender n = false.

Definition client_inv (s : store) (es : list store_event) : Prop :=
  forall es1 e es2 c ps, es = es1 ++ e :: es2 -> se_op e = SAdd c ps ->
    (waiting s es (se_ids e) c /\ received es c = [] /\ no_abort es2) \/
    (not_waiting s c /\ received es c = [Continue] /\
     exists a b, es2 = a ++ b /\ no_abort a /\ all_closed (es1 ++ e :: a) (se_ids e)) \/
    (not_waiting s c /\ received es c = [GiveUp] /\
     exists a x b, es2 = a ++ x :: b /\ no_abort a /\ se_op x = SAbort /\
       ~ all_closed (es1 ++ e :: a) (se_ids e)).

Definition entries_inv (s : store) (es : list store_event) : Prop :=
  NoDup (map ne_client (st_entries s)) /\
  forall n, n ∈ st_entries s -> ne_client n ∈ clients es.

Lemma replace_in_entry_client id ids n : ne_client (replace_in_entry id ids n).1 = ne_client n.
Proof. unfold replace_in_entry. case_bool_decide; [|done]. by destruct (_ && _). Qed.

Lemma entries_inv_holds s es : history s es -> NoDup (clients es) -> entries_inv s es.
Proof.
  revert s es. apply (history_ind (fun s es => NoDup (clients es) -> entries_inv s es)).
  - intros _. split; [constructor|by intros ? ?%elem_of_nil].
  - intros s es s' e Hh IH Hstep Hnd. rewrite clients_app in Hnd.
    apply NoDup_app in Hnd as (Hnd & Hdis & _). destruct (IH Hnd) as [I1 I2].
    pose proof (history_consistent _ _ Hh) as Hc.
    unfold entries_inv. rewrite clients_app.
    destruct (se_op e) as [c ps|id ps|] eqn:Eop; cbn in Hstep.
    + pose proof (add_spec s c ps Hc) as HA. destruct (store_add s c ps) as [[s1 ids]|]; [|done].
      injection Hstep as <- He. destruct HA as (_ & _ & _ & s2 & _ & _ & _ & _ & Hent).
      rewrite Hent, map_app. cbn. rewrite Eop. cbn. split.
      * apply NoDup_app. split; [done|]. split; [|apply NoDup_singleton].
        intros x Hx Hxc. apply elem_of_list_singleton in Hxc as ->.
        apply elem_of_list_fmap in Hx as (n & -> & Hn). apply I2 in Hn.
        apply (Hdis _ Hn). unfold clients. cbn. rewrite Eop. left.
      * intros n [Hn|Hn]%elem_of_app; apply elem_of_app; [left; by apply I2|].
        apply elem_of_list_singleton in Hn as ->. right. left.
    + pose proof (replace_spec s id ps Hc) as HA.
      destruct (store_replace s id ps) as [[[s1 ids] sent]|]; [|done].
      injection Hstep as <- He. destruct HA as (_ & q & _ & _ & _ & s2 & _ & _ & _ & Hent & _).
      rewrite Hent. split.
      * rewrite map_map.
        rewrite (map_ext _ ne_client); [done|]. intros n. apply replace_in_entry_client.
      * intros n Hn. apply elem_of_list_fmap in Hn as (m & -> & Hm).
        rewrite replace_in_entry_client. apply elem_of_app. left. by apply I2.
    + injection Hstep as <- He. cbn. split; [constructor|by intros ? ?%elem_of_nil].
Qed.

Lemma NoDup_client_eq (l : list notification) n m :
  NoDup (map ne_client l) -> n ∈ l -> m ∈ l -> ne_client n = ne_client m -> n = m.
Proof.
  induction l as [|a l IH]; [by intros _ ?%elem_of_nil|].
  cbn. intros [Ha Hnd]%NoDup_cons Hn Hm Heq.
  apply elem_of_cons in Hn as [->|Hn]; apply elem_of_cons in Hm as [->|Hm]; try done.
  - exfalso. apply Ha. rewrite Heq. by apply elem_of_list_fmap_1.
  - exfalso. apply Ha. rewrite <- Heq. by apply elem_of_list_fmap_1.
  - by apply IH.
Qed.

(** What a client receives when the messages come from mapping over the entries. *)
Lemma sent_to_client (l : list notification) (f : notification -> list message) c :
  NoDup (map ne_client l) ->
  (forall n m, m ∈ f n -> m.1 = ne_client n) ->
  let got := omap (fun m : message => if bool_decide (m.1 = c) then Some m.2 else None)
               (concat (map f l)) in
  (forall n, n ∈ l -> ne_client n = c -> got = map snd (f n)) /\
  ((forall n, n ∈ l -> ne_client n <> c) -> got = []).
Proof.
  intros Hnd Hf. cbn zeta.
  assert (Hone : forall n, omap (fun m : message => if bool_decide (m.1 = c) then Some m.2 else None) (f n)
      = if decide (ne_client n = c) then map snd (f n) else []).
  { intros n. specialize (Hf n). induction (f n) as [|m ms IH]; cbn; [by case_decide|].
    assert (Hm : m.1 = ne_client n) by (apply Hf; left).
    rewrite IH by (intros m' Hm'; apply Hf; by right).
    case_decide as E; [rewrite bool_decide_eq_true_2 by congruence; done|].
    rewrite bool_decide_eq_false_2 by congruence. done. }
  induction l as [|a l IH]; cbn.
  - split; [by intros ? ?%elem_of_nil|done].
  - cbn in Hnd. apply NoDup_cons in Hnd as [Ha Hnd]. destruct (IH Hnd) as [IH1 IH2].
    rewrite omap_app, Hone. split.
    + intros n [->|Hn]%elem_of_cons Hc.
      * rewrite decide_True by done. rewrite IH2; [by rewrite app_nil_r|].
        intros m Hm Hmc. apply Ha. rewrite Hc, <- Hmc. by apply elem_of_list_fmap_1.
      * rewrite decide_False; [by apply IH1|]. intros E. apply Ha.
        rewrite E, <- Hc. by apply elem_of_list_fmap_1.
    + intros Hno. rewrite decide_False by (apply Hno; left). apply IH2.
      intros n Hn. apply Hno. by right.
Qed.

Lemma snoc_split {A} (es : list A) x es1 e es2 :
  es ++ [x] = es1 ++ e :: es2 ->
  (es2 = [] /\ es = es1 /\ x = e) \/ (exists es2', es2 = es2' ++ [x] /\ es = es1 ++ e :: es2').
Proof.
  destruct es2 as [|y es2' _] using rev_ind; intros H.
  - apply app_inj_tail in H as [-> ->]. by left.
  - right. exists es2'. rewrite app_comm_cons, app_assoc in H.
    apply app_inj_tail in H as [-> ->]. done.
Qed.

Lemma no_abort_snoc es e : no_abort es -> se_op e <> SAbort -> no_abort (es ++ [e]).
Proof. intros H He x [Hx|Hx]%elem_of_app; [auto|]. by apply elem_of_list_singleton in Hx as ->. Qed.

Lemma received_single e c :
  received [e] c = omap (fun m : message => if bool_decide (m.1 = c) then Some m.2 else None) (se_sent e).
Proof. unfold received. cbn. by rewrite app_nil_r. Qed.

Lemma received_none s es c :
  history s es -> NoDup (clients es) -> c ∉ clients es -> received es c = [].
Proof.
  revert s es. apply (history_ind (fun s es => NoDup (clients es) -> c ∉ clients es -> received es c = [])).
  - done.
  - intros s es s' e Hh IH Hstep Hnd Hni. rewrite clients_app in Hnd, Hni.
    apply NoDup_app in Hnd as (Hnd & _). rewrite not_elem_of_app in Hni.
    destruct Hni as [Hni _].
    rewrite received_app, (IH Hnd Hni). rewrite received_single. cbn [app].
    destruct (entries_inv_holds _ _ Hh Hnd) as [I1 I2].
    assert (Hno : forall n, n ∈ st_entries s -> ne_client n <> c).
    { intros n Hn <-. by apply Hni, I2. }
    pose proof (history_consistent _ _ Hh) as Hc.
    destruct (se_op e) as [c' ps|id ps|] eqn:Eop; cbn in Hstep.
    + destruct (store_add s c' ps) as [[s1 ids]|]; [|done]. by injection Hstep as <- <-.
    + pose proof (replace_spec s id ps Hc) as HA.
      destruct (store_replace s id ps) as [[[s1 ids] sent]|]; [|done].
      injection Hstep as <- <-. destruct HA as (_ & q & _ & _ & _ & s2 & _ & _ & _ & _ & ->).
      cbn. apply (sent_to_client _ _ c I1); [|done].
      intros n m. unfold replace_in_entry. case_bool_decide; [|by intros ?%elem_of_nil].
      destruct (_ && _); [|by intros ?%elem_of_nil]. by intros ->%elem_of_list_singleton.
    + injection Hstep as <- <-. cbn. apply (sent_to_client _ _ c I1); [|done].
      intros n m. destruct (ne_sender n); [|by intros ?%elem_of_nil].
      by intros ->%elem_of_list_singleton.
Qed.

Lemma not_waiting_step s es s' x c :
  history s es -> NoDup (clients es) -> store_step s (se_op x) = Some (s', x) ->
  not_waiting s c -> c ∉ clients [x] -> not_waiting s' c /\ received [x] c = [].
Proof.
  intros Hh Hnd Hstep HN Hni. pose proof (entries_inv_holds _ _ Hh Hnd) as [I1 I2].
  pose proof (history_consistent _ _ Hh) as Hc. rewrite received_single.
  destruct (se_op x) as [c' ps'|id ps'|] eqn:Eop; cbn in Hstep.
  - pose proof (add_spec s c' ps' Hc) as HA.
    destruct (store_add s c' ps') as [[s1 ids]|]; [|done].
    injection Hstep as <- Hx. destruct HA as (_ & _ & _ & s2 & _ & _ & _ & _ & Hent).
    rewrite <- Hx. split; [|done]. intros n. rewrite Hent. intros [Hn|Hn]%elem_of_app Hnc; [by apply HN|].
    apply elem_of_list_singleton in Hn as ->. cbn in Hnc. subst c'. exfalso. apply Hni.
    cbn. rewrite Eop. left.
  - pose proof (replace_spec s id ps' Hc) as HA.
    destruct (store_replace s id ps') as [[[s1 ids] sent]|]; [|done].
    injection Hstep as <- Hx. destruct HA as (_ & q & _ & _ & _ & s2 & _ & _ & _ & Hent & Hsent).
    rewrite <- Hx. cbn. rewrite Hsent. split.
    + intros n Hn Hnc. rewrite Hent in Hn. apply elem_of_list_fmap in Hn as (m & -> & Hm).
      rewrite replace_in_entry_client in Hnc. specialize (HN m Hm Hnc).
      unfold replace_in_entry. case_bool_decide; [|done]. rewrite HN, andb_false_r. done.
    + destruct (sent_to_client (st_entries s) (fun e => (replace_in_entry id ids e).2) c I1) as [S1 S2].
      { intros n' m'. unfold replace_in_entry. case_bool_decide; [|by intros ?%elem_of_nil].
        destruct (_ && _); [|by intros ?%elem_of_nil]. by intros ->%elem_of_list_singleton. }
      destruct (decide (c ∈ map ne_client (st_entries s))) as [Hin|Hout].
      * apply elem_of_list_fmap in Hin as (n & Hnc & Hn). rewrite (S1 n Hn (eq_sym Hnc)).
        specialize (HN n Hn (eq_sym Hnc)).
        unfold replace_in_entry. case_bool_decide; [|done]. by rewrite HN, andb_false_r.
      * apply S2. intros n Hn <-. apply Hout. by apply elem_of_list_fmap_1.
  - injection Hstep as <- Hx. rewrite <- Hx. cbn. split; [by intros ? ?%elem_of_nil|].
    destruct (sent_to_client (st_entries s)
      (fun e => if ne_sender e then [(ne_client e, GiveUp)] else []) c I1) as [S1 S2].
    { intros n' m'. destruct (ne_sender n'); [|by intros ?%elem_of_nil].
      by intros ->%elem_of_list_singleton. }
    destruct (decide (c ∈ map ne_client (st_entries s))) as [Hin|Hout].
    + apply elem_of_list_fmap in Hin as (n & Hnc & Hn). rewrite (S1 n Hn (eq_sym Hnc)).
      by rewrite (HN n Hn (eq_sym Hnc)).
    + apply S2. intros n Hn <-. apply Hout. by apply elem_of_list_fmap_1.
Qed.

Lemma client_inv_holds s es : history s es -> NoDup (clients es) -> client_inv s es.
Proof.
  revert s es. apply (history_ind (fun s es => NoDup (clients es) -> client_inv s es)).
  { intros _ es1 e es2 c ps H. by destruct es1. }
  intros s es s' x Hh IH Hstep Hnd.
  assert (Hh' : history s' (es ++ [x])).
  { destruct Hh as [ops Hops]. exists (ops ++ [se_op x]). rewrite store_run_snoc, Hops, Hstep. done. }
  rewrite clients_app in Hnd. apply NoDup_app in Hnd as (Hnd & Hdis & Hndx).
  specialize (IH Hnd). pose proof (entries_inv_holds _ _ Hh Hnd) as [I1 I2].
  pose proof (history_consistent _ _ Hh) as Hc.
  intros es1 e es2 c ps Hes Hop.
  apply snoc_split in Hes as [(-> & -> & ->)|(es2' & -> & ->)].
  - (* the submission itself *)
    left. rewrite Hop in Hstep. cbn in Hstep.
    pose proof (add_spec s c ps Hc) as HA. destruct (store_add s c ps) as [[s1 ids]|]; [|done].
    injection Hstep as <- He. destruct HA as (Hne & _ & HF & s2 & _ & _ & _ & _ & Hent).
    assert (Hni : c ∉ clients es1).
    { intros Hin. apply (Hdis _ Hin). unfold clients. cbn. rewrite Hop. left. }
    rewrite <- He. split; [|split; [|by intros ? ?%elem_of_nil]].
    + exists (Notification (list_to_set ids) c true). split.
      { rewrite Hent. apply elem_of_app. right. left. }
      split; [done|]. split; [done|]. split.
      * cbn. intros Hemp. destruct ids as [|i ids]; [|set_solver].
        apply Forall2_length in HF. by destruct ps.
      * cbn. intros id. rewrite elem_of_list_to_set.
        assert (Hopen : forall i, i ∈ ids -> ~ closed (es1 ++ [e]) i).
        { intros i Hi Hcl. rewrite <- He in Hcl. apply elem_of_list_lookup in Hi as [k Hk].
          destruct (Forall2_lookup_r _ _ _ _ _ HF Hk) as (p & _ & (q & Hq & _)).
          rewrite He in Hcl. apply (closed_iff _ _ _ Hh') in Hcl. cbn in Hcl. congruence. }
        rewrite <- He in Hopen. split.
        -- intros Hid. split; [|by apply Hopen]. exists id. split; [done|apply rtc_refl].
        -- intros [(i & Hi & Hr) Hcl]. destruct Hr as [|i w z Hw _]; [done|].
           apply replaced_by_closed in Hw. by apply Hopen in Hw.
    + rewrite received_app, received_single. cbn. rewrite app_nil_r.
      by apply (received_none s).
  - (* an earlier submission *)
    assert (Hids : forall i, i ∈ se_ids e -> i < length (st_problems s)).
    { by eapply ids_known. }
    destruct (IH es1 e es2' c ps eq_refl Hop) as [(HW & HR & HNA)|[(HN & HR & a & b & -> & HNA & HAC)|(HN & HR & a & y & b & -> & HNA & HY & HAC)]].
    + (* still waiting *)
      destruct HW as (n & Hn & Hnc & Hns & Hne & Hnids).
      pose proof Hstep as Hstep0.
      destruct (se_op x) as [c' ps'|id ps'|] eqn:Eop; cbn in Hstep; rewrite <- Eop in Hstep0.
      * (* a submission by another client *)
        left. pose proof (add_spec s c' ps' Hc) as HA.
        destruct (store_add s c' ps') as [[s1 ids]|]; [|done].
        injection Hstep as <- Hx. destruct HA as (_ & _ & _ & s2 & _ & _ & _ & _ & Hent).
        split; [|split].
        -- exists n. split; [rewrite Hent; apply elem_of_app; by left|].
           split; [done|]. split; [done|]. split; [done|].
           intros id. rewrite Hnids, closed_snoc.
           rewrite (stems_snoc s _ s1 x _ _ Hh Hstep0 Hids).
           rewrite Eop. cbn. split.
           ++ intros [? ?]. split; [by left|]. by intros [?|?].
           ++ intros [[?|(? & ? & _)] ?]; [|done]. tauto.
        -- rewrite received_app, HR, received_single, <- Hx. done.
        -- apply no_abort_snoc; [done|]. by rewrite Eop.
      * (* a replacement *)
        pose proof (replace_spec s id ps' Hc) as HA.
        destruct (store_replace s id ps') as [[[s1 ids] sent]|] eqn:Erep; [|done].
        injection Hstep as <- Hx. destruct HA as (_ & q & Hq & _ & _ & s2 & _ & _ & _ & Hent & Hsent).
        assert (Hstep : store_step s (se_op x) = Some (s1, x)).
        { rewrite Eop. cbn. by rewrite Erep, Hx. }
        assert (Hxi : se_ids x = ids) by by rewrite <- Hx.
        set (m := (replace_in_entry id ids n).1).
        assert (Hm : m ∈ st_entries s1).
        { rewrite Hent. by apply (elem_of_list_fmap_1 (fun e => (replace_in_entry id ids e).1)). }
        assert (Hmc : ne_client m = c) by (unfold m; by rewrite replace_in_entry_client).
        assert (Hrec : received ((es1 ++ e :: es2') ++ [x]) c = map snd (replace_in_entry id ids n).2).
        { rewrite received_app, HR, received_single, <- Hx. cbn. rewrite Hsent.
          refine (proj1 (sent_to_client (st_entries s) (fun e => (replace_in_entry id ids e).2) c I1 _) n Hn Hnc).
          intros n' m'. unfold replace_in_entry. case_bool_decide; [|by intros ?%elem_of_nil].
          destruct (_ && _); [|by intros ?%elem_of_nil]. by intros ->%elem_of_list_singleton. }
        assert (Hmids : forall i, i ∈ ne_ids m <->
          stems_from ((es1 ++ e :: es2') ++ [x]) (se_ids e) i /\
          ~ closed ((es1 ++ e :: es2') ++ [x]) i).
        { intros i. rewrite closed_snoc, (stems_snoc s _ s1 x _ _ Hh Hstep Hids), Eop, Hxi. cbn.
          assert (Hnew : i ∈ ids -> ~ closed (es1 ++ e :: es2') i /\ id <> i).
          { intros Hi. rewrite <- Hxi in Hi.
            destruct (new_ids_open _ _ _ _ _ Hh Hstep Hi) as [q' Hq'].
            assert (Hnc' : ~ closed ((es1 ++ e :: es2') ++ [x]) i).
            { rewrite (closed_iff _ _ _ Hh'). congruence. }
            rewrite closed_snoc, Eop in Hnc'. cbn in Hnc'. split; [tauto|].
            intros ->. tauto. }
          unfold m, replace_in_entry. case_bool_decide as Hid.
          - assert (Hgoal : i ∈ (ne_ids n ∖ {[id]}) ∪ list_to_set ids <->
              (stems_from (es1 ++ e :: es2') (se_ids e) i \/
               exists r, Some id = Some r /\ stems_from (es1 ++ e :: es2') (se_ids e) r /\ i ∈ ids) /\
              ~ (closed (es1 ++ e :: es2') i \/ Some id = Some i)).
            { rewrite elem_of_union, elem_of_difference, elem_of_singleton, elem_of_list_to_set, Hnids.
              apply Hnids in Hid as [Hst _]. split.
              - intros [[[H1 H2] H3]|H]; [split; [by left|]; intros [?|[= ->]]; done|].
                destruct (Hnew H). split; [right; eauto|]. intros [?|[= ->]]; done.
              - intros [[H|(r & [= <-] & _ & H)] H2]; [left|by right].
                split; [split; [done|tauto]|]. intros ->. tauto. }
            destruct (_ && _); exact Hgoal.
          - cbn. rewrite Hnids. split.
            + intros [H1 H2]. split; [by left|]. intros [?|[= ->]]; [done|].
              apply Hid. by apply Hnids.
            + intros [[H|(r & [= <-] & H & _)] H2]; [tauto|].
              exfalso. apply Hid, Hnids. split; [done|].
              apply (replaced_was_open _ _ _ _ _ Hh Hstep). by rewrite Eop. }
        destruct (decide (ne_ids m = ∅)) as [Hemp|Hnemp].
        -- (* released *)
           right. left.
           assert (Hshape : replace_in_entry id ids n = (Notification (ne_ids m) c false, [(c, Continue)])).
           { revert Hemp. unfold m, replace_in_entry. case_bool_decide as Hid.
             - rewrite Hns, andb_true_r. case_bool_decide as Hz; cbn; intros E.
               + by rewrite Hnc.
               + by destruct Hz.
             - cbn. intros E. by destruct Hne. }
           split; [|split].
           ++ intros n' Hn' Hc'. assert (n' = m) as ->.
              { apply (NoDup_client_eq (st_entries s1)); [|done..|congruence].
                rewrite Hent, map_map. rewrite (map_ext _ ne_client); [done|].
                intros ?. apply replace_in_entry_client. }
              unfold m. by rewrite Hshape.
           ++ rewrite Hrec, Hshape. done.
           ++ exists (es2' ++ [x]), []. rewrite app_nil_r. split; [done|]. split.
              ** apply no_abort_snoc; [done|]. by rewrite Eop.
              ** intros i Hi. rewrite app_comm_cons, app_assoc in Hi |- *.
                 destruct (decide (i ∈ ne_ids m)) as [Him|Him]; [rewrite Hemp in Him; set_solver|].
                 destruct (decide (st_problems s1 !! i = Some None)) as [Hcl|Hcl].
                 { by apply (closed_iff _ _ _ Hh'). }
                 exfalso. apply Him, Hmids. split; [done|]. by rewrite (closed_iff _ _ _ Hh').
        -- left. split; [|split].
           ++ exists m. split; [done|]. split; [done|]. split; [|split; [done|done]].
              revert Hnemp. unfold m, replace_in_entry. case_bool_decide; [|done].
              case_bool_decide as Hz; cbn; [|done]. rewrite Hns. cbn. done.
           ++ rewrite Hrec. revert Hnemp. unfold m, replace_in_entry. case_bool_decide; [|done].
              case_bool_decide as Hz; cbn; [|done]. rewrite Hns. cbn. done.
           ++ apply no_abort_snoc; [done|]. by rewrite Eop.
      * (* abort *)
        right. right. injection Hstep as <- Hx. split; [by intros ? ?%elem_of_nil|]. split.
        -- rewrite received_app, HR, received_single, <- Hx. cbn.
           destruct (sent_to_client (st_entries s)
             (fun e => if ne_sender e then [(ne_client e, GiveUp)] else []) c I1) as [S1 _].
           { intros n' m'. destruct (ne_sender n'); [|by intros ?%elem_of_nil].
             by intros ->%elem_of_list_singleton. }
           rewrite (S1 n Hn Hnc), Hns. done.
        -- exists es2', x, []. split; [done|]. split; [done|]. split; [done|].
           intros Hall. apply set_choose_L in Hne as [i Hi]. apply Hnids in Hi as [Hst Hcl].
           by apply Hcl, Hall.
    + right. left. destruct (not_waiting_step _ _ _ _ c Hh Hnd Hstep HN) as [HN' HR'].
      { intros Hin. apply (Hdis c); [|done]. apply elem_of_list_omap. exists e.
        rewrite Hop. split; [|done]. apply elem_of_app. right. left. }
      split; [done|]. split; [by rewrite received_app, HR, HR'|].
      exists a, (b ++ [x]). by rewrite <- app_assoc.
    + right. right. destruct (not_waiting_step _ _ _ _ c Hh Hnd Hstep HN) as [HN' HR'].
      { intros Hin. apply (Hdis c); [|done]. apply elem_of_list_omap. exists e.
        rewrite Hop. split; [|done]. apply elem_of_app. right. left. }
      split; [done|]. split; [by rewrite received_app, HR, HR'|].
      exists a, y, (b ++ [x]). rewrite <- app_assoc. done.
Qed.

Lemma no_abort_prefix (a b a' b' : list store_event) x :
  a ++ b = a' ++ x :: b' -> no_abort a -> se_op x = SAbort -> exists m, a' = a ++ m.
Proof.
  revert a'. induction a as [|y a IH]; intros a' Heq Hna Hx; [by exists a'|].
  destruct a' as [|z a']; cbn in Heq.
  - injection Heq as -> _. exfalso. apply (Hna x); [left|done].
  - injection Heq as -> Heq. destruct (IH a' Heq) as [m ->]; [|done|by exists m].
    intros w Hw. apply Hna. by right.
Qed.

(** What a client is told, and when. *)
Lemma outcomes s es es1 e es2 c ps :
  history s es -> NoDup (clients es) -> es = es1 ++ e :: es2 -> se_op e = SAdd c ps ->
  (received es c = [] \/ received es c = [Continue] \/ received es c = [GiveUp]) /\
  (received es c = [Continue] <->
     exists a b, es2 = a ++ b /\ no_abort a /\ all_closed (es1 ++ e :: a) (se_ids e)) /\
  (received es c = [GiveUp] <->
     exists a x b, es2 = a ++ x :: b /\ no_abort a /\ se_op x = SAbort /\
       ~ all_closed (es1 ++ e :: a) (se_ids e)).
Proof.
  intros Hh Hnd Hes Hop.
  assert (Hexcl : forall a b a' x b', es2 = a ++ b -> no_abort a ->
    all_closed (es1 ++ e :: a) (se_ids e) -> es2 = a' ++ x :: b' -> se_op x = SAbort ->
    ~ all_closed (es1 ++ e :: a') (se_ids e) -> False).
  { intros a b a' x b' Ha Hna Hac Ha' Hx Hnac.
    destruct (no_abort_prefix a b a' b' x) as [m ->]; [congruence|done|done|].
    apply Hnac. rewrite Hes, Ha' in Hh. rewrite app_comm_cons, app_assoc in Hh.
    apply history_prefix in Hh as [s1 Hh]. by eapply all_closed_extend. }
  destruct (client_inv_holds _ _ Hh Hnd es1 e es2 c ps Hes Hop)
    as [(HW & HR & HNA)|[(_ & HR & HB)|(_ & HR & HC)]]; rewrite HR.
  - split; [by left|]. split; (split; [done|]).
    + intros (a & b & -> & Hna & Hac). exfalso. destruct HW as (n & _ & _ & _ & Hne & Hids).
      apply set_choose_L in Hne as [i Hi]. apply Hids in Hi as [Hst Hcl].
      rewrite Hes in Hh. apply (all_closed_extend _ _ _ _ _ Hh) in Hac.
      apply Hcl. rewrite Hes. apply Hac. by rewrite <- Hes.
    + intros (a & x & b & -> & _ & Hx & _). exfalso. apply (HNA x); [|done].
      apply elem_of_app. right. left.
  - split; [by right; left|]. split; [done|]. split; [done|].
    intros (a' & x & b' & Ha' & _ & Hx & Hnac). destruct HB as (a & b & Ha & Hna & Hac).
    exfalso. exact (Hexcl a b a' x b' Ha Hna Hac Ha' Hx Hnac).
  - split; [by right; right|]. split; [|done]. split; [done|].
    intros (a & b & Ha & Hna & Hac). destruct HC as (a' & x & b' & Ha' & _ & Hx & Hnac).
    exfalso. exact (Hexcl a b a' x b' Ha Hna Hac Ha' Hx Hnac).
Qed.

(** The counters agree with the iteration. *)
Lemma open_from_length n l :
  length (open_from n l) = length (filter (fun p : option problem => is_Some p) l).
Proof.
  revert n. induction l as [|[q|] l IH]; intros n; [done|..]; rewrite filter_cons; cbn [open_from].
  - rewrite decide_True by eauto. cbn. by rewrite IH.
  - rewrite decide_False by by intros [? ?]. apply IH.
Qed.

Lemma store_len_spec s : store_len s = length (store_open s).
Proof. symmetry. apply open_from_length. Qed.

Lemma store_is_empty_spec s : store_is_empty s = true <-> store_open s = [].
Proof.
  unfold store_is_empty, store_open. generalize 0. induction (st_problems s) as [|[q|] l IH]; intros n; cbn.
  - done.
  - split; done.
  - apply IH.
Qed.

(** ** The same problem, and exact usages *)

Lemma same_problem_iff p q : dedup_key p = dedup_key q <-> same_problem p q.
Proof.
  split.
  - intros H. destruct p, q; try discriminate H; try (cbn in H; try rewrite H; apply same_refl).
    + destruct u, u0. cbn in H. unfold with_usages in H. cbn in H. injection H as -> -> ->.
      by constructor.
    + cbn in H. injection H as -> ->. constructor.
  - intros []; [done|..|done]. destruct u, v. cbn in *. unfold with_usages. cbn. by subst.
Qed.

Lemma merge_usages a b m u :
  merge_problem a b = Some m -> u ∈ usages_in m -> u ∈ usages_in a \/ u ∈ usages_in b.
Proof.
  destruct a, b; try (intros [= <-]; tauto). cbn.
  case_bool_decide; [|done]. intros [= <-]. cbn. by intros ?%elem_of_app.
Qed.

Lemma add_problem_usages s p s' id j q' u :
  add_problem s p = Some (s', id) -> st_problems s' !! j = Some (Some q') -> u ∈ usages_in q' ->
  (exists q, st_problems s !! j = Some (Some q) /\ u ∈ usages_in q) \/ (id = j /\ u ∈ usages_in p).
Proof.
  unfold add_problem. destruct (key_get (dedup_key p) (st_ids s)) as [i|].
  - destruct (st_problems s !! i) as [[ex|]|] eqn:Ei; [|done..].
    case_bool_decide.
    + intros [= <- <-]. eauto.
    + destruct (merge_problem ex p) as [m|] eqn:Em; [|done]. intros [= <- <-]. cbn.
      destruct (decide (i = j)) as [->|Hne].
      * rewrite list_lookup_insert by by apply lookup_lt_Some in Ei. intros [= <-] Hu.
        destruct (merge_usages _ _ _ _ Em Hu); eauto.
      * rewrite list_lookup_insert_ne by done. eauto.
  - intros [= <- <-]. cbn. intros Hj Hu. apply lookup_app_Some in Hj as [Hj|[Hge Hj]]; [eauto|].
    destruct (j - length (st_problems s)) eqn:E; [|done]. injection Hj as <-.
    right. split; [lia|done].
Qed.

Lemma add_problems_usages ps : forall s s' ids j q' u,
  add_problems s ps = Some (s', ids) -> st_problems s' !! j = Some (Some q') -> u ∈ usages_in q' ->
  (exists q, st_problems s !! j = Some (Some q) /\ u ∈ usages_in q) \/
  exists k p, ps !! k = Some p /\ ids !! k = Some j /\ u ∈ usages_in p.
Proof.
  induction ps as [|p ps IH]; intros s s' ids j q' u; cbn.
  - intros [= <- <-]. eauto.
  - destruct (add_problem s p) as [[s1 id]|] eqn:E1; [|done].
    destruct (add_problems s1 ps) as [[s2 ids']|] eqn:E2; [|done].
    intros [= <- <-] Hj Hu. destruct (IH _ _ _ _ _ _ E2 Hj Hu) as [(q & Hq & Hu')|(k & p' & ? & ? & ?)].
    + destruct (add_problem_usages _ _ _ _ _ _ _ E1 Hq Hu') as [?|[-> ?]]; [by left|].
      right. by exists 0, p.
    + right. by exists (S k), p'.
Qed.

Lemma step_usages s op s' e j q' u :
  store_step s op = Some (s', e) -> st_problems s' !! j = Some (Some q') -> u ∈ usages_in q' ->
  (exists q, st_problems s !! j = Some (Some q) /\ u ∈ usages_in q) \/
  exists k p, submitted (se_op e) !! k = Some p /\ se_ids e !! k = Some j /\ u ∈ usages_in p.
Proof.
  destruct op as [c ps|id ps|]; cbn.
  - destruct (store_add s c ps) as [[s1 ids]|] eqn:E; [|done]. intros [= <- <-].
    unfold store_add in E. destruct ps as [|p ps]; [done|].
    destruct (add_problems s (p :: ps)) as [[s2 ids']|] eqn:E2; [|done].
    injection E as <- <-. cbn [st_problems submitted se_op se_ids]. by apply add_problems_usages.
  - destruct (store_replace s id ps) as [[[s1 ids] sent]|] eqn:E; [|done]. intros [= <- <-].
    unfold store_replace in E. destruct (st_problems s !! id) as [[p|]|] eqn:Ep; [|done..].
    destruct (add_problems _ ps) as [[s2 ids']|] eqn:E2; [|done].
    injection E as <- <- <-. cbn [st_problems submitted se_op se_ids]. intros Hj Hu.
    destruct (add_problems_usages _ _ _ _ _ _ _ E2 Hj Hu) as [(q & Hq & Hu')|?]; [left|by right].
    cbn in Hq. destruct (decide (id = j)) as [->|Hne].
    + rewrite list_lookup_insert in Hq by by apply lookup_lt_Some in Ep. done.
    + rewrite list_lookup_insert_ne in Hq by done. eauto.
  - intros [= <- <-]. eauto.
Qed.

Lemma usages_exact s es id q u :
  history s es -> is_open s id q ->
  u ∈ usages_in q <-> exists p, got_id es p id /\ u ∈ usages_in p.
Proof.
  intros Hh Hq. split.
  - apply is_open_iff in Hq. revert q Hq u. revert s es Hh id.
    apply (history_ind (fun s es => forall id q, st_problems s !! id = Some (Some q) -> forall u,
      u ∈ usages_in q -> exists p, got_id es p id /\ u ∈ usages_in p)).
    + done.
    + intros s es s' e Hh IH Hstep id q Hq u Hu.
      setoid_rewrite got_id_snoc.
      destruct (step_usages _ _ _ _ _ _ _ Hstep Hq Hu) as [(q0 & Hq0 & Hu0)|(k & p & ? & ? & ?)].
      * destruct (IH _ _ Hq0 _ Hu0) as (p & ? & ?). eauto.
      * eauto 10.
  - intros (p & Hp & Hu). destruct (ids_stable _ _ Hh) as (_ & H & _).
    apply is_open_iff in Hq. destruct (H _ _ _ Hp Hq) as [_ Hsub]. auto.
Qed.

(** A problem submitted while the same problem is open joins it. *)
Lemma joins_open s es s' e k p id :
  history s es -> store_step s (se_op e) = Some (s', e) ->
  submitted (se_op e) !! k = Some p -> se_ids e !! k = Some id ->
  forall j q, is_open s j q -> same_problem q p -> id = j.
Proof.
  intros Hh Hstep Hp Hid j q Hj Hsame%same_problem_iff.
  assert (Hh' : history s' (es ++ [e])).
  { destruct Hh as [ops Hops]. exists (ops ++ [se_op e]). rewrite store_run_snoc, Hops, Hstep. done. }
  destruct (new_ids_open _ _ _ _ _ Hh Hstep (elem_of_list_lookup_2 _ _ _ Hid)) as [r Hr].
  destruct (ids_stable _ _ Hh') as (_ & Hst & _).
  assert (Hg : got_id (es ++ [e]) p id) by (apply got_id_snoc; eauto).
  destruct (Hst _ _ _ Hg Hr) as [Hkr _].
  apply is_open_iff in Hj. destruct (step_problems _ _ _ _ Hh Hstep) as (s0 & s1 & H0 & Hgr & Heq & _).
  assert (Hj0 : st_problems s0 !! j = Some (Some q)).
  { destruct (replaced_id (se_op e)) as [i|]; [|by rewrite H0].
    destruct H0 as [(qi & Hqi & Hne) H0]. rewrite H0. destruct (decide (i = j)) as [->|].
    - assert (qi = q) as -> by congruence. destruct (Hne p); [|done].
      by eapply elem_of_list_lookup_2.
    - by rewrite list_lookup_insert_ne. }
  destruct Hgr as (_ & _ & _ & G & _). destruct (G _ _ Hj0) as (q' & Hq' & Hk' & _).
  rewrite <- Heq in Hq'.
  eapply (distinct_keys s'); [exact Hh'|by apply is_open_iff|by apply is_open_iff|congruence].
Qed.
