From Verif Require Import Base BaseFacts ApiMapModel ConfigModel ProblemModel StoreModel StoreSpec StoreProofs.
From Verif Require Import AuditModel AuditSpec.

Lemma info_enabled f : log_enabled f LInfo = true.
Proof. by destruct f. Qed.

Lemma written_reports f ps : written f (map (fun p => (LInfo, Reported p)) ps) = map Reported ps.
Proof. induction ps as [|p ps IH]; [done|]. cbn [map written]. by rewrite info_enabled, IH. Qed.

Lemma run_split s0 ops s es1 e es2 :
  store_run s0 ops = Some (s, es1 ++ e :: es2) ->
  exists ops1 ops2 s1 s2, ops = ops1 ++ se_op e :: ops2 /\ store_run s0 ops1 = Some (s1, es1) /\
    store_step s1 (se_op e) = Some (s2, e) /\ store_run s2 ops2 = Some (s, es2).
Proof.
  revert s0 es1. induction ops as [|op ops IH]; intros s0 es1 H; cbn [store_run] in H.
  - injection H as _ H. by destruct es1.
  - destruct (store_step s0 op) as [[s' x]|] eqn:E; [|done].
    destruct (store_run s' ops) as [[s'' es]|] eqn:E2; [|done]. injection H as -> H.
    destruct es1 as [|y es1]; cbn in H; injection H as -> ->.
    + exists [], ops, s0, s'. rewrite (step_op _ _ _ _ E). done.
    + destruct (IH s' es1 E2) as (ops1 & ops2 & s1 & s2 & -> & H1 & H2 & H3).
      exists (op :: ops1), ops2, s1, s2. split; [done|]. split; [|done]. cbn [store_run]. by rewrite E, H1.
Qed.

Lemma run_app s0 a b s1 es1 :
  store_run s0 a = Some (s1, es1) ->
  store_run s0 (a ++ b) = match store_run s1 b with Some (s, es) => Some (s, es1 ++ es) | None => None end.
Proof.
  revert s0 es1. induction a as [|op a IH]; intros s0 es1 H; cbn [store_run app] in H |- *.
  - injection H as -> <-. by destruct (store_run s1 b) as [[]|].
  - destruct (store_step s0 op) as [[s' x]|] eqn:E; [|done].
    destruct (store_run s' a) as [[s'' es]|] eqn:E2; [|done]. injection H as -> <-.
    rewrite (IH s' es E2). by destruct (store_run s1 b) as [[]|].
Qed.

Lemma run_app_inv s0 a b s es :
  store_run s0 (a ++ b) = Some (s, es) ->
  exists s1 es1 es2, store_run s0 a = Some (s1, es1) /\ store_run s1 b = Some (s, es2) /\ es = es1 ++ es2.
Proof.
  revert s0 es. induction a as [|op a IH]; intros s0 es H; cbn [store_run app] in H |- *.
  - by exists s0, [], es.
  - destruct (store_step s0 op) as [[s' x]|] eqn:E; [|done].
    destruct (store_run s' (a ++ b)) as [[s'' es']|] eqn:E2; [|done]. injection H as -> <-.
    destruct (IH s' es' E2) as (s1 & es1 & es2 & H1 & H2 & ->). exists s1, (x :: es1), es2. by rewrite H1.
Qed.

Lemma audit_app f s0 a b s1 es1 :
  store_run s0 a = Some (s1, es1) -> audit f s0 (a ++ b) = audit f s0 a ++ audit f s1 b.
Proof.
  revert s0 es1. induction a as [|op a IH]; intros s0 es1 H; cbn [store_run app audit] in H |- *.
  - by injection H as ->.
  - destruct (store_step s0 op) as [[s' x]|] eqn:E; [|done].
    destruct (store_run s' a) as [[s'' es]|] eqn:E2; [|done]. injection H as -> <-.
    by rewrite (IH s' es E2), app_assoc.
Qed.

(** The line of a problem that is replaced. *)
Lemma replace_line f s es id ps s' e :
  history s es -> store_step s (SReplace id ps) = Some (s', e) ->
  exists q, st_problems s !! id = Some (Some q) /\ written f (op_lines s (SReplace id ps)) = [Resolved q].
Proof.
  intros _ H. cbn [store_step op_lines] in *. unfold store_replace in *.
  destruct (st_problems s !! id) as [[q|]|] eqn:E; [|done|done].
  exists q. split; [done|]. destruct (add_problems _ ps) as [[]|]; [|done]. cbn [written]. by rewrite info_enabled.
Qed.

Lemma settled f ops1 c ps ops2 s es :
  store_run store_init (ops1 ++ SAdd c ps :: ops2) = Some (s, es) -> NoDup (clients es) ->
  received es c = [Continue] ->
  exists rest, audit f store_init (ops1 ++ SAdd c ps :: ops2) = audit f store_init ops1 ++ map Reported ps ++ rest /\
    forall p, p ∈ ps -> settled_in rest p.
Proof.
  intros Hrun Hnd Hc.
  destruct (run_app_inv _ _ _ _ _ Hrun) as (s1 & es1 & es' & H1 & H2 & ->). cbn [store_run] in H2.
  destruct (store_step s1 (SAdd c ps)) as [[s2 e]|] eqn:Ee; [|done].
  destruct (store_run s2 ops2) as [[s3 es2]|] eqn:E2; [|done]. injection H2 as -> <-.
  pose proof (step_op _ _ _ _ Ee) as Hop.
  exists (audit f s2 ops2). split.
  { rewrite (audit_app _ _ _ _ _ _ H1). cbn [audit op_lines]. by rewrite written_reports, Ee. }
  assert (history s (es1 ++ e :: es2)) as Hh by (by eexists).
  destruct (outcomes _ _ es1 e es2 c ps Hh Hnd eq_refl Hop) as (_ & [HC _] & _).
  destruct (HC Hc) as (a & b & -> & _ & Hall).
  intros p (k & Hk)%elem_of_list_lookup.
  assert (history s1 es1) as Hh1 by (by eexists).
  assert (store_step s1 (se_op e) = Some (s2, e)) as Ee' by (by rewrite Hop).
  pose proof (ids_length _ _ _ _ Hh1 Ee') as Hlen. rewrite Hop in Hlen. cbn [submitted] in Hlen.
  destruct (se_ids e !! k) as [id|] eqn:Hid.
  2:{ apply lookup_ge_None in Hid. apply lookup_lt_Some in Hk. lia. }
  assert (id ∈ se_ids e) as Hin by (by eapply elem_of_list_lookup_2).
  assert (closed (es1 ++ e :: a) id) as Hcl by (apply Hall; exists id; split; [done|apply rtc_refl]).
  destruct (new_ids_open _ _ _ _ _ Hh1 Ee' Hin) as [q0 Hq0].
  assert (history s2 (es1 ++ [e])) as Hh2.
  { exists (ops1 ++ [SAdd c ps]). rewrite (run_app _ _ _ _ _ H1). cbn [store_run]. by rewrite Ee. }
  assert (~ closed (es1 ++ [e]) id) as Hncl.
  { rewrite (closed_iff _ _ _ Hh2). congruence. }
  destruct Hcl as (x & ps' & Hx & Hxop).
  assert (x ∈ a) as Hxa.
  { rewrite cons_middle, app_assoc, elem_of_app in Hx. destruct Hx as [Hx|Hx]; [|done].
    destruct Hncl. by exists x, ps'. }
  apply elem_of_list_split in Hxa as (a1 & a2 & ->).
  rewrite <- app_assoc in E2. cbn [app] in E2.
  destruct (run_split _ _ _ _ _ _ E2) as (o1 & o2 & t1 & t2 & -> & R1 & R2 & R3).
  rewrite Hxop in R2.
  assert (history t1 (es1 ++ e :: a1)) as Ht1.
  { exists (ops1 ++ SAdd c ps :: o1). rewrite (run_app _ _ _ _ _ H1). cbn [store_run]. by rewrite Ee, R1. }
  destruct (replace_line f _ _ _ _ _ _ Ht1 R2) as (q & Hq & Hl).
  destruct (ids_stable _ _ Ht1) as (_ & Hst & _).
  destruct (Hst p id q) as [Hkey Hus]; [|done|].
  { exists e, k. rewrite Hop. split; [|done]. rewrite elem_of_app, elem_of_cons. tauto. }
  exists q. split.
  - rewrite (audit_app _ _ _ _ _ _ R1). rewrite elem_of_app. right. rewrite Hxop. cbn [audit]. rewrite Hl.
    apply elem_of_app. left. by apply elem_of_list_singleton.
  - split; [|done]. by apply same_problem_iff.
Qed.

(** Every open problem was submitted. *)
Lemma add_problem_source s p s' id j q' :
  add_problem s p = Some (s', id) -> st_problems s' !! j = Some (Some q') ->
  (exists q, st_problems s !! j = Some (Some q)) \/ id = j.
Proof.
  unfold add_problem. destruct (key_get (dedup_key p) (st_ids s)) as [i|].
  - destruct (st_problems s !! i) as [[ex|]|] eqn:Ei; [|done..].
    case_bool_decide.
    + intros [= <- <-]. eauto.
    + destruct (merge_problem ex p) as [m|] eqn:Em; [|done]. intros [= <- <-]. cbn.
      destruct (decide (i = j)) as [->|Hne]; [by right|].
      rewrite list_lookup_insert_ne by done. eauto.
  - intros [= <- <-]. cbn. intros Hj. apply lookup_app_Some in Hj as [Hj|[Hge Hj]]; [eauto|].
    destruct (j - length (st_problems s)) eqn:E; [|done]. right. lia.
Qed.

Lemma add_problems_source ps : forall s s' ids j q',
  add_problems s ps = Some (s', ids) -> st_problems s' !! j = Some (Some q') ->
  (exists q, st_problems s !! j = Some (Some q)) \/ exists k p, ps !! k = Some p /\ ids !! k = Some j.
Proof.
  induction ps as [|p ps IH]; intros s s' ids j q'; cbn.
  - intros [= <- <-]. eauto.
  - destruct (add_problem s p) as [[s1 id]|] eqn:E1; [|done].
    destruct (add_problems s1 ps) as [[s2 ids']|] eqn:E2; [|done].
    intros [= <- <-] Hj. destruct (IH _ _ _ _ _ E2 Hj) as [(q & Hq)|(k & p' & ? & ?)].
    + destruct (add_problem_source _ _ _ _ _ _ E1 Hq) as [?| ->]; [by left|].
      right. by exists 0, p.
    + right. by exists (S k), p'.
Qed.

Lemma step_source s op s' e j q' :
  store_step s op = Some (s', e) -> st_problems s' !! j = Some (Some q') ->
  (exists q, st_problems s !! j = Some (Some q)) \/
  exists k p, submitted (se_op e) !! k = Some p /\ se_ids e !! k = Some j.
Proof.
  destruct op as [c ps|id ps|]; cbn.
  - destruct (store_add s c ps) as [[s1 ids]|] eqn:E; [|done]. intros [= <- <-].
    unfold store_add in E. destruct ps as [|p ps]; [done|].
    destruct (add_problems s (p :: ps)) as [[s2 ids']|] eqn:E2; [|done].
    injection E as <- <-. cbn [st_problems submitted se_op se_ids]. by apply add_problems_source.
  - destruct (store_replace s id ps) as [[[s1 ids] sent]|] eqn:E; [|done]. intros [= <- <-].
    unfold store_replace in E. destruct (st_problems s !! id) as [[p|]|] eqn:Ep; [|done..].
    destruct (add_problems _ ps) as [[s2 ids']|] eqn:E2; [|done].
    injection E as <- <- <-. cbn [st_problems submitted se_op se_ids]. intros Hj.
    destruct (add_problems_source _ _ _ _ _ _ E2 Hj) as [(q & Hq)|?]; [left|by right].
    cbn in Hq. destruct (decide (id = j)) as [->|Hne]; [by eexists|].
    rewrite list_lookup_insert_ne in Hq by done. eauto.
  - intros [= <- <-]. eauto.
Qed.

Lemma open_submitted s es :
  history s es -> forall id q, st_problems s !! id = Some (Some q) -> exists p, got_id es p id.
Proof.
  revert s es. apply (history_ind (fun s es => forall id q, st_problems s !! id = Some (Some q) -> exists p, got_id es p id)).
  - done.
  - intros s es s' e Hh IH Hstep id q Hq. setoid_rewrite got_id_snoc.
    destruct (step_source _ _ _ _ _ _ Hstep Hq) as [(q0 & Hq0)|(k & p & ? & ?)].
    + destruct (IH _ _ Hq0) as (p & ?). eauto.
    + eauto 10.
Qed.

Lemma submitted_brought_up f ops s es p id :
  store_run store_init ops = Some (s, es) -> got_id es p id -> brought_up (audit f store_init ops) ops p.
Proof.
  intros Hrun (e & k & He & Hp & _). apply elem_of_list_split in He as (es1 & es2 & ->).
  destruct (run_split _ _ _ _ _ _ Hrun) as (ops1 & ops2 & s1 & s2 & -> & H1 & H2 & _).
  apply elem_of_list_lookup_2 in Hp. destruct (se_op e) as [c ps|i ps|]; cbn [submitted] in Hp.
  - left. rewrite (audit_app _ _ _ _ _ _ H1). cbn [audit op_lines]. rewrite written_reports.
    rewrite !elem_of_app. right. left. apply elem_of_list_fmap. eauto.
  - right. exists i, ps. split; [|done]. rewrite elem_of_app, elem_of_cons. tauto.
  - by apply elem_of_nil in Hp.
Qed.

Lemma reports_prefix ps l l1 q l2 :
  map Reported ps ++ l = l1 ++ Resolved q :: l2 -> exists l1', l1 = map Reported ps ++ l1' /\ l = l1' ++ Resolved q :: l2.
Proof.
  revert l1. induction ps as [|p ps IH]; intros l1 H; cbn [map app] in H.
  - by exists l1.
  - destruct l1 as [|x l1]; [discriminate H|]. cbn [app] in H. injection H as <- H.
    destruct (IH _ H) as (l1' & -> & ->). by exists l1'.
Qed.

Lemma locate f ops : forall s0 s es l1 q l2,
  store_run s0 ops = Some (s, es) -> audit f s0 ops = l1 ++ Resolved q :: l2 ->
  exists ops1 id ps ops2 s1 es1, ops = ops1 ++ SReplace id ps :: ops2 /\ store_run s0 ops1 = Some (s1, es1) /\
    st_problems s1 !! id = Some (Some q) /\ l1 = audit f s0 ops1.
Proof.
  induction ops as [|op ops IH]; intros s0 s es l1 q l2 Hrun H; cbn [audit] in H.
  - by destruct l1.
  - cbn [store_run] in Hrun. destruct (store_step s0 op) as [[s' e]|] eqn:E; [|done].
    destruct (store_run s' ops) as [[s'' es']|] eqn:E2; [|done]. injection Hrun as -> <-.
    assert (forall l1', l1 = written f (op_lines s0 op) ++ l1' -> audit f s' ops = l1' ++ Resolved q :: l2 ->
      exists ops1 id ps ops2 s1 es1, op :: ops = ops1 ++ SReplace id ps :: ops2 /\ store_run s0 ops1 = Some (s1, es1) /\
        st_problems s1 !! id = Some (Some q) /\ l1 = audit f s0 ops1) as Hlater.
    { intros l1' -> Hl. destruct (IH _ _ _ _ _ _ E2 Hl) as (ops1 & id & ps & ops2 & s1 & es1 & -> & H1 & H2 & ->).
      exists (op :: ops1), id, ps, ops2, s1, (e :: es1). cbn [store_run audit]. by rewrite E, H1. }
    destruct op as [c ps|id ps|].
    + cbn [op_lines] in H, Hlater. rewrite written_reports in H, Hlater.
      destruct (reports_prefix _ _ _ _ _ H) as (l1' & -> & Hl). by apply (Hlater l1').
    + cbn [op_lines] in H, Hlater. cbn [store_step] in E. unfold store_replace in H, Hlater, E.
      destruct (st_problems s0 !! id) as [[p|]|] eqn:Ep; [|done|done].
      destruct (add_problems _ ps) as [[]|]; [|done]. cbn [written] in H, Hlater. rewrite info_enabled in H, Hlater.
      cbn [app] in H. destruct l1 as [|x l1]; cbn [app] in H.
      * injection H as <- _. exists [], id, ps, ops, s0, []. done.
      * injection H as <- H. by apply (Hlater l1).
    + by apply (Hlater l1).
Qed.

Lemma resolved_source f ops s es l1 q l2 :
  store_run store_init ops = Some (s, es) -> audit f store_init ops = l1 ++ Resolved q :: l2 ->
  exists ops1 op ops2, ops = ops1 ++ op :: ops2 /\ l1 = audit f store_init ops1 /\
  (exists p, brought_up l1 ops1 p /\ same_problem p q) /\
  forall u, u ∈ usages_in q -> exists p, brought_up l1 ops1 p /\ same_problem p q /\ u ∈ usages_in p.
Proof.
  intros Hrun H. destruct (locate _ _ _ _ _ _ _ _ Hrun H) as (ops1 & id & ps & ops2 & s1 & es1 & -> & H1 & Hq & ->).
  assert (history s1 es1) as Hh by (by eexists).
  assert (forall p, got_id es1 p id -> brought_up (audit f store_init ops1) ops1 p /\ same_problem p q) as Hb.
  { intros p Hp. split; [by eapply submitted_brought_up|].
    destruct (ids_stable _ _ Hh) as (_ & Hst & _). apply same_problem_iff. by destruct (Hst _ _ _ Hp Hq). }
  exists ops1, (SReplace id ps), ops2. split; [done|]. split; [done|]. split.
  - destruct (open_submitted _ _ Hh _ _ Hq) as [p Hp]. exists p. by apply Hb.
  - intros u Hu. apply (usages_exact _ _ id q u Hh) in Hu as (p & Hp & Hu); [|by apply is_open_iff].
    exists p. destruct (Hb p Hp). done.
Qed.
