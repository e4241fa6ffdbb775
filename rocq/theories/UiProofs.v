(** Proofs for C39 and the non-interactive mode. *)
From Verif Require Import Base BaseFacts ApiMapModel ConfigModel ProblemModel StoreModel StoreSpec
  StoreProofs TomlModel EditorModel CheckerModel UiModel UiSpec.

(** ** Facts about the store *)

Lemma add_problems_new (ps : list problem) : forall (s s' : store) (ids : list nat) (id : nat),
  add_problems s ps = Some (s', ids) -> length (st_problems s) <= id < length (st_problems s') ->
  id ∈ ids.
Proof.
  induction ps as [|p ps IH]; intros s s' ids id; cbn.
  - intros [= <- <-]. lia.
  - unfold add_problem.
    destruct (key_get (dedup_key p) (st_ids s)) as [j|].
    + destruct (st_problems s !! j) as [[ex|]|]; [|done|done].
      case_bool_decide.
      * destruct (add_problems s ps) as [[s2 ids2]|] eqn:E; [|done].
        intros [= <- <-] Hl. apply elem_of_cons. right. by eapply IH.
      * destruct (merge_problem ex p) as [m|]; [|done].
        destruct (add_problems (set_problems s (<[j:=Some m]> (st_problems s))) ps) as [[s2 ids2]|] eqn:E;
          [|done].
        intros [= <- <-] Hl. apply elem_of_cons. right. eapply IH; [exact E|].
        cbn. by rewrite insert_length.
    + destruct (add_problems _ ps) as [[s2 ids2]|] eqn:E; [|done].
      intros [= <- <-] Hl. apply elem_of_cons.
      destruct (decide (id = length (st_problems s))); [by left|right].
      eapply IH; [exact E|]. cbn. rewrite app_length. cbn. lia.
Qed.

Lemma step_new (s s' : store) (e : store_event) (id : nat) :
  store_step s (se_op e) = Some (s', e) -> length (st_problems s) <= id < length (st_problems s') ->
  id ∈ se_ids e.
Proof.
  destruct e as [op ids sent]; cbn [se_op se_ids]. destruct op as [c ps|j ps|]; cbn.
  - unfold store_add. destruct ps as [|p ps]; [done|].
    destruct (add_problems s (p :: ps)) as [[s2 ids2]|] eqn:E; [|done].
    intros [= <- <- _] Hl. by eapply add_problems_new.
  - unfold store_replace. destruct (st_problems s !! j) as [[q|]|]; [|done|done].
    destruct (add_problems _ ps) as [[s2 ids2]|] eqn:E; [|done].
    intros [= <- <- _] Hl. eapply add_problems_new; [exact E|]. cbn. by rewrite insert_length.
  - intros [= <- _]. cbn. lia.
Qed.

Lemma open_submitted (s : store) (es : list store_event) (id : nat) (q : problem) :
  history s es -> is_open s id q -> exists p, got_id es p id.
Proof.
  intros Hh. revert id q. pattern s, es. revert s es Hh. apply history_ind.
  - intros id q H%is_open_iff. done.
  - intros s es s' e Hh IH Hstep id q Hq. setoid_rewrite got_id_snoc.
    destruct (decide (id < length (st_problems s))) as [Hl|Hl].
    + apply is_open_iff in Hq. destruct (step_id _ _ _ _ _ _ Hh Hstep Hq Hl) as (q0 & Hq0 & _).
      destruct (IH id q0) as [p Hp]; [by apply is_open_iff|]. exists p. by left.
    + assert (Hid : id ∈ se_ids e).
      { eapply step_new; [exact Hstep|]. apply is_open_iff, lookup_lt_Some in Hq. lia. }
      apply elem_of_list_lookup in Hid as [k Hk].
      assert (is_Some (submitted (se_op e) !! k)) as [p Hp].
      { apply lookup_lt_is_Some. rewrite <- (ids_length _ _ _ _ Hh Hstep). by apply lookup_lt_Some in Hk. }
      exists p. right. by exists k.
Qed.

(** ** Severity *)

Lemma severity_spec (p : problem) : problem_severity p = Warning <-> warning p.
Proof. split; [destruct p; cbn; intros; try done; constructor|by destruct 1]. Qed.

Lemma shown_spec (f : ui_flags) (p : problem) : shown_as f p = Some Error <-> objects f p.
Proof.
  unfold shown_as, objects. rewrite <- severity_spec.
  destruct (problem_severity p) eqn:E; destruct (fl_command f), (fl_fail_on_warnings f); cbn;
    naive_solver.
Qed.

Lemma warning_same (p q : problem) : same_problem p q -> warning p <-> warning q.
Proof. destruct 1; [done| |]; split; intros Hw; inversion Hw; constructor. Qed.

Lemma objects_same (f : ui_flags) (p q : problem) : same_problem p q -> objects f p <-> objects f q.
Proof. intros H. unfold objects. by rewrite (warning_same _ _ H). Qed.

Lemma same_sym (p q : problem) : same_problem p q -> same_problem q p.
Proof. rewrite <- !same_problem_iff. done. Qed.

Global Instance objects_dec (f : ui_flags) (p : problem) : Decision (objects f p).
Proof. destruct (decide (shown_as f p = Some Error)); [left|right]; by rewrite <- shown_spec. Qed.

(** ** One turn without automatic fixes *)

Lemma store_events_app (a b : list ui_act) : store_events (a ++ b) = store_events a ++ store_events b.
Proof. apply omap_app. Qed.

Lemma store_events_shown (f : ui_flags) (l : list (nat * problem)) :
  store_events (omap (fun e : nat * problem => (fun sev => APrinted sev e.2) <$> shown_as f e.2) l) = [].
Proof.
  induction l as [|[id p] l IH]; [done|]. cbn. by destruct (shown_as f p).
Qed.

Lemma history_step (s s' : store) (es : list store_event) (op : store_op) (e : store_event) :
  history s es -> store_step s op = Some (s', e) -> history s' (es ++ [e]).
Proof.
  intros [ops H] Hstep. exists (ops ++ [op]). by rewrite store_run_snoc, H, Hstep.
Qed.

(** Only problems are resolved, with nothing in their place. *)
Definition only_resolves (es : list store_event) : Prop :=
  Forall (fun e => (exists id, se_op e = SReplace id []) /\ se_ids e = []) es.

Lemma resolve_event (s s' : store) (id : nat) (e : store_event) :
  store_step s (SReplace id []) = Some (s', e) -> se_op e = SReplace id [] /\ se_ids e = [].
Proof.
  cbn. unfold store_replace. destruct (st_problems s !! id) as [[q|]|]; [|done|done].
  cbn. intros [= _ <-]. done.
Qed.

Lemma resolve_problems (s s' : store) (id : nat) (e : store_event) :
  store_step s (SReplace id []) = Some (s', e) -> st_problems s' = <[id := None]> (st_problems s).
Proof.
  cbn. unfold store_replace. destruct (st_problems s !! id) as [[q|]|]; [|done|done].
  cbn. intros [= <- _]. done.
Qed.

Lemma open_from_insert (l : list (option problem)) : forall (n id : nat) (p : problem) (rest : list _),
  open_from n l = (id, p) :: rest -> open_from n (<[id - n := None]> l) = rest /\ n <= id.
Proof.
  induction l as [|[q|] l IH]; intros n id p rest; cbn; [done| |].
  - intros [= -> -> <-]. rewrite Nat.sub_diag. done.
  - intros H. destruct (IH _ _ _ _ H) as [H1 H2]. replace (id - n) with (S (id - S n)) by lia.
    cbn. split; [done|lia].
Qed.

Lemma open_length (s : store) : length (store_open s) <= length (st_problems s).
Proof.
  unfold store_open. generalize 0. induction (st_problems s) as [|[q|] l IH]; intros n; cbn; [done| |];
    specialize (IH (S n)); lia.
Qed.

Lemma resolve_open (s s' : store) (id : nat) (p : problem) (rest : list (nat * problem)) (e : store_event) :
  store_open s = (id, p) :: rest -> store_step s (SReplace id []) = Some (s', e) -> store_open s' = rest.
Proof.
  intros Ho Hs. unfold store_open in *. rewrite (resolve_problems _ _ _ _ Hs).
  destruct (open_from_insert _ _ _ _ _ Ho) as [H _]. by rewrite Nat.sub_0_r in H.
Qed.

Lemma resolve_possible (s : store) (es : list store_event) (id : nat) (p : problem) :
  history s es -> is_open s id p -> exists s' e, store_step s (SReplace id []) = Some (s', e).
Proof.
  intros Hh Ho. destruct (store_step s (SReplace id [])) as [[s' e]|] eqn:E; [eauto|].
  apply (panics_iff _ _ _ Hh) in E as [[c E]|(j & ps & E & H)]; [done|].
  injection E as <- <-. destruct H as [H|(q & p' & _ & H%elem_of_nil & _)]; [|done].
  by destruct (H p).
Qed.

Lemma resolve_all_spec (fuel : nat) : forall (s : store) (es : list store_event),
  history s es -> length (store_open s) <= fuel ->
  exists s' acts, resolve_all fuel s = Some (s', acts) /\ history s' (es ++ store_events acts) /\
    store_open s' = [] /\ only_resolves (store_events acts) /\ st_aborted s' = st_aborted s /\
    Forall (fun a => exists e, a = AStore e) acts.
Proof.
  induction fuel as [|fuel IH]; intros s es Hh Hl.
  - destruct (store_open s) as [|x l] eqn:E; cbn in Hl; [|lia]. cbn. rewrite E.
    exists s, []. cbn. rewrite app_nil_r. split_and!; try done; constructor.
  - destruct (store_open s) as [|[id p] l] eqn:E; cbn [resolve_all]; rewrite E.
    { exists s, []. cbn. rewrite app_nil_r. split_and!; try done; constructor. }
    destruct (resolve_possible s es id p Hh) as (s1 & e & Hs). { unfold is_open. rewrite E. left. }
    unfold ui_resolve. rewrite Hs.
    pose proof (history_step _ _ _ _ _ Hh Hs) as Hh1.
    pose proof (resolve_open _ _ _ _ _ _ E Hs) as Ho.
    destruct (IH s1 (es ++ [e]) Hh1) as (s2 & acts & E2 & Hh2 & Ho2 & Hr & Ha & Hf).
    { rewrite Ho. cbn in Hl. lia. }
    rewrite E2. exists s2, (AStore e :: acts). cbn [store_events omap list_omap].
    split_and!; try done.
    + rewrite <- app_assoc in Hh2. exact Hh2.
    + constructor; [|done]. destruct (resolve_event _ _ _ _ Hs) as [H1 H2]. split; [eauto|done].
    + rewrite Ha. cbn in Hs. unfold store_replace in Hs. destruct (st_problems s !! id) as [[q|]|]; try done.
      cbn in Hs. injection Hs as <- _. done.
    + constructor; [eauto|done].
Qed.

(** What a turn without automatic fixes does. *)
Lemma report_spec (f : ui_flags) (s : store) (es : list store_event) :
  history s es ->
  exists s' acts, report f s = Some (s', acts, true) /\ history s' (es ++ store_events acts) /\
    (forall q, APrinted Error q ∈ acts <-> (exists id, is_open s id q) /\ objects f q) /\
    ((exists id q, is_open s id q /\ objects f q) /\
       (exists sent, store_events acts = [StoreEvent SAbort [] sent]) /\
       st_problems s' = st_problems s /\ st_aborted s' = true \/
     (forall id q, is_open s id q -> ~ objects f q) /\ store_open s' = [] /\
       only_resolves (store_events acts) /\ st_aborted s' = st_aborted s).
Proof.
  intros Hh. unfold report.
  set (shown := omap (fun e : nat * problem => (fun sev => APrinted sev e.2) <$> shown_as f e.2) (store_open s)).
  assert (Hshown : forall q, APrinted Error q ∈ shown <-> (exists id, is_open s id q) /\ objects f q).
  { intros q. unfold shown. rewrite elem_of_list_omap. split.
    - intros ([id p] & Hin & H). cbn in H. destruct (shown_as f p) as [sev|] eqn:E; [|done].
      cbn in H. injection H as -> ->. split; [by exists id|]. by apply shown_spec.
    - intros [[id Hid] Ho]. exists (id, q). split; [done|]. apply shown_spec in Ho. cbn. by rewrite Ho. }
  destruct (existsb _ (store_open s)) eqn:E.
  - apply existsb_exists in E as ([id q] & Hin & H). apply elem_of_list_In in Hin.
    apply bool_decide_eq_true in H. cbn in H. apply shown_spec in H.
    cbn [store_step]. destruct (store_abort s) as [s' sent] eqn:Ea.
    exists s', (shown ++ [AStore (StoreEvent SAbort [] sent)]). split; [done|].
    rewrite store_events_app. unfold shown at 1. rewrite store_events_shown. cbn.
    assert (Hs : store_step s SAbort = Some (s', StoreEvent SAbort [] sent)) 
      by by unfold store_step; rewrite Ea.
    split; [by eapply history_step|]. split.
    { intros q'. rewrite elem_of_app, Hshown. split; [intros [?|?%elem_of_list_singleton]; done|by left]. }
    left. split; [by exists id, q|]. split. { exists sent. unfold shown. by rewrite store_events_shown. }
    unfold store_abort in Ea. by injection Ea as <- _.
  - assert (Hno : forall id q, is_open s id q -> ~ objects f q).
    { intros id q Hin Ho. apply shown_spec in Ho. apply not_true_iff_false in E. apply E.
      apply existsb_exists. exists (id, q). split; [by apply elem_of_list_In|]. by apply bool_decide_eq_true. }
    destruct (resolve_all_spec (length (st_problems s)) s es Hh (open_length s))
      as (s' & acts & E2 & Hh2 & Ho2 & Hr & Ha & Hf).
    rewrite E2. exists s', (shown ++ acts). split; [done|].
    assert (He : store_events (shown ++ acts) = store_events acts).
    { rewrite store_events_app. unfold shown. by rewrite store_events_shown. }
    rewrite He. split; [done|]. split.
    { intros q'. rewrite elem_of_app, Hshown. split; [|by left]. intros [?|H]; [done|].
      rewrite Forall_forall in Hf. by destruct (Hf _ H) as [e ?]. }
    right. done.
Qed.

(** ** Runs without automatic fixes *)

Lemma submissions_app (a b : list ui_step) : submissions (a ++ b) = submissions a ++ submissions b.
Proof. unfold submissions. by rewrite map_app, concat_app. Qed.
Lemma submitters_app (a b : list ui_step) : submitters (a ++ b) = submitters a ++ submitters b.
Proof. apply omap_app. Qed.

Section runs.
  Context (fixes : problem -> config -> list edit) (apply : edit -> table -> option table).
  Context (f : ui_flags).

  Lemma system_run_app (l l' : list ui_step) : forall s : ui_system,
    system_run fixes apply f s (l ++ l') =
    match system_run fixes apply f s l with
    | Some (s', acts) =>
        match system_run fixes apply f s' l' with
        | Some (s'', acts') => Some (s'', acts ++ acts')
        | None => None
        end
    | None => None
    end.
  Proof.
    induction l as [|a l IH]; intros s; cbn [app system_run].
    - by destruct (system_run fixes apply f s l') as [[s' acts]|].
    - destruct (system_step fixes apply f s a) as [s1 acts1| |]; [|done|done].
      rewrite IH. destruct (system_run fixes apply f s1 l) as [[s2 acts2]|]; [|done].
      destruct (system_run fixes apply f s2 l') as [[s3 acts3]|]; [|done]. by rewrite app_assoc.
  Qed.

  Lemma system_run_one (s s' : ui_system) (a : ui_step) (acts : list ui_act) :
    system_run fixes apply f s [a] = Some (s', acts) -> system_step fixes apply f s a = Stepped s' acts.
  Proof.
    cbn. destruct (system_step fixes apply f s a); [|done|done]. rewrite app_nil_r. by intros [= -> ->].
  Qed.

  Definition add_event (e : store_event) : Prop := exists c ps, se_op e = SAdd c ps /\ ps <> [].

  (** The state after the steps [l]. *)
  Record reached (l : list ui_step) (s : ui_system) (acts : list ui_act) : Prop := {
    re_history : history (us_store s) (store_events acts);
    re_running : us_running s = true;
    re_clients : clients (store_events acts) = submitters l;
    re_open : forall id q, is_open (us_store s) id q -> exists p, p ∈ submissions l /\ same_problem q p;
    re_kept : forall p, p ∈ submissions l -> objects f p ->
                exists id q, is_open (us_store s) id q /\ same_problem q p /\
                  forall u, u ∈ usages_in p -> u ∈ usages_in q;
    re_events : Forall (fun e => add_event e \/ ((exists id, se_op e = SReplace id []) /\ se_ids e = []) \/
                           se_op e = SAbort) (store_events acts)
  }.

  Lemma reached_init : reached [] ui_system_init [].
  Proof.
    split; cbn; try done.
    - by exists [].
    - intros id q H%is_open_iff. done.
    - by intros p ?%elem_of_nil.
  Qed.

  Lemma step_submit (l : list ui_step) (s s' : ui_system) (acts acts' : list ui_act) (c : nat)
      (ps : list problem) :
    reached l s acts -> system_step fixes apply f s (USubmit c ps) = Stepped s' acts' ->
    reached (l ++ [USubmit c ps]) s' (acts ++ acts') /\
    us_events s' = S (us_events s) /\
    exists e, acts' = [AStore e] /\ se_op e = SAdd c ps /\ ps <> [] /\
      store_step (us_store s) (se_op e) = Some (us_store s', e).
  Proof.
    intros [Hh Hr Hc Ho Hk He]. cbn [system_step].
    destruct (store_step (us_store s) (SAdd c ps)) as [[s1 e]|] eqn:Es; [|done]. intros [= <- <-].
    pose proof (step_op _ _ _ _ Es) as Hop.
    assert (Hne : ps <> []) by by intros ->.
    assert (Hs : store_step (us_store s) (se_op e) = Some (s1, e)) by by rewrite Hop.
    assert (Hsub : submissions (l ++ [USubmit c ps]) = submissions l ++ ps).
    { rewrite submissions_app. cbn. by rewrite app_nil_r. }
    cbn [us_store us_events us_running]. split; [|split; [done|by exists e]].
    assert (Hh' : history s1 (store_events acts ++ [e])) by by eapply history_step.
    split; cbn [us_store us_running]; rewrite ?store_events_app; cbn [store_events omap list_omap];
      try done.
    - rewrite clients_app, submitters_app, Hc. cbn. by rewrite Hop.
    - intros id q Hq. rewrite Hsub.
      destruct (open_submitted _ _ _ _ Hh' Hq) as [p Hp]. pose proof Hp as Hp'.
      apply got_id_snoc in Hp as [Hp|(k & Hk1 & Hk2)].
      + assert (Hl : id < length (st_problems (us_store s))).
        { destruct (ids_stable _ _ Hh) as (H & _). by eapply H. }
        apply is_open_iff in Hq. destruct (step_id _ _ _ _ _ _ Hh Hs Hq Hl) as (q0 & Hq0 & Hkey & _).
        destruct (Ho id q0) as (p0 & Hp0 & Hsame); [by apply is_open_iff|].
        exists p0. split; [apply elem_of_app; by left|].
        apply same_problem_iff. apply same_problem_iff in Hsame. congruence.
      + rewrite Hop in Hk1. cbn in Hk1. exists p. split.
        * apply elem_of_app. right. by eapply elem_of_list_lookup_2.
        * apply is_open_iff in Hq. apply same_problem_iff.
          destruct (ids_stable _ _ Hh') as (_ & H & _). by apply (H p id q).
    - intros p Hp Hobj. rewrite Hsub in Hp. apply elem_of_app in Hp as [Hp|Hp].
      + destruct (Hk p Hp Hobj) as (id & q & Hq & Hsame & Hu).
        destruct (open_submitted _ _ _ _ Hh Hq) as [p1 Hp1].
        destruct (open_unless_closed s1 _ id Hh') as [q' Hq'].
        { exists p1. apply got_id_snoc. by left. }
        { rewrite closed_snoc, Hop. cbn. intros [Hcl|?]; [|done].
          apply (closed_iff _ _ _ Hh) in Hcl. apply is_open_iff in Hq. congruence. }
        exists id, q'. split; [done|].
        pose proof Hq' as Hq2. apply is_open_iff in Hq2.
        destruct (step_id _ _ _ _ _ _ Hh Hs Hq2) as (q0 & Hq0 & Hkey & Hu0).
        { apply is_open_iff, lookup_lt_Some in Hq. done. }
        apply is_open_iff in Hq. assert (q0 = q) as -> by congruence. split.
        * apply same_problem_iff. apply same_problem_iff in Hsame. congruence.
        * intros u Hin. by apply Hu0, Hu.
      + apply elem_of_list_lookup in Hp as [k Hk1].
        assert (is_Some (se_ids e !! k)) as [id Hid].
        { apply lookup_lt_is_Some. rewrite (ids_length _ _ _ _ Hh Hs), Hop. cbn.
          by apply lookup_lt_Some in Hk1. }
        assert (Hg : got_id (store_events acts ++ [e]) p id).
        { apply got_id_snoc. right. exists k. by rewrite Hop. }
        destruct (new_ids_open _ _ _ _ id Hh Hs) as [q Hq]; [by eapply elem_of_list_lookup_2|].
        exists id, q. split; [by apply is_open_iff|].
        destruct (ids_stable _ _ Hh') as (_ & H & _). destruct (H p id q Hg Hq) as [H1 H2].
        split; [by apply same_problem_iff|done].
    - apply Forall_app. split; [done|]. constructor; [|constructor]. left. by exists c, ps.
  Qed.

  Lemma clients_resolves (es : list store_event) : only_resolves es -> clients es = [].
  Proof.
    induction 1 as [|e es [[id He] _] _ IH]; [done|]. cbn. by rewrite He.
  Qed.

  Lemma step_turn (l : list ui_step) (s s' : ui_system) (acts acts' : list ui_act) (i : ui_input) :
    fl_auto_accept f = false ->
    reached l s acts -> system_step fixes apply f s (UTurn i) = Stepped s' acts' ->
    reached (l ++ [UTurn i]) s' (acts ++ acts') /\
    (forall q, APrinted Error q ∈ acts' <-> (exists id, is_open (us_store s) id q) /\ objects f q) /\
    ((exists p, p ∈ submissions l /\ objects f p) /\
       (exists sent, store_events acts' = [StoreEvent SAbort [] sent]) /\ st_aborted (us_store s') = true \/
     (forall p, p ∈ submissions l -> ~ objects f p) /\
       store_open (us_store s') = [] /\ only_resolves (store_events acts') /\
       st_aborted (us_store s') = st_aborted (us_store s)).
  Proof.
    intros Hauto [Hh Hr Hc Ho Hk He]. cbn [system_step]. rewrite Hr.
    destruct (us_events s) as [|n]; [done|]. unfold null_turn. rewrite Hauto.
    destruct (report_spec f (us_store s) _ Hh) as (s1 & acts1 & E & Hh1 & Hp & Hcase). rewrite E.
    intros [= <- <-]. cbn [us_store].
    assert (Hsub : submissions (l ++ [UTurn i]) = submissions l).
    { rewrite submissions_app. cbn. by rewrite app_nil_r. }
    assert (Hopen : (exists id q, is_open (us_store s) id q /\ objects f q) <->
                    exists p, p ∈ submissions l /\ objects f p).
    { split.
      - intros (id & q & Hq & Hobj). destruct (Ho _ _ Hq) as (p & Hin & Hsame).
        exists p. split; [done|]. by rewrite <- (objects_same f _ _ Hsame).
      - intros (p & Hin & Hobj). destruct (Hk p Hin Hobj) as (id & q & Hq & Hsame & _).
        exists id, q. split; [done|]. by rewrite (objects_same f _ _ Hsame). }
    assert (Hcl : clients (store_events acts1) = []).
    { destruct Hcase as [(_ & [sent Hs] & _)|(_ & _ & Hs & _)]; [by rewrite Hs|by apply clients_resolves]. }
    split.
    - split; cbn [us_store us_running]; rewrite ?store_events_app; try done.
      + rewrite clients_app, submitters_app, Hc, Hcl. done.
      + rewrite Hsub. destruct Hcase as [(_ & _ & Hpr & _)|(_ & Hnone & _)].
        * intros id q Hq. apply Ho with id. apply is_open_iff. apply is_open_iff in Hq. congruence.
        * intros id q Hq. unfold is_open in Hq. rewrite Hnone in Hq. by apply elem_of_nil in Hq.
      + rewrite Hsub. destruct Hcase as [(_ & _ & Hpr & _)|(Hno & _ & _)].
        * intros p Hin Hobj. destruct (Hk p Hin Hobj) as (id & q & Hq & Hsame & Hu). exists id, q.
          split; [|done]. apply is_open_iff. apply is_open_iff in Hq. congruence.
        * intros p Hin Hobj. exfalso. destruct Hopen as [_ Hopen].
          destruct Hopen as (id & q & Hq & Hobj'); [by exists p|]. by apply (Hno id q).
      + apply Forall_app. split; [done|].
        destruct Hcase as [(_ & [sent Hs] & _)|(_ & _ & Hs & _)].
        * rewrite Hs. constructor; [by right; right|constructor].
        * eapply Forall_impl; [exact Hs|]. intros e Hee. right. by left.
    - split; [done|]. destruct Hcase as [(Hex & Hs & _ & Ha)|(Hno & Hn & Hs & Ha)].
      + left. split; [by apply Hopen|done].
      + right. split; [|done]. intros p Hin Hobj. destruct Hopen as [_ Hopen].
        destruct Hopen as (id & q & Hq & Hobj'); [by exists p|]. by apply (Hno id q).
  Qed.

  Lemma run_reached (l : list ui_step) (s : ui_system) (acts : list ui_act) :
    fl_auto_accept f = false ->
    system_run fixes apply f ui_system_init l = Some (s, acts) -> reached l s acts.
  Proof.
    intros Hauto. revert s acts. induction l as [|a l IH] using rev_ind; intros s acts.
    - intros [= <- <-]. apply reached_init.
    - rewrite system_run_app. destruct (system_run fixes apply f ui_system_init l) as [[s1 acts1]|]; [|done].
      destruct (system_run fixes apply f s1 [a]) as [[s2 acts2]|] eqn:E; [|done]. intros [= <- <-].
      apply system_run_one in E. specialize (IH _ _ eq_refl). destruct a as [c ps|i].
      + by destruct (step_submit _ _ _ _ _ _ _ IH E).
      + by destruct (step_turn _ _ _ _ _ _ Hauto IH E).
  Qed.

  (** Steps without a turn only add. *)
  Lemma only_submits (l : list ui_step) : forall (s s' : ui_system) (acts : list ui_act),
    Forall (fun a => ~ is_turn a) l -> system_run fixes apply f s l = Some (s', acts) ->
    Forall add_event (store_events acts) /\ us_events s <= us_events s' /\ us_running s' = us_running s.
  Proof.
    induction l as [|a l IH]; intros s s' acts Hl; cbn [system_run].
    - intros [= <- <-]. split; [constructor|done].
    - apply Forall_cons in Hl as [Ha Hl]. destruct a as [c ps|i]; [|by destruct (Ha I)].
      cbn [system_step]. destruct (store_step (us_store s) (SAdd c ps)) as [[s1 e]|] eqn:Es; [|done].
      destruct (system_run fixes apply f (UiSystem s1 (S (us_events s)) (us_running s)) l)
        as [[s2 acts2]|] eqn:E; [|done]. intros [= <- <-].
      destruct (IH _ _ _ Hl E) as (H1 & H2 & H3). cbn in H2, H3. split; [|split; [lia|done]].
      cbn. constructor; [|done]. exists c, ps. split; [by apply (step_op _ _ _ _ Es)|].
      intros ->. done.
  Qed.

  Lemma adds_no_abort (es : list store_event) : Forall add_event es -> no_abort es.
  Proof. rewrite Forall_forall. intros H e He. destruct (H e He) as (c & ps & -> & _). done. Qed.
  Lemma adds_closed (es es' : list store_event) (id : nat) :
    Forall add_event es' -> closed (es ++ es') id -> closed es id.
  Proof.
    rewrite Forall_forall. intros H (e & ps & He & Hop). apply elem_of_app in He as [He|He].
    - by exists e, ps.
    - destruct (H e He) as (c & ps' & Hop' & _). congruence.
  Qed.

  (** Every client is answered by the first turn after its submission. *)
  Lemma answered (l1 l2 : list ui_step) (c : nat) (ps : list problem) (s : ui_system) (acts : list ui_act) :
    fl_auto_accept f = false ->
    system_run fixes apply f ui_system_init (l1 ++ USubmit c ps :: l2) = Some (s, acts) ->
    NoDup (submitters (l1 ++ USubmit c ps :: l2)) ->
    (Forall (fun a => ~ is_turn a) l2 ->
       answers acts c = [] /\ forall i, exists s' acts', system_step fixes apply f s (UTurn i) = Stepped s' acts') /\
    (forall b1 i b2, l2 = b1 ++ UTurn i :: b2 -> Forall (fun a => ~ is_turn a) b1 ->
       ((exists p, p ∈ submissions (l1 ++ USubmit c ps :: b1) /\ objects f p) -> answers acts c = [GiveUp]) /\
       ((forall p, p ∈ submissions (l1 ++ USubmit c ps :: b1) -> ~ objects f p) -> answers acts c = [Continue])).
  Proof.
    intros Hauto Hrun Hnd.
    pose proof (run_reached _ _ _ Hauto Hrun) as HR.
    rewrite system_run_app in Hrun.
    destruct (system_run fixes apply f ui_system_init l1) as [[s1 acts1]|] eqn:E1; [|done].
    pose proof (run_reached _ _ _ Hauto E1) as R1.
    change (USubmit c ps :: l2) with ([USubmit c ps] ++ l2) in Hrun. rewrite system_run_app in Hrun.
    destruct (system_run fixes apply f s1 [USubmit c ps]) as [[s2 acts2]|] eqn:E2; [|done].
    destruct (system_run fixes apply f s2 l2) as [[s3 acts3]|] eqn:E3; [|done].
    injection Hrun as -> <-.
    apply system_run_one in E2. pose proof (step_submit _ _ _ _ _ _ _ R1 E2) as (R2 & Hev & e & -> & Hop & Hne & Hs).
    destruct HR as [Hh Hr Hc _ _ Hall].
    assert (Hes : store_events (acts1 ++ [AStore e] ++ acts3) = store_events acts1 ++ e :: store_events acts3).
    { by rewrite store_events_app. }
    rewrite Hes in Hh, Hc, Hall.
    destruct (outcomes s.(us_store) _ (store_events acts1) e (store_events acts3) c ps Hh) as (H3 & HC & HG).
    { by rewrite Hc. } { done. } { done. }
    unfold answers. rewrite Hes.
    assert (Hid : exists id, id ∈ se_ids e).
    { destruct (se_ids e) as [|x xs] eqn:Ei; [|exists x; left].
      pose proof (ids_length _ _ _ _ (re_history _ _ _ R1) Hs) as Hl. rewrite Hop, Ei in Hl. cbn in Hl.
      by destruct ps. }
    assert (Hnc : forall a, Forall add_event a -> ~ all_closed (store_events acts1 ++ e :: a) (se_ids e)).
    { intros a Ha Hcl. destruct Hid as [id Hid].
      assert (closed (store_events acts1 ++ e :: a) id) as Hx.
      { apply Hcl. exists id. split; [done|apply rtc_refl]. }
      apply adds_closed in Hx; [|constructor; [by exists c, ps|done]].
      by destruct (never_reused _ _ _ _ _ (re_history _ _ _ R1) Hs Hx). }
    split.
    - intros Hno. destruct (only_submits _ _ _ _ Hno E3) as (Hadd & Hle & Hrun3). split.
      + destruct H3 as [?|[Hx|Hx]]; [done| |]; exfalso.
        * apply HC in Hx as (a & b & Hab & _ & Hcl). apply (Hnc a); [|done].
          rewrite Hab in Hadd. by apply Forall_app in Hadd as [? _].
        * apply HG in Hx as (a & x & b & Hab & _ & Hx & _). rewrite Hab in Hadd.
          apply Forall_app in Hadd as [_ Hadd]. apply Forall_cons in Hadd as [(c' & ps' & Hx' & _) _].
          congruence.
      + intros i. cbn [system_step]. rewrite Hr.
        destruct (us_events s) as [|n] eqn:En; [lia|]. unfold null_turn. rewrite Hauto.
        destruct (report_spec f (us_store s) _ Hh) as (s' & acts' & E & _). rewrite E. eauto.
    - intros b1 i b2 -> Hno. rewrite system_run_app in E3.
      destruct (system_run fixes apply f s2 b1) as [[s4 acts4]|] eqn:E4; [|done].
      destruct (only_submits _ _ _ _ Hno E4) as (Hadd & _).
      change (UTurn i :: b2) with ([UTurn i] ++ b2) in E3. rewrite system_run_app in E3.
      destruct (system_run fixes apply f s4 [UTurn i]) as [[s5 acts5]|] eqn:E5; [|done].
      destruct (system_run fixes apply f s5 b2) as [[s6 acts6]|] eqn:E6; [|done].
      injection E3 as -> <-.
      assert (R4 : reached (l1 ++ USubmit c ps :: b1) s4 (acts1 ++ AStore e :: acts4)).
      { apply run_reached; [done|]. rewrite system_run_app, E1.
        change (USubmit c ps :: b1) with ([USubmit c ps] ++ b1). rewrite system_run_app.
        cbn [system_run]. rewrite E2. by rewrite E4. }
      apply system_run_one in E5.
      destruct (step_turn _ _ _ _ _ _ Hauto R4 E5) as (R5 & _ & Hcase).
      rewrite !store_events_app in HC, HG, Hh |- *.
      split.
      + intros Hex. destruct Hcase as [(_ & [sent Hs5] & _)|(Hno5 & _)].
        2:{ destruct Hex as (p & Hin & Hobj). by destruct (Hno5 p Hin). }
        apply HG. rewrite Hs5. exists (store_events acts4), (StoreEvent SAbort [] sent), (store_events acts6).
        split; [done|]. split; [by apply adds_no_abort|]. split; [done|]. by apply Hnc.
      + intros Hfine. destruct Hcase as [((p & Hin & Hobj) & _)|(_ & Hnone & Hres & _)].
        { by destruct (Hfine p Hin). }
        apply HC. exists (store_events acts4 ++ store_events acts5), (store_events acts6).
        split; [by rewrite app_assoc|]. split.
        * intros x Hx. apply elem_of_app in Hx as [Hx|Hx]; [by apply (adds_no_abort _ Hadd)|].
          unfold only_resolves in Hres. rewrite Forall_forall in Hres.
          destruct (Hres x Hx) as [[id ->] _]. done.
        * destruct R5 as [Hh5 _ _ _ _ Hall5].
          assert (Hes5 : store_events ((acts1 ++ AStore e :: acts4) ++ acts5) =
                         store_events acts1 ++ e :: store_events acts4 ++ store_events acts5).
          { rewrite !store_events_app. cbn. by rewrite <- app_assoc. }
          rewrite Hes5 in Hh5, Hall5.
          intros id (id0 & Hid0 & Hstem).
          assert (id = id0) as ->.
          { destruct Hstem as [|x y z (ev & ps' & Hev' & Hopv & Hin) _]; [done|]. exfalso.
            rewrite Forall_forall in Hall5. destruct (Hall5 ev Hev') as [(c' & ps'' & Hx & _)|[[_ Hx]|Hx]].
            - congruence.
            - rewrite Hx in Hin. by apply elem_of_nil in Hin.
            - congruence. }
          destruct (decide (st_problems (us_store s5) !! id0 = Some None)) as [Hd|Hd];
            [by apply (closed_iff _ _ _ Hh5)|].
          exfalso. destruct (open_unless_closed _ _ id0 Hh5) as [q Hq].
          { apply elem_of_list_lookup in Hid0 as [k Hk].
            assert (is_Some (ps !! k)) as [p Hp].
            { apply lookup_lt_is_Some. pose proof (ids_length _ _ _ _ (re_history _ _ _ R1) Hs) as Hl.
              rewrite Hop in Hl. cbn in Hl. rewrite <- Hl. by apply lookup_lt_Some in Hk. }
            exists p. exists e, k. split_and!; [|by rewrite Hop|done].
            apply elem_of_app. right. left. }
          { by rewrite (closed_iff _ _ _ Hh5). }
          unfold is_open in Hq. rewrite Hnone in Hq. by apply elem_of_nil in Hq.
  Qed.
End runs.

(** ** Automatic fixes *)

Lemma open_from_insert_mid (l : list (option problem)) :
  forall (n id : nat) (p : problem) (before rest : list (nat * problem)),
  open_from n l = before ++ (id, p) :: rest ->
  open_from n (<[id - n := None]> l) = before ++ rest /\ n <= id.
Proof.
  induction l as [|[q|] l IH]; intros n id p before rest; cbn.
  - by destruct before.
  - destruct before as [|b before]; cbn.
    + intros [= -> -> <-]. rewrite Nat.sub_diag. done.
    + intros [= <- H]. destruct (IH _ _ _ _ _ H) as [H1 H2]. replace (id - n) with (S (id - S n)) by lia.
      cbn. split; [f_equal; exact H1|lia].
  - intros H. destruct (IH _ _ _ _ _ H) as [H1 H2]. replace (id - n) with (S (id - S n)) by lia.
    cbn. split; [done|lia].
Qed.

Lemma resolve_open_mid (s s' : store) (id : nat) (p : problem) (before rest : list (nat * problem))
    (e : store_event) :
  store_open s = before ++ (id, p) :: rest -> store_step s (SReplace id []) = Some (s', e) ->
  store_open s' = before ++ rest.
Proof.
  intros Ho Hs. unfold store_open in *. rewrite (resolve_problems _ _ _ _ Hs).
  destruct (open_from_insert_mid _ _ _ _ _ _ Ho) as [H _]. by rewrite Nat.sub_0_r in H.
Qed.

Section accept.
  Context (fixes : problem -> config -> list edit) (apply : edit -> table -> option table).

  Lemma first_sensible_spec (c : config) (l : list (nat * problem)) :
    match first_sensible_edit fixes c l with
    | None => fixable fixes c l = [] /\ unfixable fixes c l = l
    | Some (id, x) => exists before p rest, l = before ++ (id, p) :: rest /\
        fixable fixes c l = (id, x) :: fixable fixes c rest /\ fixable fixes c (before ++ rest) = fixable fixes c rest /\
        unfixable fixes c l = unfixable fixes c (before ++ rest)
    end.
  Proof.
    induction l as [|[id p] l IH]; cbn [first_sensible_edit]; [done|].
    destruct (fixes p c) as [|x xs] eqn:E.
    - destruct (first_sensible_edit fixes c l) as [[id' x]|].
      + destruct IH as (before & p' & rest & -> & H1 & H2 & H3). exists ((id, p) :: before), p', rest.
        split; [done|]. split; [|split].
        * unfold fixable in *. cbn. rewrite E. cbn. exact H1.
        * unfold fixable in *. cbn. rewrite E. cbn. exact H2.
        * unfold unfixable in *. cbn [app]. rewrite !filter_cons. cbn. rewrite decide_True by done.
          rewrite decide_True by done. by rewrite H3.
      + destruct IH as [H1 H2]. split.
        * unfold fixable in *. cbn. rewrite E. cbn. exact H1.
        * unfold unfixable in *. rewrite filter_cons. cbn. rewrite decide_True by done. by rewrite H2.
    - exists [], p, l. split; [done|]. split; [|split; [done|]].
      + unfold fixable. cbn. rewrite E. done.
      + unfold unfixable. cbn [app]. rewrite filter_cons. cbn. rewrite decide_False by (by rewrite E). done.
  Qed.

  Lemma accept_loop_spec (fuel : nat) : forall (c : config) (s : store) (es : list store_event) (d : table),
    history s es -> length (fixable fixes c (store_open s)) <= fuel ->
    exists s' acts r, accept_loop fixes apply fuel c s d = Some (s', acts, r) /\
      history s' (es ++ store_events acts) /\ only_resolves (store_events acts) /\
      Forall (fun a => exists e, a = AStore e) acts /\ st_aborted s' = st_aborted s /\
      r = apply_in_order apply (fixable fixes c (store_open s)).*2 d /\
      (is_Some r -> resolved acts = (fixable fixes c (store_open s)).*1 /\
                    store_open s' = unfixable fixes c (store_open s)).
  Proof.
    induction fuel as [|fuel IH]; intros c s es d Hh Hl; cbn [accept_loop];
      pose proof (first_sensible_spec c (store_open s)) as HF;
      destruct (first_sensible_edit fixes c (store_open s)) as [[id x]|].
    - destruct HF as (before & p & rest & _ & H & _). rewrite H in Hl. cbn in Hl. lia.
    - destruct HF as [H1 H2]. exists s, [], (Some d). rewrite H1, H2. cbn. rewrite app_nil_r.
      split_and!; try done; constructor.
    - destruct HF as (before & p & rest & Ho & H1 & H2 & H3). rewrite H1 in Hl |- *.
      cbn [fmap list_fmap snd fst apply_in_order].
      destruct (apply x d) as [d'|].
      2:{ exists s, [], None. cbn. rewrite app_nil_r. split_and!; try done; try constructor; by destruct H. }
      destruct (resolve_possible s es id p Hh) as (s1 & e & Hs).
      { unfold is_open. rewrite Ho. apply elem_of_app. right. left. }
      unfold ui_resolve. rewrite Hs.
      pose proof (history_step _ _ _ _ _ Hh Hs) as Hh1.
      pose proof (resolve_open_mid _ _ _ _ _ _ _ Ho Hs) as Ho1.
      destruct (IH c s1 (es ++ [e]) d' Hh1) as (s2 & acts & r & E2 & Hh2 & Hr & Hf & Ha & Hr2 & Hok).
      { rewrite Ho1, H2. cbn in Hl. lia. }
      rewrite E2. exists s2, (AStore e :: acts), r. cbn [store_events omap list_omap].
      rewrite Ho1, H2 in Hr2, Hok.
      destruct (resolve_event _ _ _ _ Hs) as [He1 He2].
      split_and!; try done.
      + rewrite <- app_assoc in Hh2. exact Hh2.
      + constructor; [split; [eauto|done]|done].
      + constructor; [eauto|done].
      + rewrite Ha. cbn in Hs. unfold store_replace in Hs. destruct (st_problems s !! id) as [[q|]|]; try done.
        cbn in Hs. injection Hs as <- _. done.
      + intros Hsome. destruct (Hok Hsome) as [Hok1 Hok2]. split.
        * unfold resolved in *. cbn [store_events omap list_omap]. rewrite He1. cbn. f_equal. exact Hok1.
        * rewrite Hok2, H3. done.
    - destruct HF as [H1 H2]. exists s, [], (Some d). rewrite H1, H2. cbn. rewrite app_nil_r.
      split_and!; try done; constructor.
  Qed.

  Lemma fixable_length (c : config) (l : list (nat * problem)) : length (fixable fixes c l) <= length l.
  Proof.
    induction l as [|[id p] l IH]; [done|]. unfold fixable in *. cbn. destruct (head (fixes p c)); cbn; lia.
  Qed.

  Lemma written_store (acts : list ui_act) : Forall (fun a => exists e, a = AStore e) acts -> written acts = [].
  Proof. induction 1 as [|a l [e ->] _ IH]; [done|]. exact IH. Qed.

  Lemma written_app (a b : list ui_act) : written (a ++ b) = written a ++ written b.
  Proof. apply omap_app. Qed.
  Lemma resolved_app (a b : list ui_act) : resolved (a ++ b) = resolved a ++ resolved b.
  Proof. unfold resolved. by rewrite store_events_app, omap_app. Qed.

  Lemma report_written (f : ui_flags) (s s' : store) (es : list store_event) (acts : list ui_act) (ok : bool) :
    history s es -> report f s = Some (s', acts, ok) -> written acts = [] /\ ok = true.
  Proof.
    intros Hh. unfold report.
    assert (Hshown : forall l, written (omap (fun e : nat * problem => (fun sev => APrinted sev e.2) <$> shown_as f e.2) l) = []).
    { induction l as [|[id p] l IH]; [done|]. cbn. by destruct (shown_as f p). }
    destruct (existsb _ (store_open s)).
    - cbn [store_step]. destruct (store_abort s) as [s1 sent]. intros [= <- <- <-].
      rewrite written_app, Hshown. done.
    - destruct (resolve_all_spec (length (st_problems s)) s es Hh (open_length s))
        as (s1 & acts1 & E & _ & _ & _ & _ & Hf). rewrite E. intros [= <- <- <-].
      rewrite written_app, Hshown, (written_store _ Hf). done.
  Qed.

  (** A turn with automatic fixes. *)
  Lemma auto_turn (f : ui_flags) (i : ui_input) (s : store) (es : list store_event) (d : table) :
    fl_auto_accept f = true -> history s es -> ui_file i = Some d ->
    let fx := fixable fixes (ui_config i) (store_open s) in
    exists s' acts ok, null_turn fixes apply f i s = Some (s', acts, ok) /\
      history s' (es ++ store_events acts) /\
      match apply_in_order apply fx.*2 d with
      | Some d' =>
          if decide (fx = []) then written acts = [] /\ ok = true
          else if ui_writable i then written acts = [d'] /\ ok = true else written acts = [] /\ ok = false
      | None => written acts = [] /\ ok = false
      end /\
      (ok = true ->
         (forall id, id ∈ fx.*1 -> id ∈ resolved acts) /\
         ((exists id p, (id, p) ∈ unfixable fixes (ui_config i) (store_open s) /\ objects f p) /\
            st_aborted s' = true /\ st_entries s' = [] \/
          (forall id p, (id, p) ∈ unfixable fixes (ui_config i) (store_open s) -> ~ objects f p) /\
            st_aborted s' = st_aborted s /\ store_open s' = [])).
  Proof.
    intros Hauto Hh Hd fx. unfold null_turn, accept_all. rewrite Hauto, Hd.
    destruct (accept_loop_spec (length (st_problems s)) (ui_config i) s es d Hh)
      as (s1 & acts1 & r & E & Hh1 & Hr & Hf & Ha & Hr2 & Hok).
    { etrans; [apply fixable_length|apply open_length]. }
    rewrite E. fold fx in Hr2, Hok |- *. rewrite <- Hr2.
    pose proof (written_store _ Hf) as Hw.
    destruct r as [d'|].
    2:{ exists s1, acts1, false. split_and!; try done. by destruct acts1. }
    destruct Hok as [Hok1 Hok2]; [done|].
    assert (Hrep : forall acts0, store_events acts0 = store_events acts1 ->
      exists s' acts2, report f s1 = Some (s', acts2, true) /\
      history s' (es ++ store_events (acts0 ++ acts2)) /\ written acts2 = [] /\
      (forall id, id ∈ fx.*1 -> id ∈ resolved (acts0 ++ acts2)) /\
         ((exists id p, (id, p) ∈ unfixable fixes (ui_config i) (store_open s) /\ objects f p) /\
            st_aborted s' = true /\ st_entries s' = [] \/
          (forall id p, (id, p) ∈ unfixable fixes (ui_config i) (store_open s) -> ~ objects f p) /\
            st_aborted s' = st_aborted s /\ store_open s' = [])).
    { intros acts0 He0. destruct (report_spec f s1 _ Hh1) as (s' & acts2 & E2 & Hh2 & _ & Hcase).
      exists s', acts2. split; [done|]. split; [by rewrite store_events_app, He0, app_assoc|].
      split; [by destruct (report_written _ _ _ _ _ _ Hh1 E2)|]. split.
      - intros id Hid. rewrite resolved_app. apply elem_of_app. left. unfold resolved. rewrite He0.
        change (id ∈ resolved acts1). by rewrite Hok1.
      - rewrite <- Hok2, <- Ha. destruct Hcase as [((id & q & Hq & Hobj) & [sent Hs] & _ & Hab)|(Hno & Hn & _ & Hab)].
        + left. split; [by exists id, q|]. split; [done|].
          unfold report in E2. destruct (existsb _ (store_open s1)) eqn:Ex.
          * cbn in E2. by injection E2 as <- _.
          * exfalso. apply not_true_iff_false in Ex. apply Ex. apply existsb_exists. exists (id, q).
            split; [by apply elem_of_list_In|]. by apply bool_decide_eq_true, shown_spec.
        + right. done. }
    destruct acts1 as [|a acts1].
    - destruct (Hrep []) as (s' & acts2 & E2 & Hh2 & Hw2 & H1 & H2); [done|]. rewrite E2.
      exists s', acts2, true. split; [done|]. split; [done|]. split; [|done].
      rewrite decide_True; [done|]. cbn in Hok1. destruct fx; [done|discriminate].
    - assert (Hfx : fx <> []).
      { intros Hx. rewrite Hx in Hok1. apply Forall_cons in Hf as [[e ->] _].
        unfold only_resolves in Hr. cbn [store_events omap list_omap] in Hr.
        apply Forall_cons in Hr as [[[id He] _] _]. unfold resolved in Hok1. cbn in Hok1.
        rewrite He in Hok1. done. }
      destruct (decide (fx = [])) as [?|_]; [done|].
      destruct (ui_writable i).
      + destruct (Hrep ((a :: acts1) ++ [AWrote d'])) as (s' & acts2 & E2 & Hh2 & Hw2 & H1 & H2).
        { rewrite store_events_app. cbn. by rewrite app_nil_r. }
        rewrite E2. exists s', (((a :: acts1) ++ [AWrote d']) ++ acts2), true.
        split; [done|]. split; [done|]. split; [|done]. rewrite !written_app, Hw, Hw2. done.
      + exists s1, (a :: acts1), false. done.
  Qed.
End accept.

(** ** The exit code *)

Lemma elem_received (es : list store_event) (c : nat) (o : outcome) :
  o ∈ received es c <-> exists e, e ∈ es /\ (c, o) ∈ se_sent e.
Proof.
  unfold received. rewrite elem_of_list_omap. split.
  - intros ([c' o'] & Hin & H). cbn in H. case_bool_decide; [|done]. injection H as ->. subst.
    apply elem_of_list_In, in_concat in Hin as (x & Hx & Hin). apply in_map_iff in Hx as (e & <- & He).
    exists e. by rewrite !elem_of_list_In.
  - intros (e & He & Hin). exists (c, o). split.
    + apply elem_of_list_In, in_concat. exists (se_sent e). rewrite <- !elem_of_list_In. split; [|done].
      apply elem_of_list_In, in_map, elem_of_list_In. done.
    + cbn. by rewrite bool_decide_eq_true_2.
Qed.

Lemma give_up_aborts (s s' : store) (op : store_op) (e : store_event) (c : nat) :
  store_step s op = Some (s', e) -> (c, GiveUp) ∈ se_sent e -> st_aborted s' = true.
Proof.
  destruct op as [c' ps|id ps|]; cbn.
  - destruct (store_add s c' ps) as [[s1 ids]|]; [|done]. intros [= <- <-] H. by apply elem_of_nil in H.
  - unfold store_replace. destruct (st_problems s !! id) as [[q|]|]; [|done|done].
    destruct (add_problems _ ps) as [[s1 ids]|]; [|done]. intros [= <- <-]. cbn.
    intros H. exfalso. apply elem_of_list_In, in_concat in H as (x & Hx & Hin).
    apply in_map_iff in Hx as (y & <- & Hy). apply in_map_iff in Hy as (n & <- & _).
    unfold replace_in_entry in Hin. case_bool_decide; [|done].
    destruct (bool_decide _ && ne_sender n); cbn in Hin; [|done]. destruct Hin as [Hin|[]]. discriminate Hin.
  - intros [= <- <-] _. done.
Qed.

Lemma aborted_stays (s s' : store) (op : store_op) (e : store_event) :
  store_step s op = Some (s', e) -> st_aborted s = true -> st_aborted s' = true.
Proof.
  assert (Hadd : forall ps s s1 ids, add_problems s ps = Some (s1, ids) -> st_aborted s1 = st_aborted s).
  { clear. induction ps as [|p ps IH]; cbn; intros s s1 ids; [by intros [= <- _]|].
    unfold add_problem. destruct (key_get _ _) as [j|].
    - destruct (st_problems s !! j) as [[ex|]|]; [|done|done]. case_bool_decide.
      + destruct (add_problems s ps) as [[s2 ids2]|] eqn:E; [|done]. intros [= <- _]. by eapply IH.
      + destruct (merge_problem ex p) as [m|]; [|done].
        destruct (add_problems _ ps) as [[s2 ids2]|] eqn:E; [|done]. intros [= <- _]. by apply IH in E.
    - destruct (add_problems _ ps) as [[s2 ids2]|] eqn:E; [|done]. intros [= <- _]. by apply IH in E. }
  destruct op as [c' ps|id ps|]; cbn.
  - unfold store_add. destruct ps as [|p ps]; [done|].
    destruct (add_problems s (p :: ps)) as [[s1 ids]|] eqn:E; [|done]. intros [= <- _] H. cbn.
    by rewrite (Hadd _ _ _ _ E).
  - unfold store_replace. destruct (st_problems s !! id) as [[q|]|]; [|done|done].
    destruct (add_problems _ ps) as [[s1 ids]|] eqn:E; [|done]. intros [= <- _] H. cbn.
    by rewrite (Hadd _ _ _ _ E).
  - by intros [= <- _] _.
Qed.

Lemma not_aborted (s : store) (es : list store_event) :
  history s es -> st_aborted s = false -> nobody_gave_up es.
Proof.
  intros Hh Ha. apply not_true_iff_false in Ha. intros c Hin. apply Ha. clear Ha. revert c Hin.
  pattern s, es. revert s es Hh. apply history_ind.
  - intros c H. by apply elem_of_nil in H.
  - intros s es s' e Hh IH Hs c. rewrite elem_received. setoid_rewrite elem_of_app.
    intros (x & [Hx| ->%elem_of_list_singleton] & Hin).
    + eapply aborted_stays; [exact Hs|]. apply (IH c). apply elem_received. by exists x.
    + by eapply give_up_aborts.
Qed.

(** ** Requests *)

Lemma null_answer_spec (f : ui_flags) (ps : list problem) :
  (null_answer f ps = GiveUp <-> exists p, p ∈ ps /\ objects f p) /\
  (null_answer f ps = Continue <-> forall p, p ∈ ps -> ~ objects f p).
Proof.
  unfold null_answer. destruct (existsb _ ps) eqn:E.
  - apply existsb_exists in E as (p & Hin & H). apply elem_of_list_In in Hin.
    apply bool_decide_eq_true, shown_spec in H. split; [naive_solver|]. split; [done|].
    intros Hno. by destruct (Hno p Hin).
  - assert (Hno : forall p, p ∈ ps -> ~ objects f p).
    { intros p Hin Hobj. apply not_true_iff_false in E. apply E. apply existsb_exists. exists p.
      split; [by apply elem_of_list_In|]. by apply bool_decide_eq_true, shown_spec. }
    split; [|naive_solver]. split; [done|]. intros (p & Hin & Hobj). by destruct (Hno p Hin).
Qed.

(** ** The interface after an error *)

Lemma adds_send_nothing (es : list store_event) (s s' : store) (c : nat) (ps : list problem) (e : store_event) :
  store_step s (SAdd c ps) = Some (s', e) -> se_sent e = [].
Proof. cbn. destruct (store_add s c ps) as [[s1 ids]|]; [|done]. by intros [= <- <-]. Qed.

Lemma stopped (fixes : problem -> config -> list edit) (apply : edit -> table -> option table) (f : ui_flags)
    (l : list ui_step) : forall (s s' : ui_system) (acts : list ui_act),
  us_running s = false -> system_run fixes apply f s l = Some (s', acts) ->
  us_running s' = false /\ forall c, answers acts c = [].
Proof.
  induction l as [|a l IH]; intros s s' acts Hr; cbn [system_run]; [by intros [= <- <-]|].
  destruct a as [c ps|i]; cbn [system_step]; [|by rewrite Hr].
  destruct (store_step (us_store s) (SAdd c ps)) as [[s1 e]|] eqn:Es; [|done].
  destruct (system_run _ _ _ (UiSystem s1 _ _) l) as [[s2 acts2]|] eqn:E; [|done]. intros [= <- <-].
  destruct (IH (UiSystem s1 (S (us_events s)) (us_running s)) _ _ Hr E) as [H1 H2].
  split; [done|]. intros c'. unfold answers in *. cbn.
  unfold received. cbn. rewrite (adds_send_nothing [] _ _ _ _ _ Es). cbn. apply H2.
Qed.
