(** Facts about the output of cargo in whole runs. *)
From Verif Require Import Base WireModel WireSpec WireProofs OutputModel OutputSpec.

Lemma pieces_shown (l : list (channel * str)) (t : channel) : shown_of l t = pieces_on t l.
Proof. induction l as [|[t' s] l IH]; [done|]. unfold shown_of in *. cbn. rewrite IH. by destruct (decide (t' = t)). Qed.

Lemma out_snoc (es : list output_event) (s s' : output_state) (e : output_event) :
  output_run es = Some s -> output_step s e = Some s' -> output_run (es ++ [e]) = Some s'.
Proof. intros H1 H2. rewrite output_run_snoc, H1. exact H2. Qed.

Lemma printed_snoc (es : list output_event) (e : output_event) (t : channel) :
  printed (es ++ [e]) t = printed es t ++ match e with Printed t' b => if decide (t' = t) then b else [] | _ => [] end.
Proof. unfold printed. rewrite map_app, concat_app. cbn. by rewrite app_nil_r. Qed.

Lemma step_closed (s s' : output_state) (e : output_event) (t : channel) :
  output_step s e = Some s' ->
  pi_closed (os_pipe s' t) = pi_closed (os_pipe s t) || match e with Closed t' => bool_decide (t = t') | _ => false end.
Proof.
  intros H. destruct e; cbn [output_step] in H; repeat case_match; simplify_eq; cbn; repeat case_decide; simplify_eq; cbn;
    rewrite ?orb_false_r, ?orb_true_r; try done; try (by destruct (pi_closed _)).
  all: rewrite ?bool_decide_eq_true_2, ?bool_decide_eq_false_2 by done; rewrite ?orb_true_r, ?orb_false_r; try done.
  all: repeat match goal with X : _ && _ = true |- _ => apply andb_true_iff in X as [? ?] end; congruence.
Qed.

Lemma step_locked (s s' : output_state) (e : output_event) :
  output_step s e = Some s' -> os_locked s' = match e with TakeLock => true | GiveLock => false | _ => os_locked s end.
Proof. intros H. destruct e; cbn [output_step] in H; repeat case_match; simplify_eq; done. Qed.

Lemma close_both_some (s : output_state) : exists s', close_both s = Some s'.
Proof. unfold close_both. cbn. by eexists. Qed.

Lemma close_both_run (es : list output_event) (s s' : output_state) :
  output_run es = Some s -> close_both s = Some s' ->
  output_run ((es ++ [Closed Stdout]) ++ [Closed Stderr]) = Some s' /\
  (forall t, pi_closed (os_pipe s' t) = true) /\ os_locked s' = os_locked s.
Proof.
  intros H1 H2. unfold close_both in H2. destruct (output_step s (Closed Stdout)) as [s1|] eqn:E1; [|done]. cbn [mbind option_bind] in H2.
  split; [eapply out_snoc; [eapply out_snoc; [exact H1|exact E1]|exact H2]|]. split.
  - intros t. rewrite (step_closed _ _ _ t H2), (step_closed _ _ _ t E1). destruct t; cbn; by rewrite ?orb_true_r.
  - by rewrite (step_locked _ _ _ H2), (step_locked _ _ _ E1).
Qed.

(** What is the case in the course of a run. *)
Record course (todo : list (channel * ascii)) (ok quit : bool) (w : whole_run_state) : Prop := Course {
  co_out : exists es, output_run es = Some (wr_out w) /\
             forall t, exists cut, printed es t ++ text_on t (wr_todo w) ++ cut = text_on t todo /\ (quit = false -> cut = []);
  co_closed : forall t, pi_closed (os_pipe (wr_out w) t) = negb (wr_running w);
  co_ended : wr_running w = false -> wr_todo w = [];
  co_phase : wr_phase w <> Building -> wr_running w = false;
  co_lock : wr_phase w = Alone \/ wr_phase w = Exited -> os_locked (wr_out w) = false;
  co_exited : wr_phase w = Exited -> wr_ok w = true -> output_waited (wr_out w) = true;
  co_ok : quit = false -> wr_ok w = ok }.

Lemma course_start (todo : list (channel * ascii)) (ok : bool) : course todo ok false (run_start todo ok).
Proof.
  constructor; cbn; try done; try (intros [?|?]; done).
  exists []. split; [done|]. intros t. exists []. by rewrite app_nil_r.
Qed.

(** A step of a thread, or one that only takes or gives the lock. *)
Lemma course_out (todo : list (channel * ascii)) (ok quit : bool) (l : list (channel * ascii)) (k r : bool) (p : phase)
    (o o' : output_state) (e : output_event) :
  course todo ok quit (WholeRun l k r p o) -> output_step o e = Some o' ->
  match e with Printed _ _ | Closed _ => False | TakeLock => p = Building | _ => True end -> p <> Exited ->
  course todo ok quit (WholeRun l k r p o').
Proof.
  intros [(es & He & Ht) Hc Hend Hp Hl Hx Hk] Hs Hev Hne. cbn [wr_out wr_todo wr_running wr_phase wr_ok] in *. constructor; cbn; try done.
  - exists (es ++ [e]). split; [by eapply out_snoc|]. intros t. destruct (Ht t) as (cut & Hcut & Hq). exists cut.
    rewrite printed_snoc. split; [|done]. destruct e; try done; by rewrite app_nil_r.
  - intros t. rewrite (step_closed _ _ _ t Hs), Hc. destruct e; try done; by rewrite orb_false_r.
  - intros Ha. rewrite (step_locked _ _ _ Hs). destruct e; try done; try (by apply Hl). destruct Ha; congruence.
Qed.

Global Instance run_event_eq_dec : EqDecision run_event.
Proof. solve_decision. Defined.

Lemma course_step (capacity : nat) (todo : list (channel * ascii)) (ok quit : bool) (w w' : whole_run_state) (e : run_event) :
  course todo ok quit w -> run_step capacity w e = Some w' ->
  course todo ok (quit || bool_decide (e = UserQuits)) w'.
Proof.
  intros Hw Hs. destruct w as [l k r p o]. cbn [run_step] in Hs. destruct (decide (p = Exited)) as [|Hne]; [done|].
  destruct e as [| | | | | | |t [size|]].
  - rewrite orb_false_r. destruct l as [|[t c] l]; [done|].
    destruct (r && Nat.ltb (length (pi_waiting (os_pipe o t))) capacity) eqn:Eg; [|done].
    apply andb_true_iff in Eg as [-> _].
    destruct (output_step o (Printed t [c])) as [o'|] eqn:Eo; [|done]. injection Hs as <-.
    destruct Hw as [(es & He & Ht) Hc Hend Hp Hl Hx Hk]. cbn [wr_out wr_todo wr_running wr_phase wr_ok] in *. constructor; cbn; try done.
    + exists (es ++ [Printed t [c]]). split; [by eapply out_snoc|]. intros t'. destruct (Ht t') as (cut & Hcut & Hq).
      exists cut. rewrite printed_snoc. split; [|done]. rewrite <- Hcut. cbn [text_on]. destruct (decide (t = t')); cbn;
      rewrite ?app_nil_r, <- ?app_assoc; done.
    + intros t'. rewrite (step_closed _ _ _ t' Eo), Hc. done.
    + intros Ha. rewrite (step_locked _ _ _ Eo). by apply Hl.
  - rewrite orb_false_r. destruct l as [|? l]; [|done]. destruct r; [|done].
    destruct (close_both o) as [o'|] eqn:Eo; [|done]. injection Hs as <-.
    destruct Hw as [(es & He & Ht) Hc Hend Hp Hl Hx Hk]. cbn [wr_out wr_todo wr_running wr_phase wr_ok] in *.
    destruct (close_both_run es o o' He Eo) as (Hr & Hcl & Hlk). constructor; cbn; try done.
    + eexists. split; [exact Hr|]. intros t'. destruct (Ht t') as (cut & Hcut & Hq). exists cut.
      rewrite !printed_snoc, !app_nil_r. by split.
    + intros Ha. rewrite Hlk. by apply Hl.
  - rewrite orb_false_r. destruct (decide (p = Building)) as [->|]; [|done].
    destruct (output_step o TakeLock) as [o'|] eqn:Eo; [|done]. injection Hs as <-. by eapply course_out.
  - rewrite orb_false_r. destruct (decide (p = Building)) as [->|]; [|done]. destruct r; [done|]. injection Hs as <-.
    destruct Hw as [(es & He & Ht) Hc Hend Hp Hl Hx Hk]. cbn [wr_out wr_todo wr_running wr_phase wr_ok] in *. constructor; cbn; try done; [by exists es|intros [?|?]; done].
  - rewrite orb_false_r. destruct (decide (p = Told)) as [->|]; [|done].
    assert (Hgo : forall o', course todo ok quit (WholeRun l k r Told o') -> os_locked o' = false ->
                    course todo ok quit (WholeRun l k r Alone o')).
    { intros o' [(es & He & Ht) Hc Hend Hp Hl Hx Hk] Hlk. cbn [wr_out wr_todo wr_running wr_phase wr_ok] in *. constructor; cbn; try done; [by exists es|by intros _; apply Hp]. }
    destruct (os_locked o) eqn:El.
    + destruct (output_step o GiveLock) as [o'|] eqn:Eo; [|done]. injection Hs as <-. apply Hgo.
      * by eapply course_out.
      * by rewrite (step_locked _ _ _ Eo).
    + injection Hs as <-. by apply Hgo.
  - rewrite orb_false_r. destruct (decide (p = Alone)) as [->|]; [|done].
    destruct (k && negb (output_waited o)) eqn:Eg; [done|]. injection Hs as <-.
    destruct Hw as [(es & He & Ht) Hc Hend Hp Hl Hx Hk]. cbn [wr_out wr_todo wr_running wr_phase wr_ok] in *. constructor; cbn; try done.
    + by exists es.
    + intros _. by apply Hp.
    + intros _. apply Hl. by left.
    + intros _ ->. cbn in Eg. by apply negb_false_iff.
  - rewrite bool_decide_eq_true_2, orb_true_r by done. destruct (r && os_locked o) eqn:Eg; [|done].
    destruct (close_both o) as [o'|] eqn:Eo; [|done]. injection Hs as <-.
    destruct Hw as [(es & He & Ht) Hc Hend Hp Hl Hx Hk]. cbn [wr_out wr_todo wr_running wr_phase wr_ok] in *.
    destruct (close_both_run es o o' He Eo) as (Hr & Hcl & Hlk). constructor; cbn; try done.
    + eexists. split; [exact Hr|]. intros t'. destruct (Ht t') as (cut & Hcut & Hq). exists (text_on t' l ++ cut).
      rewrite !printed_snoc, !app_nil_r. by split.
    + intros Ha. rewrite Hlk. by apply Hl.
  - rewrite orb_false_r. destruct (output_step o (ReadPipe t size)) as [o'|] eqn:Eo; [|done]. injection Hs as <-. by eapply course_out.
  - rewrite orb_false_r. destruct (output_step o (PassOn t)) as [o'|] eqn:Eo.
    + injection Hs as <-. by eapply course_out.
    + destruct (output_step o (SeeEnd t)) as [o'|] eqn:Eo'; [|done]. injection Hs as <-. by eapply course_out.
Qed.

Lemma run_steps_cons (capacity : nat) (w : whole_run_state) (e : run_event) (es : list run_event) :
  run_steps capacity w (e :: es) = (w' ← run_step capacity w e; run_steps capacity w' es).
Proof.
  unfold run_steps. cbn [fold_left mbind option_bind]. destruct (run_step capacity w e); [done|]. cbn.
  induction es as [|e' es IH]; [done|]. exact IH.
Qed.

Lemma run_steps_app (capacity : nat) (w w' : whole_run_state) (es es' : list run_event) :
  run_steps capacity w es = Some w' -> run_steps capacity w (es ++ es') = run_steps capacity w' es'.
Proof. intros H. unfold run_steps in *. by rewrite fold_left_app, H. Qed.

Lemma course_steps (capacity : nat) (todo : list (channel * ascii)) (ok quit : bool) (es : list run_event) (w w' : whole_run_state) :
  course todo ok quit w -> run_steps capacity w es = Some w' ->
  exists quit', course todo ok quit' w' /\ (UserQuits ∉ es -> quit' = quit).
Proof.
  revert w quit. induction es as [|e es IH]; intros w quit Hw Hs.
  - injection Hs as <-. by exists quit.
  - rewrite run_steps_cons in Hs. destruct (run_step capacity w e) as [w1|] eqn:E1; [|done]. cbn [mbind option_bind] in Hs.
    destruct (IH w1 _ (course_step _ _ _ _ _ _ _ Hw E1) Hs) as (q & Hc & Hq). exists q. split; [done|].
    intros Hn. apply not_elem_of_cons in Hn as [Hn1 Hn2]. rewrite (Hq Hn2).
    rewrite bool_decide_eq_false_2 by congruence. by rewrite orb_false_r.
Qed.

(** ** Going on *)

Definition as_run (e : output_event) : run_event :=
  match e with ReadPipe t n => Passes t (Some n) | PassOn t | SeeEnd t => Passes t None | _ => CargoPrints end.

Lemma pass_steps (capacity : nat) (es : list output_event) (l : list (channel * ascii)) (k r : bool) (p : phase) (o o' : output_state) :
  p <> Exited -> Forall passing es -> steps o es = Some o' ->
  run_steps capacity (WholeRun l k r p o) (map as_run es) = Some (WholeRun l k r p o').
Proof.
  intros Hp. revert o. induction es as [|e es IH]; intros o Hf Hs.
  - injection Hs as <-. done.
  - apply Forall_cons in Hf as [He Hf]. cbn [map]. rewrite run_steps_cons.
    assert (Hx : exists o1, output_step o e = Some o1).
    { unfold steps in Hs. cbn [fold_left mbind option_bind] in Hs. destruct (output_step o e) as [o1|]; [by exists o1|].
      exfalso. clear -Hs. induction es; cbn in *; [done|auto]. }
    destruct Hx as [o1 E1]. rewrite (steps_cons o o1 e es E1) in Hs.
    assert (Hr : run_step capacity (WholeRun l k r p o) (as_run e) = Some (WholeRun l k r p o1)).
    { destruct e as [| | | |t n|t|t]; try done; cbn [as_run run_step]; rewrite decide_False by done.
      - by rewrite E1.
      - by rewrite E1.
      - assert (E2 : output_step o (PassOn t) = None).
        { cbn [output_step] in E1 |- *. by destruct (pi_held (os_pipe o t)). }
        rewrite E2, E1. done. }
    rewrite Hr. cbn [mbind option_bind]. by apply IH.
Qed.

Lemma no_quit (es : list output_event) : Forall passing es -> UserQuits ∉ map as_run es.
Proof.
  intros H. induction H as [|e es He _ IH]; cbn; [apply not_elem_of_nil|]. apply not_elem_of_cons. split; [|done].
  by destruct e.
Qed.

Lemma finish (capacity : nat) (todo : list (channel * ascii)) (ok quit : bool) (w : whole_run_state) :
  course todo ok quit w -> wr_phase w <> Exited -> wr_running w = false ->
  exists es w', UserQuits ∉ es /\ run_steps capacity w es = Some w' /\ wr_phase w' = Exited.
Proof.
  assert (HA : forall w, course todo ok quit w -> wr_phase w = Alone ->
            exists es w', UserQuits ∉ es /\ run_steps capacity w es = Some w' /\ wr_phase w' = Exited).
  { intros [l k r p o] Hw Hp. cbn in Hp. subst p. pose proof (co_phase _ _ _ _ Hw) as Hr. cbn in Hr. rewrite (Hr ltac:(done)) in *.
    pose proof (co_lock _ _ _ _ Hw (or_introl eq_refl)) as Hl. pose proof (co_closed _ _ _ _ Hw) as Hc.
    destruct (co_out _ _ _ _ Hw) as (oes & Ho & _). cbn [wr_out wr_running negb] in *.
    destruct (output_ends oes o Ho Hc Hl) as (es & o' & Hpass & Hrun & Hwait).
    assert (Hs : steps o es = Some o').
    { unfold output_run in *. rewrite fold_left_app, Ho in Hrun. exact Hrun. }
    exists (map as_run es ++ [MainExits]), (WholeRun l k false Exited o'). split; [|split; [|done]].
    - intros Hin. apply elem_of_app in Hin as [Hin|Hin]; [by apply (no_quit es)|]. by apply elem_of_list_singleton in Hin.
    - rewrite (run_steps_app _ _ _ _ _ (pass_steps capacity es l k false Alone o o' ltac:(done) Hpass Hs)).
      cbn. rewrite Hwait, andb_false_r. done. }
  assert (HT : forall w, course todo ok quit w -> wr_phase w = Told ->
            exists es w', UserQuits ∉ es /\ run_steps capacity w es = Some w' /\ wr_phase w' = Exited).
  { intros w0 Hw Hp. assert (Hs : exists w1, run_step capacity w0 UiCloses = Some w1 /\ wr_phase w1 = Alone).
    { destruct w0 as [l k r p o]. cbn in Hp. subst p. cbn. destruct (os_locked o); cbn; by eexists. }
    destruct Hs as (w1 & Hs & Hp1).
    assert (Hc : course todo ok quit w1).
    { pose proof (course_step _ _ _ _ _ _ _ Hw Hs) as H. by rewrite orb_false_r in H. }
    destruct (HA w1 Hc Hp1) as (es & w' & Hn & Hr & Hx). exists (UiCloses :: es), w'. split; [|split; [|done]].
    - apply not_elem_of_cons. by split.
    - rewrite run_steps_cons, Hs. exact Hr. }
  intros Hw Hne Hr. destruct (wr_phase w) eqn:Hp.
  - assert (Hs : exists w1, run_step capacity w CargoSeen = Some w1 /\ wr_phase w1 = Told).
    { destruct w as [l k r p o]. cbn in *. subst p r. cbn. by eexists. }
    destruct Hs as (w1 & Hs & Hp1).
    assert (Hc : course todo ok quit w1).
    { pose proof (course_step _ _ _ _ _ _ _ Hw Hs) as H. by rewrite orb_false_r in H. }
    destruct (HT w1 Hc Hp1) as (es & w' & Hn & Hrn & Hx). exists (CargoSeen :: es), w'. split; [|split; [|done]].
    + apply not_elem_of_cons. by split.
    + rewrite run_steps_cons, Hs. exact Hrn.
  - by apply HT.
  - by apply HA.
  - done.
Qed.

(** Once cargo has printed everything. *)
Lemma finish_printed (capacity : nat) (todo : list (channel * ascii)) (ok quit : bool) (w : whole_run_state) :
  course todo ok quit w -> wr_phase w <> Exited -> wr_todo w = [] ->
  exists es w', UserQuits ∉ es /\ run_steps capacity w es = Some w' /\ wr_phase w' = Exited.
Proof.
  intros Hw Hne Ht. destruct (wr_running w) eqn:Hr; [|by eapply finish].
  assert (Hs : exists w1, run_step capacity w CargoEnds = Some w1 /\ wr_phase w1 = wr_phase w /\ wr_running w1 = false).
  { destruct w as [l k r p o]. cbn in *. subst l r. cbn. rewrite decide_False by done. by eexists. }
  destruct Hs as (w1 & Hs & Hp1 & Hr1).
  pose proof (course_step _ _ _ _ _ _ _ Hw Hs) as Hc.
  destruct (finish capacity _ _ _ w1 Hc) as (es & w' & Hn & Hrn & Hx); [congruence|done|].
  exists (CargoEnds :: es), w'. split; [apply not_elem_of_cons; by split|]. split; [|done].
  rewrite run_steps_cons, Hs. exact Hrn.
Qed.

(** Into pipes that have room cargo can print whatever the interface does. *)
Lemma print_room (capacity : nat) (l : list (channel * ascii)) (k : bool) (p : phase) (o : output_state) :
  p <> Exited -> (forall t, pi_closed (os_pipe o t) = false) ->
  (forall t, length (pi_waiting (os_pipe o t)) + length (text_on t l) <= capacity) ->
  exists es o', UserQuits ∉ es /\ run_steps capacity (WholeRun l k true p o) es = Some (WholeRun [] k true p o').
Proof.
  intros Hp. revert o. induction l as [|[t c] l IH]; intros o Hc Hroom.
  - exists [], o. split; [apply not_elem_of_nil|done].
  - destruct (output_step o (Printed t [c])) as [o1|] eqn:E1; [|exfalso; cbn [output_step] in E1; by rewrite Hc in E1].
    assert (Hw : forall t', pi_waiting (os_pipe o1 t') = pi_waiting (os_pipe o t') ++ (if decide (t = t') then [c] else [])).
    { intros t'. cbn [output_step] in E1. rewrite Hc in E1. injection E1 as <-. cbn. destruct (decide (t' = t)) as [->|].
      - by rewrite decide_True.
      - rewrite decide_False by done. by rewrite app_nil_r. }
    destruct (IH o1) as (es & o' & Hn & Hr).
    { intros t'. by rewrite (step_closed _ _ _ t' E1), Hc. }
    { intros t'. specialize (Hroom t'). cbn [text_on] in Hroom. rewrite Hw, app_length.
      destruct (decide (t = t')); cbn [length] in *; lia. }
    exists (CargoPrints :: es), o'. split; [apply not_elem_of_cons; by split|].
    rewrite run_steps_cons. cbn [run_step]. rewrite decide_False by done.
    assert (Hlt : Nat.ltb (length (pi_waiting (os_pipe o t))) capacity = true).
    { apply Nat.ltb_lt. specialize (Hroom t). cbn [text_on] in Hroom. rewrite decide_True in Hroom by done. cbn in Hroom. lia. }
    rewrite Hlt, E1. exact Hr.
Qed.

(** Without the interface the threads make room. *)
Lemma print_free (capacity : nat) (l : list (channel * ascii)) (k : bool) (p : phase) (o : output_state) :
  p <> Exited -> 0 < capacity -> (forall t, pi_closed (os_pipe o t) = false) -> (forall t, pi_ended (os_pipe o t) = false) ->
  os_locked o = false ->
  exists es o', UserQuits ∉ es /\ run_steps capacity (WholeRun l k true p o) es = Some (WholeRun [] k true p o').
Proof.
  intros Hp Hcap. revert o. induction l as [|[t c] l IH]; intros o Hc He Hl.
  - exists [], o. split; [apply not_elem_of_nil|done].
  - assert (Hone : exists es o1, UserQuits ∉ es /\
              run_steps capacity (WholeRun ((t, c) :: l) k true p o) es = Some (WholeRun ((t, c) :: l) k true p o1) /\
              (forall t, pi_closed (os_pipe o1 t) = false) /\ (forall t, pi_ended (os_pipe o1 t) = false) /\ os_locked o1 = false /\
              length (pi_waiting (os_pipe o1 t)) < capacity).
    { destruct (decide (length (pi_waiting (os_pipe o t)) < capacity)) as [Hlt|Hge].
      { exists [], o. split; [apply not_elem_of_nil|]. by split_and!. }
      assert (Hread : forall o, (forall t, pi_closed (os_pipe o t) = false) -> (forall t, pi_ended (os_pipe o t) = false) ->
                os_locked o = false -> pi_held (os_pipe o t) = None ->
                exists es o1, UserQuits ∉ es /\
                run_steps capacity (WholeRun ((t, c) :: l) k true p o) es = Some (WholeRun ((t, c) :: l) k true p o1) /\
                (forall t, pi_closed (os_pipe o1 t) = false) /\ (forall t, pi_ended (os_pipe o1 t) = false) /\ os_locked o1 = false /\
                length (pi_waiting (os_pipe o1 t)) < capacity).
      { assert (Hmany : forall n o, length (pi_waiting (os_pipe o t)) < capacity + n ->
                  (forall t, pi_closed (os_pipe o t) = false) -> (forall t, pi_ended (os_pipe o t) = false) ->
                  os_locked o = false -> pi_held (os_pipe o t) = None ->
                  exists es o1, UserQuits ∉ es /\
                  run_steps capacity (WholeRun ((t, c) :: l) k true p o) es = Some (WholeRun ((t, c) :: l) k true p o1) /\
                  (forall t, pi_closed (os_pipe o1 t) = false) /\ (forall t, pi_ended (os_pipe o1 t) = false) /\ os_locked o1 = false /\
                  length (pi_waiting (os_pipe o1 t)) < capacity).
        { clear -Hp Hcap. induction n as [|n IHn]; intros o Hlen Hc He Hl Hh.
          { exists [], o. split; [apply not_elem_of_nil|]. split_and!; try done. lia. }
          destruct (decide (length (pi_waiting (os_pipe o t)) < capacity)) as [Hlt|Hge].
          { exists [], o. split; [apply not_elem_of_nil|]. by split_and!. }
          destruct (pi_waiting (os_pipe o t)) as [|d rest] eqn:Ew; [cbn in Hge; lia|].
          set (o1 := set_pipe t (Pipe rest false (Some [d]) false) o).
          set (o2 := set_pipe t (Pipe rest false None false) (OutputState (os_pipe o1) false (os_shown o1 ++ [(t, [d])]))).
          assert (E1 : output_step o (ReadPipe t 1) = Some o1).
          { cbn [output_step]. rewrite Hh, He, Ew, Hc. cbn. by rewrite drop_0. }
          assert (P1 : os_pipe o1 t = Pipe rest false (Some [d]) false) by (unfold o1; cbn; by rewrite decide_True).
          assert (E2 : output_step o1 (PassOn t) = Some o2).
          { cbn [output_step]. rewrite P1. cbn [pi_held]. change (os_locked o1) with (os_locked o). by rewrite Hl. }
          assert (P2 : forall t', os_pipe o2 t' = if decide (t' = t) then Pipe rest false None false else os_pipe o t').
          { intros t'. unfold o2, o1. cbn. by destruct (decide (t' = t)). }
          destruct (IHn o2) as (es & o3 & Hn & Hr & Hrest).
          { rewrite P2, decide_True by done. cbn in Hlen |- *. lia. }
          { intros t'. rewrite P2. by destruct (decide (t' = t)). }
          { intros t'. rewrite P2. by destruct (decide (t' = t)). }
          { done. }
          { by rewrite P2, decide_True. }
          exists (map as_run [ReadPipe t 1; PassOn t] ++ es), o3. split.
          { intros Hin. apply elem_of_app in Hin as [Hin|Hin]; [|done].
            apply (no_quit [ReadPipe t 1; PassOn t]) in Hin; [done|by repeat constructor]. }
          split; [|done].
          rewrite (run_steps_app _ _ (WholeRun ((t, c) :: l) k true p o2)); [done|].
          apply pass_steps; [done|by repeat constructor|].
          by rewrite (steps_cons o o1), (steps_cons o1 o2). }
        intros o1 Hc1 He1 Hl1 Hh1. apply (Hmany (S (length (pi_waiting (os_pipe o1 t)))) o1); try done. lia. }
      destruct (pi_held (os_pipe o t)) as [b|] eqn:Eh; [|by apply Hread].
      set (o1 := set_pipe t (Pipe (pi_waiting (os_pipe o t)) (pi_closed (os_pipe o t)) None (pi_ended (os_pipe o t)))
                   (OutputState (os_pipe o) false (os_shown o ++ [(t, b)]))).
      assert (E1 : output_step o (PassOn t) = Some o1).
      { cbn [output_step]. by rewrite Eh, Hl. }
      destruct (Hread o1) as (es & o2 & Hn & Hr & Hrest).
      { intros t'. unfold o1. cbn. destruct (decide (t' = t)); cbn; auto. }
      { intros t'. unfold o1. cbn. destruct (decide (t' = t)); cbn; auto. }
      { done. }
      { unfold o1. cbn. by rewrite decide_True. }
      exists (map as_run [PassOn t] ++ es), o2. split.
      { intros Hin. apply elem_of_app in Hin as [Hin|Hin]; [|done].
        apply (no_quit [PassOn t]) in Hin; [done|by repeat constructor]. }
      split; [|done].
      rewrite (run_steps_app _ _ (WholeRun ((t, c) :: l) k true p o1)); [done|].
      apply pass_steps; [done|by repeat constructor|]. by rewrite (steps_cons o o1). }
    destruct Hone as (es1 & o1 & Hn1 & Hr1 & Hc1 & He1 & Hl1 & Hlt).
    destruct (output_step o1 (Printed t [c])) as [o2|] eqn:E2; [|exfalso; cbn [output_step] in E2; by rewrite Hc1 in E2].
    destruct (IH o2) as (es & o' & Hn & Hr).
    { intros t'. by rewrite (step_closed _ _ _ t' E2), Hc1. }
    { intros t'. cbn [output_step] in E2. rewrite Hc1 in E2. injection E2 as <-. cbn. destruct (decide (t' = t)); cbn; auto. }
    { by rewrite (step_locked _ _ _ E2). }
    exists (es1 ++ CargoPrints :: es), o'. split.
    { intros Hin. apply elem_of_app in Hin as [Hin|Hin]; [done|]. by apply elem_of_cons in Hin as [Hin|Hin]. }
    rewrite (run_steps_app _ _ _ _ _ Hr1), run_steps_cons. cbn [run_step]. rewrite decide_False by done.
    apply Nat.ltb_lt in Hlt. rewrite Hlt, E2. exact Hr.
Qed.

(** Nobody takes the terminal unless the interface is opened. *)
Lemma never_locked (capacity : nat) (es : list run_event) (w w' : whole_run_state) :
  run_steps capacity w es = Some w' -> UiOpens ∉ es -> os_locked (wr_out w) = false -> os_locked (wr_out w') = false.
Proof.
  revert w. induction es as [|e es IH]; intros w Hs Hn Hl.
  - by injection Hs as <-.
  - rewrite run_steps_cons in Hs. destruct (run_step capacity w e) as [w1|] eqn:E1; [|done]. cbn [mbind option_bind] in Hs.
    apply not_elem_of_cons in Hn as [Hn1 Hn2]. apply (IH w1 Hs Hn2).
    destruct w as [l k r p o]. cbn [wr_out] in Hl. cbn [run_step] in E1. destruct (decide (p = Exited)); [done|].
    assert (Hcl : forall o', close_both o = Some o' -> os_locked o' = false).
    { intros o' H. unfold close_both in H. cbn in H. injection H as <-. exact Hl. }
    destruct e as [| | | | | | |t [size|]]; try done.
    + destruct l as [|[t c] l]; [done|]. destruct (r && _); [|done].
      destruct (output_step o (Printed t [c])) as [o'|] eqn:Eo; [|done]. injection E1 as <-. cbn [wr_out].
      by rewrite (step_locked _ _ _ Eo).
    + destruct l; [|done]. destruct r; [|done]. destruct (close_both o) as [o'|] eqn:Eo; [|done]. injection E1 as <-. by apply Hcl.
    + destruct (decide (p = Building)); [|done]. destruct r; [done|]. by injection E1 as <-.
    + destruct (decide (p = Told)); [|done]. rewrite Hl in E1. by injection E1 as <-.
    + destruct (decide (p = Alone)); [|done]. destruct (k && _); [done|]. by injection E1 as <-.
    + rewrite Hl, andb_false_r in E1. done.
    + destruct (output_step o (ReadPipe t size)) as [o'|] eqn:Eo; [|done]. injection E1 as <-. cbn [wr_out].
      by rewrite (step_locked _ _ _ Eo).
    + destruct (output_step o (PassOn t)) as [o'|] eqn:Eo.
      * injection E1 as <-. cbn [wr_out]. by rewrite (step_locked _ _ _ Eo).
      * destruct (output_step o (SeeEnd t)) as [o'|] eqn:Eo'; [|done]. injection E1 as <-. cbn [wr_out].
        by rewrite (step_locked _ _ _ Eo').
Qed.

(** Cargo waits, and so does the thread that could make room for it. *)
Definition jammed (capacity : nat) (w : whole_run_state) : Prop :=
  wr_phase w = Building /\ wr_running w = true /\ os_locked (wr_out w) = true /\
  exists t c rest, wr_todo w = (t, c) :: rest /\ capacity <= length (pi_waiting (os_pipe (wr_out w) t)) /\
    exists b, pi_held (os_pipe (wr_out w) t) = Some b.

Lemma jammed_step (capacity : nat) (w w' : whole_run_state) (e : run_event) :
  jammed capacity w -> e <> UserQuits -> run_step capacity w e = Some w' -> jammed capacity w'.
Proof.
  destruct w as [l k r p o]. unfold jammed. cbn [wr_phase wr_running wr_out wr_todo].
  intros (-> & -> & Hl & t & c & rest & -> & Hfull & b & Hb) Hq Hs. cbn [run_step] in Hs. rewrite decide_False in Hs by done.
  destruct e as [| | | | | | |t' [size|]]; try done.
  - assert (E : Nat.ltb (length (pi_waiting (os_pipe o t))) capacity = false) by (apply Nat.ltb_ge; lia).
    rewrite E in Hs. done.
  - cbn in Hs. by rewrite Hl in Hs.
  - cbn [output_step] in Hs. destruct (pi_held (os_pipe o t')) eqn:Eh; [done|].
    destruct (negb _ && _ && _ && _); [|done]. cbn [mbind option_bind] in Hs. injection Hs as <-. cbn.
    split_and!; try done. exists t, c, rest. split; [done|]. rewrite decide_False by congruence. split; [done|]. by exists b.
  - cbn [output_step] in Hs. destruct (pi_held (os_pipe o t')) eqn:Eh.
    + rewrite Hl in Hs. done.
    + destruct (pi_waiting (os_pipe o t')); [|done]. destruct (pi_closed _ && _); [|done]. cbn [mbind option_bind] in Hs.
      injection Hs as <-. cbn. split_and!; try done. exists t, c, rest. split; [done|].
      rewrite decide_False by congruence. split; [done|]. by exists b.
Qed.

Lemma jammed_steps (capacity : nat) (es : list run_event) (w w' : whole_run_state) :
  jammed capacity w -> UserQuits ∉ es -> run_steps capacity w es = Some w' -> jammed capacity w'.
Proof.
  revert w. induction es as [|e es IH]; intros w Hj Hn Hs.
  - by injection Hs as <-.
  - rewrite run_steps_cons in Hs. destruct (run_step capacity w e) as [w1|] eqn:E1; [|done]. cbn [mbind option_bind] in Hs.
    apply not_elem_of_cons in Hn as [Hn1 Hn2]. apply (IH w1); try done. by eapply jammed_step.
Qed.
