(** Proofs about the terminal. *)
From Verif Require Import Base StoreModel CrashModel CrashSpec CrashProofs RestoreModel RestoreSpec.

Section proofs.
  Context (jobs : nat) (clean : bool).
  Notation step := (shown_step jobs clean).

  Lemma shown_none (es : list shown_event) : fold_left (fun s e => s ← s; step s e) es None = None.
  Proof. induction es; done. Qed.

  Lemma shown_preserves (P : shown_run -> Prop) (ok : shown_event -> Prop) :
    (forall s s' e, ok e -> P s -> step s e = Some s' -> P s') ->
    forall es s s', (forall e, e ∈ es -> ok e) -> P s -> shown_runs jobs clean s es = Some s' -> P s'.
  Proof.
    intros Hstep es. unfold shown_runs. induction es as [|e es IH]; intros s s' Hok Hs Hrun; cbn [fold_left] in Hrun.
    - by injection Hrun as <-.
    - destruct (step s e) as [s1|] eqn:Hse; cbn in Hrun; rewrite ?Hse in Hrun; [|by rewrite shown_none in Hrun].
      eapply IH; [|eapply Hstep; [|exact Hs|exact Hse]|exact Hrun].
      + intros e' He'. apply Hok. by right.
      + apply Hok. by left.
  Qed.

  (** With openings that work. *)
  Definition tidy (s : shown_run) : Prop :=
    sr_raw s = sr_open s /\ sr_alternate s = sr_open s /\
    (cr_ui (sr_run s) <> UiRuns -> sr_open s = false) /\
    (orderly_end s -> cr_ui (sr_run s) <> UiRuns).

  Lemma orderly_step (s s' : crash_state) (e : crash_event) :
    crash_step jobs clean s e = Some s' ->
    cr_main s' = Ended ExitSuccess \/ cr_main s' = Ended ExitFailure -> cr_ui s' <> UiRuns.
  Proof.
    intros H Hend.
    destruct (cr_main s) as [| | |b|e0] eqn:Hm; unfold crash_step in H; rewrite Hm in H; [| | | |discriminate];
      destruct e;
      repeat match type of H with
             | context [decide ?P] => destruct (decide P) eqn:?
             | context [match ?x with _ => _ end] => destruct x eqn:?
             end; try discriminate; injection H as <-; try done;
      unfold hand_in, after_build in *;
      repeat match type of Hend with
             | context [if ?b then _ else _] => destruct b eqn:?
             end;
      cbn [set_request set_main set_ui set_cargo poison answer cr_main cr_ui] in *;
      try (destruct Hend as [Hend|Hend]; congruence).
    all: rewrite give_up_main, Hm in Hend; destruct (decide _) in Hend; destruct Hend as [Hend|Hend]; discriminate.
  Qed.

  Lemma not_over (s s' : crash_state) (e : crash_event) (x : ending) : crash_step jobs clean s e = Some s' -> cr_main s <> Ended x.
  Proof. intros H He. unfold crash_step in H. by rewrite He in H. Qed.

  Lemma tidy_step (s s' : shown_run) (e : shown_event) :
    (forall o, e = Opens o -> o = Opened) -> tidy s -> step s e = Some s' -> tidy s'.
  Proof.
    intros Hok (Hr & Ha & Hu & He) H. destruct e as [o|e]; cbn [shown_step] in H.
    - rewrite (Hok o eq_refl) in H. destruct (_ || _); [discriminate|].
      destruct (decide (cr_ui (sr_run s) = UiRuns)) as [Hui|]; [|discriminate].
      destruct (cr_main (sr_run s)) as [| | |b|x] eqn:Hm; try discriminate; injection H as <-; repeat split; try done;
        unfold orderly_end; cbn [sr_run]; rewrite Hm; intros [X|X]; discriminate.
    - destruct (by_user e && negb (sr_open s)); [discriminate|].
      destruct (crash_step jobs clean (sr_run s) e) as [r|] eqn:Hc; [|discriminate]. cbn in H. injection H as <-.
      unfold settle; cbn [sr_run sr_raw sr_alternate sr_open].
      destruct (decide (cr_ui r = UiRuns)) as [Hui|Hui].
      + split; [done|]. split; [done|]. split; [done|]. unfold orderly_end; cbn [sr_run]. intros Ho. by apply (orderly_step _ _ _ Hc).
      + destruct (sr_open s) eqn:Ho; repeat split; try done; cbn [sr_run]; rewrite ?Hr, ?Ha; try done.
  Qed.

  Lemma tidy_init : tidy shown_init.
  Proof. repeat split; try done. by intros [X|X]. Qed.

  Lemma runs_tidy (es : list shown_event) (s : shown_run) :
    opening_works es -> shown_runs jobs clean shown_init es = Some s -> tidy s.
  Proof.
    intros Hw. apply (shown_preserves tidy (fun e => forall o, e = Opens o -> o = Opened)).
    - intros ? ? ? ? ?. by apply tidy_step.
    - intros e He o ->. by apply Hw.
    - exact tidy_init.
  Qed.

  Lemma restored (es : list shown_event) (s : shown_run) :
    opening_works es -> shown_runs jobs clean shown_init es = Some s -> orderly_end s -> as_before s.
  Proof.
    intros Hw Hrun Ho. destruct (runs_tidy es s Hw Hrun) as (Hr & Ha & Hu & He).
    unfold as_before. rewrite Hr, Ha, (Hu (He Ho)). done.
  Qed.

  Lemma gone_restored (es : list shown_event) (s : shown_run) :
    opening_works es -> shown_runs jobs clean shown_init es = Some s -> interface_gone (sr_run s) -> as_before s.
  Proof.
    intros Hw Hrun Ho. destruct (runs_tidy es s Hw Hrun) as (Hr & Ha & Hu & He).
    unfold as_before. rewrite Hr, Ha, (Hu Ho). done.
  Qed.

  (** Nothing is changed before there are problems. *)
  Definition nobody_asks (s : crash_state) : Prop :=
    (forall i retry, cr_requests s !! i <> Some (Asking retry)) /\ cr_main s <> AskingUnused.

  Lemma nobody_has_problems (s : crash_state) : nobody_asks s -> has_problems s = false.
  Proof.
    intros [Hr Hm]. unfold has_problems. rewrite (bool_decide_eq_false_2 _ Hm), orb_false_r.
    destruct (existsb _ (cr_requests s)) eqn:E; [|done]. apply existsb_exists in E as (st & Hin & Hst).
    destruct st; try discriminate. apply elem_of_list_In, elem_of_list_lookup in Hin as [i Hi]. by destruct (Hr i retry).
  Qed.

  Lemma nobody_step (s s' : crash_state) (e : crash_event) :
    nobody_asks s -> ~ objects (Goes e) -> by_user e = false -> crash_step jobs clean s e = Some s' -> nobody_asks s'.
  Proof.
    intros [Hr Hm] Ho Hb H.
    assert (Hins : forall i j st retry, st <> Asking retry -> <[i := st]> (cr_requests s) !! j <> Some (Asking retry)).
    { intros i j st retry Hst Hj. destruct (decide (i = j)) as [<-|Hij].
      - apply list_lookup_insert_Some in Hj as [(_ & ? & _)|[? _]]; congruence.
      - rewrite list_lookup_insert_ne in Hj by done. by apply (Hr j retry). }
    unfold crash_step in H. destruct (match cr_main s with Ended _ => true | _ => false end); [discriminate|].
    destruct e; try discriminate Hb;
      repeat match type of H with
             | context [decide ?P] => destruct (decide P)
             | context [match ?x with _ => _ end] => destruct x eqn:?
             end; try discriminate H; injection H as <-;
      try (by destruct Ho; left; eauto); try (by destruct Ho; right; eauto);
      unfold set_request, set_main, set_ui, set_cargo, poison, answer; cbn [cr_requests cr_main];
      split; cbn [cr_requests cr_main]; try done; try (intros; apply Hins; by destruct retry || done).
    all: try (intros j retry' Hj; apply lookup_app_Some in Hj as [Hj|[_ Hj]]; [by apply (Hr j retry')|]; by apply list_lookup_singleton_Some in Hj as [_ ?]).
    all: try (unfold after_build; repeat (match goal with |- context [if ?b then _ else _] => destruct b end); done).
    all: congruence.
  Qed.

  Lemma untouched (es : list shown_event) (s : shown_run) :
    (forall e, e ∈ es -> ~ objects e) -> shown_runs jobs clean shown_init es = Some s -> as_before s.
  Proof.
    intros Hw. intros Hrun.
    assert (Hn : as_before s /\ sr_open s = false /\ nobody_asks (sr_run s)); [|by destruct Hn].
    revert Hrun. apply (shown_preserves (fun s => as_before s /\ sr_open s = false /\ nobody_asks (sr_run s)) (fun e => ~ objects e)).
    - intros s1 s2 e He ([Hr Ha] & Ho & Hn) H. destruct e as [o|e]; cbn [shown_step] in H; rewrite Ho in H.
      { by rewrite (nobody_has_problems _ Hn) in H. }
      rewrite andb_true_r in H. destruct (by_user e) eqn:Hb; [discriminate|].
      destruct (crash_step jobs clean (sr_run s1) e) as [r|] eqn:Hc; [|discriminate]. cbn in H. injection H as <-.
      unfold settle; cbn [sr_run sr_raw sr_alternate sr_open].
      pose proof (nobody_step _ _ _ Hn He Hb Hc). by destruct (decide _).
    - exact Hw.
    - by repeat split.
  Qed.
End proofs.
