(** Proofs about crashes. *)
From Verif Require Import Base StoreModel CrashModel CrashSpec.

Section proofs.
  Context (jobs : nat) (clean : bool).
  Local Notation step := (crash_step jobs clean).
  Local Notation run := (crash_run jobs clean).

  Lemma run_none (es : list crash_event) : fold_left (fun s e => s ← s; step s e) es None = None.
  Proof. induction es as [|e es IH]; cbn; [done|exact IH]. Qed.

  Lemma run_cons (s : crash_state) (e : crash_event) (es : list crash_event) :
    run s (e :: es) = (s' ← step s e; run s' es).
  Proof.
    unfold crash_run. cbn [fold_left]. cbn [mbind option_bind].
    destruct (step s e); cbn [mbind option_bind]; [done|apply run_none].
  Qed.

  Lemma run_preserves (P : crash_state -> Prop) :
    (forall s e s', P s -> step s e = Some s' -> P s') ->
    forall es s s', P s -> run s es = Some s' -> P s'.
  Proof.
    intros Hstep es. induction es as [|e es IH]; intros s s' HP H.
    - cbn in H. injection H as <-. exact HP.
    - rewrite run_cons in H. destruct (step s e) as [s1|] eqn:E; cbn [mbind option_bind] in H; [|done].
      eauto.
  Qed.

  (** ** Giving up *)

  Definition give_up_one (s : crash_state) (i : nat) : crash_state :=
    match cr_requests s !! i with Some (Asking _) => answer i (Some GiveUp) s | _ => s end.

  Lemma give_up_one_fields (s : crash_state) (i : nat) :
    cr_checker (give_up_one s i) = cr_checker s /\ cr_store (give_up_one s i) = cr_store s /\
    cr_ui (give_up_one s i) = cr_ui s /\ cr_cargo (give_up_one s i) = cr_cargo s /\
    cr_main (give_up_one s i) = cr_main s /\ cr_errors (give_up_one s i) = cr_errors s.
  Proof.
    unfold give_up_one, answer. destruct (cr_requests s !! i) as [[]|]; cbn; repeat split; lia.
  Qed.

  Lemma give_up_one_request (s : crash_state) (i j : nat) (st : stage) :
    cr_requests s !! j = Some st -> (forall r, st <> Asking r) -> cr_requests (give_up_one s i) !! j = Some st.
  Proof.
    intros Hj Hst. unfold give_up_one. destruct (cr_requests s !! i) as [[]|] eqn:E; try done.
    cbn [answer cr_requests]. rewrite list_lookup_insert_ne; [done|]. intros ->. rewrite E in Hj.
    injection Hj as <-. eapply Hst; reflexivity.
  Qed.

  Lemma give_up_fields (l : list nat) (s : crash_state) :
    let s' := foldl give_up_one s l in
    cr_checker s' = cr_checker s /\ cr_store s' = cr_store s /\ cr_ui s' = cr_ui s /\ cr_cargo s' = cr_cargo s /\
    cr_main s' = cr_main s /\ cr_errors s' = cr_errors s.
  Proof.
    revert s. induction l as [|i l IH]; intros s; cbn [foldl]; [done|].
    destruct (give_up_one_fields s i) as (A & B & C & D & E & F).
    destruct (IH (give_up_one s i)) as (A' & B' & C' & D' & E' & F').
    rewrite A', B', C', D', E', F'. done.
  Qed.

  Lemma give_up_request (l : list nat) (s : crash_state) (j : nat) (st : stage) :
    cr_requests s !! j = Some st -> (forall r, st <> Asking r) -> cr_requests (foldl give_up_one s l) !! j = Some st.
  Proof.
    revert s. induction l as [|i l IH]; intros s Hj Hst; cbn [foldl]; [done|].
    apply IH; [|done]. by apply give_up_one_request.
  Qed.

  Lemma give_up_length (l : list nat) (s : crash_state) :
    length (cr_requests (foldl give_up_one s l)) = length (cr_requests s).
  Proof.
    revert s. induction l as [|i l IH]; intros s; cbn [foldl]; [done|].
    rewrite IH. unfold give_up_one. destruct (cr_requests s !! i) as [[]|]; try done.
    cbn [answer cr_requests]. apply insert_length.
  Qed.

  Lemma give_up_eq (s : crash_state) :
    give_up s =
    let s1 := foldl give_up_one s (seq 0 (length (cr_requests s))) in
    Crash (cr_requests s1) (cr_checker s1) (cr_store s1) (cr_ui s1) true (S (cr_aborts s1)) (cr_errors s1) (cr_cargo s1)
      (if decide (cr_main s1 = AskingUnused) then Closing false else cr_main s1).
  Proof. reflexivity. Qed.

  Lemma give_up_cargo (s : crash_state) : cr_cargo (give_up s) = cr_cargo s.
  Proof. rewrite give_up_eq. cbn [cr_cargo]. by destruct (give_up_fields (seq 0 (length (cr_requests s))) s) as (_ & _ & _ & ? & _). Qed.

  Lemma give_up_checker (s : crash_state) : cr_checker (give_up s) = cr_checker s.
  Proof. rewrite give_up_eq. cbn [cr_checker]. by destruct (give_up_fields (seq 0 (length (cr_requests s))) s) as (? & _). Qed.

  Lemma give_up_main (s : crash_state) :
    cr_main (give_up s) = if decide (cr_main s = AskingUnused) then Closing false else cr_main s.
  Proof.
    rewrite give_up_eq. cbn [cr_main].
    by destruct (give_up_fields (seq 0 (length (cr_requests s))) s) as (_ & _ & _ & _ & -> & _).
  Qed.

  (** ** What holds in every run *)

  Definition good_path (m : main_thread) : bool :=
    match m with Unused | AskingUnused | Closing true | Ended ExitSuccess => true | _ => false end.

  Definition sound (s : crash_state) : Prop :=
    (good_path (cr_main s) = true -> cr_cargo s = Some true) /\
    (cr_cargo s = Some true -> forall i st, cr_requests s !! i = Some st -> was_answered st = true).

  Lemma sound_init : sound crash_init.
  Proof. split; cbn; done. Qed.

  Lemma not_done (s : crash_state) (i : nat) (old : stage) :
    sound s -> cr_requests s !! i = Some old -> was_answered old = false -> cr_cargo s <> Some true.
  Proof. intros [_ H] Hi Hold Hc. specialize (H Hc i old Hi). congruence. Qed.

  (** A request whose thread has crashed, or which waits for an interface that is gone, stays so. *)
  Definition stays (st : stage) (s : crash_state) : Prop :=
    st = Lost \/ (exists r, st = Asking r) /\ cr_ui s <> UiRuns.

  Lemma insert_other (l : list stage) (i j : nat) (st old new : stage) :
    l !! j = Some st -> l !! i = Some old -> st <> old -> <[i := new]> l !! j = Some st.
  Proof. intros Hj Hi Hne. rewrite list_lookup_insert_ne; [done|]. intros ->. congruence. Qed.

  Ltac step_cases H :=
    unfold crash_step in H;
    repeat match type of H with
      | (if ?b then _ else _) = Some _ => destruct b eqn:?
      | match ?x with _ => _ end = Some _ => destruct x eqn:?
      end; try discriminate H; try (injection H as H; subst).

  Lemma ui_gone_step (s s' : crash_state) (e : crash_event) :
    cr_ui s <> UiRuns -> step s e = Some s' -> cr_ui s' <> UiRuns.
  Proof.
    intros Hu H. step_cases H; try done;
      try (destruct (cr_checker s)); try (destruct v); try (destruct retry); unfold hand_in; try (destruct (cr_store s));
      cbn [set_request set_main set_ui set_cargo poison answer cr_ui]; try done; try congruence.
  Qed.

  Lemma stays_step (s s' : crash_state) (e : crash_event) (j : nat) (st : stage) :
    stays st s -> cr_requests s !! j = Some st -> step s e = Some s' -> cr_requests s' !! j = Some st.
  Proof.
    intros Hst Hj H.
    assert (HJ : st <> Judging) by (destruct Hst as [->|[[r ->] _]]; done).
    assert (HR : forall r, st <> Reloading r) by (intros ?; destruct Hst as [->|[[r' ->] _]]; done).
    assert (HA : cr_ui s = UiRuns -> forall r, st <> Asking r) by (intros Hu ?; destruct Hst as [->|[[r' ->] Hg]]; done).
    step_cases H; cbn [set_request set_main set_ui set_cargo poison answer cr_requests]; try done;
      try (by eapply insert_other).
    - by apply lookup_app_l_Some.
    - destruct (cr_checker s), v; cbn [answer poison set_request cr_requests]; try (by eapply insert_other).
      unfold hand_in. destruct (cr_store s); cbn [set_request cr_requests]; by eapply insert_other.
    - destruct (cr_checker s), v, retry; cbn [answer poison set_request cr_requests]; by eapply insert_other.
    - eapply insert_other; [done|done|auto].
    - rewrite give_up_eq. cbn [cr_requests]. apply give_up_request; auto.
  Qed.

  Lemma cargo_step (s s' : crash_state) (e : crash_event) :
    step s e = Some s' -> cr_cargo s' = cr_cargo s \/
      (cr_cargo s = None /\ (cr_cargo s' = Some false \/
        (cr_cargo s' = Some true /\ forallb was_answered (cr_requests s) = true /\ cr_requests s' = cr_requests s))).
  Proof.
    intros H. step_cases H; try (by left);
      try (destruct (cr_checker s)); try (destruct v); try (destruct retry); unfold hand_in; try (destruct (cr_store s));
      cbn [set_request set_main set_ui set_cargo poison answer cr_cargo cr_requests]; try (by left).
    all: try (left; apply give_up_cargo).
    all: right; split; [done|]; try (by left).
    all: destruct ok; [right|by left].
    all: match goal with X : (_ && _) = true |- _ => apply andb_true_iff in X as [_ X]; cbn in X; auto end.
  Qed.

  Lemma requests_step (s s' : crash_state) (e : crash_event) :
    cr_cargo s <> None -> (forall i st, cr_requests s !! i = Some st -> was_answered st = true) ->
    step s e = Some s' -> cr_requests s' = cr_requests s.
  Proof.
    intros Hc Hall H. step_cases H; try done;
      try (match goal with X : cr_requests s !! _ = Some _ |- _ => apply Hall in X; done end).
    rewrite give_up_eq. cbn [cr_requests].
    assert (forall l, foldl give_up_one s l = s) as ->; [|done].
    induction l as [|i l IH]; [done|]. cbn [foldl]. unfold give_up_one at 2.
    destruct (cr_requests s !! i) as [[]|] eqn:E; try apply IH. apply Hall in E. done.
  Qed.

  Lemma main_step (s s' : crash_state) (e : crash_event) :
    step s e = Some s' -> good_path (cr_main s') = true ->
    good_path (cr_main s) = true \/ cr_cargo s' = Some true.
  Proof.
    intros H Hg. step_cases H; try (by left);
      try (destruct (cr_checker s)); try (destruct v); try (destruct retry);
      try (unfold hand_in in *; destruct (cr_store s));
      cbn [set_request set_main set_ui set_cargo poison answer cr_main cr_cargo] in *; try done; try (by left);
      try (left; match goal with X : cr_main s = _ |- _ => rewrite X in * end; done);
      try (left; match goal with X : _ /\ cr_main s = _ |- _ => rewrite (proj2 X) end; done);
      try (left; rewrite give_up_main in Hg; destruct (decide (cr_main s = AskingUnused)); done);
      try (destruct success; [by left|]; done).
    all: unfold after_build in Hg; cbn [cr_store] in Hg.
    all: repeat match type of Hg with context [if ?b then _ else _] => destruct b eqn:? end; try done.
    all: right; match goal with X : (_ || negb ?b) = false |- _ => apply orb_false_iff in X as [_ X]; destruct b; done end.
  Qed.

  Lemma sound_step (s s' : crash_state) (e : crash_event) : sound s -> step s e = Some s' -> sound s'.
  Proof.
    intros [HM HR] H.
    assert (HR' : cr_cargo s' = Some true -> forall i st, cr_requests s' !! i = Some st -> was_answered st = true).
    { intros Hc i st Hi. destruct (cargo_step s s' e H) as [Heq|[Hn [Hf|(Ht & Hall & Hreq)]]].
      - rewrite Heq in Hc. rewrite (requests_step s s' e) in Hi; [eauto|congruence|by apply HR|done].
      - congruence.
      - rewrite Hreq in Hi. rewrite forallb_forall in Hall. apply Hall, elem_of_list_In. eapply elem_of_list_lookup_2, Hi. }
    split; [|exact HR'].
    intros Hg. destruct (main_step s s' e H Hg) as [Hg'|]; [|done].
    specialize (HM Hg'). destruct (cargo_step s s' e H) as [Heq|[Hn _]]; congruence.
  Qed.

  Lemma checker_step (s s' : crash_state) (e : crash_event) :
    cr_checker s = true -> step s e = Some s' -> cr_checker s' = true.
  Proof.
    intros Hc H. step_cases H; try done; try (rewrite Hc);
      cbn [set_request set_main set_ui set_cargo poison cr_checker]; try done; try (by rewrite ?give_up_checker, ?Hc).
  Qed.

  Lemma checker_success (s s' : crash_state) (e : crash_event) :
    cr_checker s = true -> step s e = Some s' -> ~ succeeded s'.
  Proof.
    unfold succeeded. intros Hc H. step_cases H; try (rewrite Hc);
      cbn [set_request set_main set_ui set_cargo poison cr_main]; try done;
      try (intros X; rewrite X in *; done).
    - rewrite give_up_main. destruct (decide (cr_main s = AskingUnused)); [done|]. intros X; rewrite X in *; done.
    - unfold after_build. repeat match goal with |- context [if ?b then _ else _] => destruct b end; done.
  Qed.

  Definition doomed (s : crash_state) : Prop :=
    sound s /\ ~ succeeded s /\
    (cr_checker s = true \/ ((exists j, cr_requests s !! j = Some Lost) /\ cr_cargo s <> Some true)).

  Lemma doomed_step (s s' : crash_state) (e : crash_event) : doomed s -> step s e = Some s' -> doomed s'.
  Proof.
    intros (Hs & Hn & Hd) H. pose proof (sound_step s s' e Hs H) as Hs'.
    destruct Hd as [Hc|[[j Hj] Hc]].
    - split; [done|]. split; [by eapply checker_success|]. left. by eapply checker_step.
    - assert (Hj' : cr_requests s' !! j = Some Lost) by (eapply stays_step; [by left|done|done]).
      assert (Hc' : cr_cargo s' <> Some true).
      { intros Hc'. destruct Hs' as [_ HR]. specialize (HR Hc' j Lost Hj'). done. }
      split; [done|]. split; [|eauto].
      intros Hsucc. destruct Hs' as [HM _]. apply Hc', HM. unfold succeeded in Hsucc. by rewrite Hsucc.
  Qed.

  Lemma crash_dooms (s s' : crash_state) (i : nat) (e : crash_event) :
    sound s -> crashed_at i e -> step s e = Some s' -> doomed s' /\ cr_requests s' !! i = Some Lost.
  Proof.
    intros Hs He H. pose proof (sound_step s s' e Hs H) as Hs'.
    assert (Hi : cr_requests s' !! i = Some Lost /\ (forall x, cr_main s' <> Ended x)).
    { destruct He as [->|[->| ->]]; step_cases H; try (destruct (cr_checker s));
        cbn [set_request poison cr_requests cr_main]; (split; [rewrite list_lookup_insert; [done|]; by eapply lookup_lt_Some|]);
        intros x X; rewrite X in *; done. }
    destruct Hi as [Hi Hm]. split; [|done]. split; [done|]. split; [unfold succeeded; apply Hm|].
    right. split; [eauto|]. by eapply (not_done s' i Lost).
  Qed.

  Lemma crash_fails (es : list crash_event) (i : nat) (e : crash_event) (s s' : crash_state) :
    sound s -> crashed_at i e -> e ∈ es -> run s es = Some s' -> ~ succeeded s' /\ ~ told s' i.
  Proof.
    revert s. induction es as [|e' es IH]; intros s Hs He Hin H; [by apply elem_of_nil in Hin|].
    rewrite run_cons in H. destruct (step s e') as [s1|] eqn:E; cbn [mbind option_bind] in H; [|done].
    apply elem_of_cons in Hin as [<-|Hin].
    - destruct (crash_dooms s s1 i e Hs He E) as [Hd Hi].
      assert (HP : doomed s' /\ cr_requests s' !! i = Some Lost).
      { revert H. apply (run_preserves (fun s => doomed s /\ cr_requests s !! i = Some Lost)); [|done].
        intros a b c [Ha Hb] Hst. split; [by eapply doomed_step|]. eapply stays_step; [by left|done|done]. }
      destruct HP as [(_ & Hn & _) Hl]. split; [done|]. intros [o Ho]. congruence.
    - eapply IH; [by eapply sound_step|done|done|done].
  Qed.

  Lemma checker_fails (es : list crash_event) (store : bool) (s s' : crash_state) :
    sound s -> UiPanics store true ∈ es -> run s es = Some s' -> ~ succeeded s'.
  Proof.
    revert s. induction es as [|e' es IH]; intros s Hs Hin H; [by apply elem_of_nil in Hin|].
    rewrite run_cons in H. destruct (step s e') as [s1|] eqn:E; cbn [mbind option_bind] in H; [|done].
    apply elem_of_cons in Hin as [<-|Hin].
    - assert (HP : doomed s1).
      { split; [by eapply sound_step|]. step_cases E. cbn [poison set_ui cr_checker cr_main succeeded].
        split; [|left; by destruct (cr_checker s)]. unfold succeeded. cbn [poison set_ui cr_main]. intros X; rewrite X in *; done. }
      apply (run_preserves doomed) in H; [by destruct H as (_ & ? & _)|intros a b c; apply doomed_step|exact HP].
    - eapply IH; [by eapply sound_step|done|done].
  Qed.

  Lemma unused_fails (es : list crash_event) (s s' : crash_state) :
    UnusedChecked Panics ∈ es -> run s es = Some s' -> ~ succeeded s'.
  Proof.
    revert s. induction es as [|e' es IH]; intros s Hin H; [by apply elem_of_nil in Hin|].
    rewrite run_cons in H. destruct (step s e') as [s1|] eqn:E; cbn [mbind option_bind] in H; [|done].
    apply elem_of_cons in Hin as [<-|Hin]; [|by eapply IH].
    assert (HP : cr_main s1 = Ended ExitPanic).
    { step_cases E. cbn [set_main cr_main]. by destruct (cr_checker s). }
    assert (cr_main s' = Ended ExitPanic) as Hm.
    { revert H. apply (run_preserves (fun s => cr_main s = Ended ExitPanic)); [|done].
      intros a b c Ha Hb. unfold crash_step in Hb. rewrite Ha in Hb. done. }
    unfold succeeded. congruence.
  Qed.

  (** ** The interface is gone *)

  Lemma never_answered (es : list crash_event) (s s' : crash_state) (i : nat) :
    interface_gone s -> undecided s i -> run s es = Some s' -> undecided s' i.
  Proof.
    intros Hg [r Hr] H.
    assert (HP : cr_ui s' <> UiRuns /\ cr_requests s' !! i = Some (Asking r)).
    { revert H. apply (run_preserves (fun s => cr_ui s <> UiRuns /\ cr_requests s !! i = Some (Asking r))); [|done].
      intros a b c [Ha Hb] Hst. split; [by eapply ui_gone_step|]. eapply stays_step; [right; eauto|done|done]. }
    exists r. apply HP.
  Qed.

  Lemma failed_step (s s' : crash_state) (e : crash_event) :
    cr_ui s = UiReturned false -> step s e = Some s' -> cr_ui s' = UiReturned false /\ ~ succeeded s'.
  Proof.
    unfold succeeded. intros Hu H. step_cases H; try done;
      try (destruct (cr_checker s)); try (destruct v); try (destruct retry); unfold hand_in; try (destruct (cr_store s) eqn:?);
      cbn [set_request set_main set_ui set_cargo poison answer cr_ui cr_main]; try done; try congruence;
      try (split; [done|]; intros X; rewrite X in *; done).
    all: try (split; [done|]; unfold after_build;
      repeat match goal with |- context [if ?b then _ else _] => destruct b end; done).
  Qed.

  Lemma error_fails (es : list crash_event) (s s' : crash_state) :
    UiFails ∈ es -> run s es = Some s' -> ~ succeeded s'.
  Proof.
    revert s. induction es as [|e' es IH]; intros s Hin H; [by apply elem_of_nil in Hin|].
    rewrite run_cons in H. destruct (step s e') as [s1|] eqn:E; cbn [mbind option_bind] in H; [|done].
    apply elem_of_cons in Hin as [<-|Hin]; [|by eapply IH].
    assert (HP : cr_ui s1 = UiReturned false /\ ~ succeeded s1).
    { step_cases E. split; [done|]. unfold succeeded. cbn [set_ui cr_main]. intros X; rewrite X in *; done. }
    assert (cr_ui s' = UiReturned false /\ ~ succeeded s') as Hm; [|by destruct Hm].
    revert H. apply (run_preserves (fun s => cr_ui s = UiReturned false /\ ~ succeeded s)); [|done].
    intros a b c [Ha _] Hb. by eapply failed_step.
  Qed.
End proofs.
