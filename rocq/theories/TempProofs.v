(** Proofs about the temporary directory. *)
From Verif Require Import Base TempModel TempSpec.

Lemma temp_run_none (es : list temp_event) : fold_left (fun s e => s ← s; temp_step s e) es None = None.
Proof. induction es as [|e es IH]; cbn; [done|exact IH]. Qed.

Lemma temp_run_cons (s : temp_state) (e : temp_event) (es : list temp_event) :
  temp_run s (e :: es) = (s' ← temp_step s e; temp_run s' es).
Proof.
  unfold temp_run. cbn [fold_left]. cbn [mbind option_bind].
  destruct (temp_step s e); cbn [mbind option_bind]; [done|apply temp_run_none].
Qed.

Ltac temp_cases H :=
  unfold temp_step in H;
  repeat match type of H with
    | (if ?b then _ else _) = Some _ => destruct b eqn:?
    | match ?x with _ => _ end = Some _ => destruct x eqn:?
    end; try discriminate H; try (injection H as H; subst).

Lemma temp_run_preserves (P : temp_state -> Prop) (ok : temp_event -> Prop) :
  (forall s e s', ok e -> P s -> temp_step s e = Some s' -> P s') ->
  forall es s s', (forall e, e ∈ es -> ok e) -> P s -> temp_run s es = Some s' -> P s'.
Proof.
  intros Hstep es. induction es as [|e es IH]; intros s s' Hok HP H.
  - cbn in H. injection H as <-. exact HP.
  - rewrite temp_run_cons in H. destruct (temp_step s e) as [s1|] eqn:E; cbn [mbind option_bind] in H; [|done].
    eapply IH; [|eapply Hstep; [|exact HP|exact E]|exact H].
    + intros e' He'. apply Hok. by right.
    + apply Hok. by left.
Qed.

(** The directory is there exactly while somebody owns it. *)
Definition owned_there (s : temp_state) : Prop := tp_kind s = Owned /\ (tp_there s = true <-> dir_owned s = true).

Lemma clean_up_owned (s : temp_state) :
  tp_kind s = Owned -> (dir_owned s = true -> tp_there s = true) -> owned_there (clean_up s).
Proof.
  intros Hk Ht. unfold owned_there. cbn [clean_up tp_kind tp_there]. split; [done|].
  rewrite Hk, (bool_decide_eq_false_2 (Owned = Borrowed)) by done. rewrite orb_false_r.
  change (dir_owned (Temp (tp_kind s) (tp_main s) (tp_ui s) (tp_handlers s) (tp_there s && dir_owned s))) with (dir_owned s).
  rewrite andb_true_iff. tauto.
Qed.

Lemma owned_step (s s' : temp_state) (e : temp_event) : owned_there s -> temp_step s e = Some s' -> owned_there s'.
Proof.
  intros [Hk Ht] H.
  assert (Hless : dir_owned s = false -> tp_there s = false).
  { intros Hd. destruct (tp_there s); [|done]. destruct Ht as [Ht _]. rewrite Ht in Hd; done. }
  destruct s as [k m u n d]. cbn [tp_kind tp_there] in *.
  unfold temp_step in H. destruct (decide _) as [|Hg]; [done|].
  destruct e; cbn [tp_main tp_ui tp_handlers] in H;
    repeat match type of H with
      | (if ?b then _ else _) = Some _ => destruct b eqn:?
      | match ?x with _ => _ end = Some _ => destruct x eqn:?
      end; try discriminate H; injection H as <-; subst;
    try (apply clean_up_owned; [done|]; intros _; apply Ht;
         unfold dir_owned, checker_alive; cbn [tp_ui tp_handlers]; rewrite ?orb_true_r; try done;
         destruct (cackle_alive _), u; done);
    (split; [done|]); cbn [set_at set_handlers tp_there]; rewrite Ht; unfold dir_owned, checker_alive, cackle_alive;
    cbn [tp_main tp_ui tp_handlers set_at set_handlers]; try done.
  all: try (destruct u; rewrite ?orb_true_r; done).
Qed.

Lemma joined_step (s s' : temp_state) (e : temp_event) :
  e <> SummaryReturns -> (tp_main s = Running \/ tp_main s = Stopping \/ tp_ui s = false) ->
  temp_step s e = Some s' -> tp_main s' = Running \/ tp_main s' = Stopping \/ tp_ui s' = false.
Proof.
  intros He Hs H. temp_cases H; cbn in *; try done; try tauto; try (destruct Hs as [?|[?|?]]; tauto || congruence).
Qed.

Lemma run_removed (es : list temp_event) (s : temp_state) :
  ~ is_summary es -> temp_run (temp_init Owned) es = Some s -> has_exited s -> tp_handlers s = 0 -> ~ left_behind s.
Proof.
  intros Hs H Hx Hh Hl.
  assert (HO : owned_there s).
  { revert H. apply (temp_run_preserves owned_there (fun _ => True)); [intros a b c _; apply owned_step|done|done]. }
  assert (HU : tp_main s = Running \/ tp_main s = Stopping \/ tp_ui s = false).
  { revert H. apply (temp_run_preserves (fun s => tp_main s = Running \/ tp_main s = Stopping \/ tp_ui s = false)
      (fun e => e <> SummaryReturns)); [intros a b c; apply joined_step| |by left].
    intros e He ->. done. }
  destruct HO as [_ HO]. apply HO in Hl. unfold has_exited in Hx. rewrite Hx in HU.
  destruct HU as [?|[?|HU]]; [done|done|].
  unfold dir_owned, checker_alive, cackle_alive in Hl. rewrite Hx, HU, Hh in Hl. done.
Qed.

Lemma borrowed_stays (es : list temp_event) (s : temp_state) :
  temp_run (temp_init Borrowed) es = Some s -> left_behind s.
Proof.
  intros H. enough (tp_kind s = Borrowed /\ tp_there s = true) as [_ ?] by done.
  revert H. apply (temp_run_preserves (fun s => tp_kind s = Borrowed /\ tp_there s = true) (fun _ => True)); [|done|done].
  intros a e b _ [Hk Ht] H. temp_cases H; destruct a as [k m u h d]; cbn in *; subst; try done;
    (split; [done|]); rewrite (bool_decide_eq_true_2 (Borrowed = Borrowed)) by done; by rewrite orb_true_r.
Qed.

(** With the interface, its sender lives. *)
Lemma ui_waits_step (s s' : temp_state) (e : temp_event) :
  e <> UiCrashes -> tp_ui s = true -> tp_main s = Dropped \/ tp_main s = Gone -> temp_step s e = Some s' ->
  tp_ui s' = true /\ (tp_main s' = Dropped \/ tp_main s' = Gone).
Proof.
  intros He Hu Hm H. temp_cases H; cbn in *; try done; try tauto; try (destruct Hm; congruence).
  exfalso. match goal with X : (_ && _) = true |- _ => apply andb_true_iff in X as [_ X]; apply orb_true_iff in X as [X|X] end.
  - apply bool_decide_eq_true in Heqb. destruct Hm; congruence.
  - unfold sender_alive, store_alive in *. rewrite Hu in *. rewrite ?orb_true_r in *. cbn in *. 
    rewrite ?orb_true_r in *. done.
Qed.

Lemma left_running (es : list temp_event) (s s' : temp_state) :
  tp_main s <> Running -> temp_run s es = Some s' -> SummaryReturns ∉ es.
Proof.
  revert s. induction es as [|e es IH]; intros s Hm H; [by apply not_elem_of_nil|].
  rewrite temp_run_cons in H. destruct (temp_step s e) as [s1|] eqn:E; cbn [mbind option_bind] in H; [|done].
  apply not_elem_of_cons. split.
  - intros <-. temp_cases E. done.
  - eapply IH; [|exact H]. temp_cases E; cbn; done.
Qed.

Lemma running_step (s s' : temp_state) (e : temp_event) :
  e <> UiCrashes -> tp_main s = Running -> tp_ui s = true -> temp_step s e = Some s' -> tp_main s' = Running -> tp_ui s' = true.
Proof.
  intros He Hm Hu H Hm'. temp_cases H; cbn in *; try done.
  exfalso. match goal with X : (_ && _) = true |- _ => apply andb_true_iff in X as [_ X]; apply orb_true_iff in X as [X|X] end.
  - apply bool_decide_eq_true in Heqb. congruence.
  - unfold sender_alive, cackle_alive in *. rewrite Hm in *. done.
Qed.

Lemma summary_ui (es : list temp_event) (s s' : temp_state) :
  is_summary es -> ui_sound es -> tp_main s = Running -> tp_ui s = true -> temp_run s es = Some s' -> tp_ui s' = true.
Proof.
  revert s. induction es as [|e es IH]; intros s Hs Hc Hm Hu H; [by apply elem_of_nil in Hs|].
  apply not_elem_of_cons in Hc as [He Hc].
  rewrite temp_run_cons in H. destruct (temp_step s e) as [s1|] eqn:E; cbn [mbind option_bind] in H; [|done].
  destruct (decide (tp_main s1 = Running)) as [Hr|Hr].
  - apply elem_of_cons in Hs as [<-|Hs].
    + exfalso. temp_cases E. done.
    + apply (IH s1); [done|done|done| |done]. by apply (running_step s s1 e).
  - apply elem_of_cons in Hs as [<-|Hs]; [|exfalso; by eapply left_running].
    assert (H1 : tp_ui s1 = true /\ (tp_main s1 = Dropped \/ tp_main s1 = Gone)).
    { temp_cases E. cbn. auto. }
    enough (tp_ui s' = true /\ (tp_main s' = Dropped \/ tp_main s' = Gone)) by tauto.
    revert H. apply (temp_run_preserves (fun s => tp_ui s = true /\ (tp_main s = Dropped \/ tp_main s = Gone))
      (fun e => e <> UiCrashes)); [| |exact H1].
    + intros a b c Hb [Ha1 Ha2]. by apply ui_waits_step.
    + intros e' He' ->. done.
Qed.

Lemma summary_leaves (es : list temp_event) (k : temp_dir) (s : temp_state) :
  is_summary es -> ui_sound es -> temp_run (temp_init k) es = Some s -> left_behind s.
Proof.
  intros Hs Hc H. destruct k; [|by eapply borrowed_stays].
  pose proof (summary_ui es (temp_init Owned) s Hs Hc eq_refl eq_refl H) as Hu.
  assert (HO : owned_there s).
  { revert H. apply (temp_run_preserves owned_there (fun _ => True)); [intros a b c _; apply owned_step|done|done]. }
  apply HO. unfold dir_owned, checker_alive. rewrite Hu. by rewrite !orb_true_r.
Qed.
