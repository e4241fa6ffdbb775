(** Proofs about the two mutexes. *)
From Verif Require Import Base LockModel LockSpec.

(** The checker may be locked while the store is, not the other way round, and nothing is asked with a lock. *)
Fixpoint in_order (checker store : bool) (l : list action) : bool :=
  match l with
  | [] => negb checker && negb store
  | Waits :: l => in_order checker store l
  | Asks :: l => negb checker && negb store && in_order checker store l
  | Lock OfChecker :: l => negb checker && in_order true store l
  | Lock OfStore :: l => negb checker && negb store && in_order checker true l
  | Unlock OfChecker :: l => checker && in_order false store l
  | Unlock OfStore :: l => store && negb checker && in_order checker false l
  end.

Lemma in_order_part (p : part) (l : list action) :
  in_order false false l = true -> in_order false false (part_actions p ++ l) = true.
Proof. intros H. destruct p; cbn; exact H. Qed.

Lemma in_order_thread (ps : list part) : in_order false false (thread_actions ps) = true.
Proof.
  induction ps as [|p ps IH]; [done|]. unfold thread_actions. cbn [map concat].
  apply in_order_part, IH.
Qed.

Definition orderly (s : lock_state) : Prop :=
  (forall m t, holder s m = Some t -> exists l, lk_threads s !! t = Some l) /\
  forall t l, lk_threads s !! t = Some l ->
    in_order (bool_decide (lk_checker s = Some t)) (bool_decide (lk_store s = Some t)) l = true.

Lemma orderly_init (threads : list (list part)) : orderly (lock_init threads).
Proof.
  split.
  - intros [] t H; done.
  - intros t l H. cbn [lock_init lk_threads lk_checker lk_store] in *. rewrite list_lookup_fmap in H.
    destruct (threads !! t); [|done]. injection H as <-. rewrite !bool_decide_eq_false_2 by done. apply in_order_thread.
Qed.

Lemma lookup_step (ts : list (list action)) (t u : nat) (l l' x : list action) :
  ts !! t = Some l -> <[t := l']> ts !! u = Some x -> (u = t /\ x = l') \/ (u <> t /\ ts !! u = Some x).
Proof.
  intros Ht Hu. destruct (decide (u = t)) as [->|Hne].
  - rewrite list_lookup_insert in Hu; [|by eapply lookup_lt_Some]. left. split; congruence.
  - rewrite list_lookup_insert_ne in Hu by done. auto.
Qed.

Lemma exists_step (ts : list (list action)) (t u : nat) (l' : list action) :
  (exists l, ts !! u = Some l) -> exists l, <[t := l']> ts !! u = Some l.
Proof.
  intros [l Hl]. apply lookup_lt_Some in Hl. apply lookup_lt_is_Some_2. by rewrite insert_length.
Qed.

Lemma orderly_step (s s' : lock_state) (t : nat) : orderly s -> lock_step s t = Some s' -> orderly s'.
Proof.
  intros [HH HI] H. unfold lock_step in H. destruct (lk_threads s !! t) as [[|a l]|] eqn:E; [done| |done].
  pose proof (HI t _ E) as Ht. destruct s as [c st ts]. cbn [lk_checker lk_store lk_threads] in *.
  assert (HH1 : forall u, c = Some u -> exists l, ts !! u = Some l) by (intros u; apply (HH OfChecker)).
  assert (HH2 : forall u, st = Some u -> exists l, ts !! u = Some l) by (intros u; apply (HH OfStore)).
  destruct a as [m|m| |].
  - destruct m; cbn [holder lk_checker lk_store] in H.
    + destruct c; [done|]. injection H as <-. split; [intros [] u Hu; cbn in *|intros u x Hu; cbn in Hu |- *].
      * apply exists_step. injection Hu as <-. eauto.
      * apply exists_step. auto.
      * destruct (lookup_step _ _ _ _ _ _ E Hu) as [[-> ->]|[Hne Hu']].
        -- cbn [in_order] in Ht. apply andb_true_iff in Ht as [_ Ht]. by rewrite (bool_decide_eq_true_2 (Some t = Some t)).
        -- rewrite (bool_decide_eq_false_2 (Some t = Some u)) by congruence. specialize (HI u x Hu').
           by rewrite (bool_decide_eq_false_2 (None = Some u)) in HI.
    + destruct st; [done|]. injection H as <-. split; [intros [] u Hu; cbn in *|intros u x Hu; cbn in Hu |- *].
      * apply exists_step. auto.
      * apply exists_step. injection Hu as <-. eauto.
      * destruct (lookup_step _ _ _ _ _ _ E Hu) as [[-> ->]|[Hne Hu']].
        -- cbn [in_order] in Ht. apply andb_true_iff in Ht as [_ Ht]. by rewrite (bool_decide_eq_true_2 (Some t = Some t)).
        -- rewrite (bool_decide_eq_false_2 (Some t = Some u)) by congruence. specialize (HI u x Hu').
           by rewrite (bool_decide_eq_false_2 (None = Some u)) in HI.
  - destruct (decide (holder (Locks c st ts) m = Some t)) as [Hm|]; [|done].
    injection H as <-. destruct m; cbn [holder lk_checker lk_store] in Hm; subst;
      (split; [intros [] u Hu; cbn in *; try done; apply exists_step; auto|intros u x Hu; cbn in Hu |- *]).
    + rewrite (bool_decide_eq_false_2 (None = Some u)) by done.
      destruct (lookup_step _ _ _ _ _ _ E Hu) as [[-> ->]|[Hne Hu']].
      * cbn [in_order] in Ht. by apply andb_true_iff in Ht as [_ Ht].
      * specialize (HI u x Hu'). by rewrite (bool_decide_eq_false_2 (Some t = Some u)) in HI by congruence.
    + rewrite (bool_decide_eq_false_2 (None = Some u)) by done.
      destruct (lookup_step _ _ _ _ _ _ E Hu) as [[-> ->]|[Hne Hu']].
      * cbn [in_order] in Ht. by apply andb_true_iff in Ht as [_ Ht].
      * specialize (HI u x Hu'). by rewrite (bool_decide_eq_false_2 (Some t = Some u)) in HI by congruence.
  - injection H as <-. split; [intros [] u Hu; cbn in *; apply exists_step; auto|intros u x Hu; cbn in Hu |- *].
    destruct (lookup_step _ _ _ _ _ _ E Hu) as [[-> ->]|[Hne Hu']]; [exact Ht|auto].
  - injection H as <-. split; [intros [] u Hu; cbn in *; apply exists_step; auto|intros u x Hu; cbn in Hu |- *].
    destruct (lookup_step _ _ _ _ _ _ E Hu) as [[-> ->]|[Hne Hu']]; [|auto].
    cbn [in_order] in Ht. by apply andb_true_iff in Ht as [_ Ht].
Qed.

Lemma lock_run_none (ts : list nat) : fold_left (fun s t => s ← s; lock_step s t) ts None = None.
Proof. induction ts as [|t ts IH]; cbn; [done|exact IH]. Qed.

Lemma lock_run_cons (s : lock_state) (t : nat) (ts : list nat) :
  lock_run s (t :: ts) = (s' ← lock_step s t; lock_run s' ts).
Proof.
  unfold lock_run. cbn [fold_left]. cbn [mbind option_bind].
  destruct (lock_step s t); cbn [mbind option_bind]; [done|apply lock_run_none].
Qed.

Lemma orderly_run (ts : list nat) (s s' : lock_state) : orderly s -> lock_run s ts = Some s' -> orderly s'.
Proof.
  revert s. induction ts as [|t ts IH]; intros s Hs H; [cbn in H; by injection H as <-|].
  rewrite lock_run_cons in H. destruct (lock_step s t) as [s1|] eqn:E; cbn [mbind option_bind] in H; [|done].
  eapply IH; [by eapply orderly_step|done].
Qed.

Lemma orderly_progress (s : lock_state) : orderly s -> (exists t, unfinished s t) -> exists t, is_Some (lock_step s t).
Proof.
  intros [HH HI] [t0 (a0 & l0 & H0)]. destruct s as [c st ts]. cbn [lk_checker lk_store lk_threads] in *.
  destruct c as [t|].
  - destruct (HH OfChecker t eq_refl) as [l Hl]. pose proof (HI t l Hl) as Ht. cbn in Hl.
    rewrite (bool_decide_eq_true_2 (Some t = Some t)) in Ht by done.
    exists t. unfold lock_step. cbn [lk_threads]. rewrite Hl. destruct l as [|[[]|[]| |] l]; cbn in Ht; try done; eauto.
    + rewrite decide_True by done. eauto.
    + by rewrite andb_false_r in Ht.
  - destruct st as [t|].
    + destruct (HH OfStore t eq_refl) as [l Hl]. pose proof (HI t l Hl) as Ht. cbn in Hl.
      rewrite (bool_decide_eq_true_2 (Some t = Some t)) in Ht by done.
      rewrite (bool_decide_eq_false_2 (None = Some t)) in Ht by done.
      exists t. unfold lock_step. cbn [lk_threads]. rewrite Hl. destruct l as [|[[]|[]| |] l]; cbn in Ht; try done; eauto.
      rewrite decide_True by done. eauto.
    + pose proof (HI t0 _ H0) as Ht. rewrite !(bool_decide_eq_false_2 (None = Some t0)) in Ht by done.
      exists t0. unfold lock_step. cbn [lk_threads]. rewrite H0. destruct a0 as [[]|[]| |]; cbn in Ht; try done; cbn; eauto.
Qed.

(** How much is left to do. *)
Definition left_to_do (s : lock_state) : nat := sum_list (map length (lk_threads s)).

Lemma sum_insert (ts : list (list action)) (t : nat) (a : action) (l : list action) :
  ts !! t = Some (a :: l) -> sum_list (map length ts) = S (sum_list (map length (<[t := l]> ts))).
Proof.
  revert t. induction ts as [|x ts IH]; intros [|t] H; cbn in H; try done.
  - injection H as ->. cbn. lia.
  - cbn. rewrite (IH t H). apply Nat.add_succ_r.
Qed.

Lemma step_less (s s' : lock_state) (t : nat) : lock_step s t = Some s' -> left_to_do s = S (left_to_do s').
Proof.
  unfold lock_step, left_to_do. intros H. destruct (lk_threads s !! t) as [[|a l]|] eqn:E; [done| |done].
  rewrite (sum_insert _ _ _ _ E). f_equal.
  destruct a as [m|m| |]; [destruct (holder s m); [done|]|destruct (decide (holder s m = Some t)); [|done]| |];
    injection H as <-; try destruct m; done.
Qed.

Lemma all_finish (n : nat) (s : lock_state) :
  left_to_do s = n -> orderly s ->
  exists ts s', lock_run s ts = Some s' /\ forall t, ~ unfinished s' t.
Proof.
  revert s. induction n as [|n IH]; intros s Hn Hs.
  - exists [], s. split; [done|]. intros t (a & l & H). unfold left_to_do in Hn. rewrite (sum_insert _ _ _ _ H) in Hn. lia.
  - assert (Hu : exists t, unfinished s t).
    { unfold left_to_do in Hn. unfold unfinished. revert Hn. generalize (lk_threads s). clear. intros ts.
      induction ts as [|[|a l] ts IHts]; cbn; intros H; [lia| |exists 0; eauto].
      destruct (IHts H) as (t & a & l & Hl). exists (S t), a, l. exact Hl. }
    destruct (orderly_progress s Hs Hu) as [t [s1 H1]].
    pose proof (step_less s s1 t H1) as Hlt.
    destruct (IH s1) as (ts & s' & Hr & Hf); [lia|by eapply orderly_step|].
    exists (t :: ts), s'. rewrite lock_run_cons, H1. done.
Qed.

Lemma asks_free (s : lock_state) (t : nat) (l : list action) (m : mutex) :
  orderly s -> lk_threads s !! t = Some (Asks :: l) -> ~ holds s m t.
Proof.
  intros [_ HI] Hl Hm. specialize (HI t _ Hl). cbn [in_order] in HI.
  apply andb_true_iff in HI as [HI _]. apply andb_true_iff in HI as [H1 H2].
  destruct m; unfold holds in Hm; cbn [holder] in Hm; rewrite bool_decide_eq_true_2 in * by done; done.
Qed.
