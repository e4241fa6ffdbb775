(** Proofs about timings. *)
From stdpp Require Import gmap.
From Verif Require Import Base TimingModel TimingSpec.

Lemma spent_app (k : str) (rs ss : list (N * N * str)) : spent k (rs ++ ss) = (spent k rs + spent k ss)%N.
Proof. induction rs as [|[[s n] k'] rs IH]; cbn [spent app]; [done|]. rewrite IH. apply N.add_assoc. Qed.

Lemma spent_unreported (k : str) (rs : list (N * N * str)) : k ∉ map snd rs -> spent k rs = 0%N.
Proof.
  induction rs as [|[[s n] k'] rs IH]; [done|]. cbn [map snd spent]. intros H. apply not_elem_of_cons in H as [H1 H2].
  rewrite decide_False by done. by rewrite IH.
Qed.

Definition timed (c : timing_state) (rs : list (N * N * str)) : Prop :=
  tm_enabled c = true /\ NoDup (tm_order c) /\ in_order (tm_order c) rs /\
  (forall k, k ∈ tm_order c <-> k ∈ map snd rs) /\
  (forall k, tm_totals c !! k = if decide (k ∈ map snd rs) then Some (spent k rs) else None).

Lemma before_app (k1 k2 : str) (rs ss : list (N * N * str)) : reported_before k1 k2 rs -> reported_before k1 k2 (rs ++ ss).
Proof. intros (pre & s & n & post & -> & H). exists pre, s, n, (post ++ ss). by rewrite <- app_assoc. Qed.

Lemma before_new (k1 k2 : str) (rs ss : list (N * N * str)) :
  k1 ∈ map snd rs -> k2 ∉ map snd rs -> reported_before k1 k2 (rs ++ ss).
Proof.
  intros H1 H2. apply before_app. apply elem_of_list_fmap in H1 as ([[s n] k] & -> & H1).
  apply elem_of_list_split in H1 as (pre & post & ->). exists pre, s, n, post. split; [done|].
  intros H. apply H2. rewrite map_app. apply elem_of_app. by left.
Qed.

Lemma timed_step (c : timing_state) (rs : list (N * N * str)) (start now : N) (k : str) :
  timed c rs -> timed (add_timing c start now k) (rs ++ [(start, now, k)]).
Proof.
  intros (He & Hd & Ho & Hk & Ht). unfold add_timing. rewrite He, (Ht k).
  assert (Hm : forall x, x ∈ map snd (rs ++ [(start, now, k)]) <-> x ∈ map snd rs \/ x = k).
  { intros x. rewrite map_app, elem_of_app. cbn [map snd]. by rewrite elem_of_list_singleton. }
  assert (Hs : forall x, spent x (rs ++ [(start, now, k)]) = (spent x rs + if decide (x = k) then now - start else 0)%N).
  { intros x. rewrite spent_app. cbn [spent]. by rewrite N.add_0_r. }
  destruct (decide (k ∈ map snd rs)) as [Hin|Hin].
  - split; [done|]. cbn [tm_order tm_totals]. split; [done|]. split; [|split].
    + intros l1 k1 l2 k2 l3 E. apply before_app. by apply (Ho l1 k1 l2 k2 l3).
    + intros x. rewrite Hk, Hm. split; [by left|]. by intros [H| ->].
    + intros x. destruct (decide (x = k)) as [->|Hx].
      * rewrite lookup_insert, decide_True by (apply Hm; by left). rewrite Hs, decide_True by done. done.
      * rewrite lookup_insert_ne, Ht by done. rewrite Hs, (decide_False (P := x = k)) by done. rewrite N.add_0_r.
        destruct (decide (x ∈ map snd rs)) as [H|H].
        -- rewrite decide_True; [done|]. apply Hm. by left.
        -- rewrite decide_False; [done|]. rewrite Hm. by intros [?|?].
  - split; [done|]. cbn [tm_order tm_totals]. split; [|split; [|split]].
    + apply NoDup_app. split; [done|]. split; [|apply NoDup_singleton].
      intros x Hx Hx'. apply elem_of_list_singleton in Hx' as ->. by apply Hin, Hk.
    + intros l1 k1 l2 k2 l3 E. destruct l3 as [|y l3] using rev_ind.
      * rewrite app_comm_cons, app_assoc in E. apply app_inj_tail in E as [E <-]. apply before_new; [|done].
        apply Hk. rewrite E. apply elem_of_app. right. by left.
      * clear IHl3. apply before_app. apply (Ho l1 k1 l2 k2 l3).
        rewrite !app_comm_cons, !app_assoc in E. rewrite <- !app_assoc in E.
        replace (l1 ++ (k1 :: l2) ++ (k2 :: l3) ++ [y]) with ((l1 ++ k1 :: l2 ++ k2 :: l3) ++ [y]) in E
          by (rewrite <- !app_assoc; cbn; by rewrite <- !app_assoc).
        by apply app_inj_tail in E as [E _].
    + intros x. rewrite elem_of_app, elem_of_list_singleton, Hk, Hm. done.
    + intros x. destruct (decide (x = k)) as [->|Hx].
      * rewrite lookup_insert, decide_True by (apply Hm; by right). rewrite Hs, decide_True by done.
        by rewrite spent_unreported.
      * rewrite lookup_insert_ne, Ht by done. rewrite Hs, (decide_False (P := x = k)) by done. rewrite N.add_0_r.
        destruct (decide (x ∈ map snd rs)) as [H|H].
        -- rewrite decide_True; [done|]. apply Hm. by left.
        -- rewrite decide_False; [done|]. rewrite Hm. by intros [?|?].
Qed.

Lemma timed_run (rs : list (N * N * str)) : timed (timing_run true rs) rs.
Proof.
  induction rs as [|[[start now] k] rs IH] using rev_ind.
  - split; [done|]. split; [constructor|]. split; [intros [|? ?] ? ? ? ? E; discriminate E|]. split; [done|].
    intros k. rewrite decide_False by apply not_elem_of_nil. apply lookup_empty.
  - unfold timing_run. rewrite foldl_app. cbn [foldl fst snd]. by apply timed_step.
Qed.

Lemma timing_printed (rs : list (N * N * str)) :
  exists ks, timing_lines (timing_run true rs) = Some (map (fun k => (k, spent k rs)) ks) /\
    NoDup ks /\ in_order ks rs /\ forall k, k ∈ ks <-> k ∈ map snd rs.
Proof.
  destruct (timed_run rs) as (_ & Hd & Ho & Hk & Ht). exists (tm_order (timing_run true rs)). split; [|done].
  unfold timing_lines. apply mapM_Some_2. 
  assert (Hall : forall k, k ∈ tm_order (timing_run true rs) -> tm_totals (timing_run true rs) !! k = Some (spent k rs)).
  { intros k H. rewrite Ht, decide_True; [done|]. by apply Hk. }
  clear -Hall. induction (tm_order (timing_run true rs)) as [|k ks IH]; cbn [map]; constructor.
  - cbn. rewrite Hall by (by left). done.
  - apply IH. intros x Hx. apply Hall. by right.
Qed.

Lemma timing_silent (rs : list (N * N * str)) : timing_lines (timing_run false rs) = Some [].
Proof.
  assert (H : timing_run false rs = timing_new false); [|by rewrite H].
  induction rs as [|r rs IH] using rev_ind; [done|]. unfold timing_run in *. by rewrite foldl_app, IH.
Qed.
