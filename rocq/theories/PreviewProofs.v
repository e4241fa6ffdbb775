(** Facts for C254. *)
From Coq Require Import Lia ZArith.
From Verif Require Import Base BaseFacts DiffModel DiffSpec DiffProofs PreviewModel.

(** [remove_spec] for every number of lines. *)
Lemma shorten_spec (lines : list str) (max : Z) :
  let out := shorten lines max in
  shortened lines out /\
  ((Z.of_nat (length lines) <= max)%Z -> out = lines) /\
  ((Z.of_nat (length out) <= max)%Z \/ Forall (fun s => ~ context_line s) out).
Proof.
  unfold shorten. cbn zeta.
  set (bs := find_blocks 0 None lines).
  destruct (find_blocks_runs lines 0 None [] eq_refl) as [Hruns _]. cbn [length app Nat.sub] in Hruns. fold bs in Hruns.
  pose proof (find_blocks_count lines 0 None) as Hcount. fold bs in Hcount. cbn in Hcount.
  pose proof (find_blocks_take lines 0 None I) as Htake. fold bs in Htake.
  destruct (saved_zero bs Htake) as [Hsv Hlo].
  assert (Hcl : ctx_count lines <= length lines).
  { unfold ctx_count. clear. induction lines as [|x l IH]; [done|]. cbn [List.filter].
    destruct (is_context x); cbn [length]; lia. }
  destruct (reclaim_spec (S (length lines)) (Z.of_nat (length lines) - max) bs) as (H1 & [H2 H2'] & H3);
    [lia|]. cbn zeta in *.
  set (bs1 := reclaim _ _ bs) in *.
  pose proof (took_runs _ _ _ _ Hruns H1) as Hr1. apply runs_filter in Hr1.
  destruct (rebuild_spec 0 lines _ Hr1) as (_ & Hsh & Hct & Hlen).
  { apply Forall_forall. intros b Hb. by apply elem_of_list_filter in Hb as [? _]. }
  assert (taken (filter (fun b => 0 < b_take b) bs1) = taken bs1) as Et
    by (apply sum_filter; done).
  assert (saved (filter (fun b => 0 < b_take b) bs1) = saved bs1) as Es
    by (apply sum_filter; intros b ->; done).
  rewrite Et in Hct. rewrite Es in Hlen. split_and!.
  - done.
  - intros Hle. rewrite H2' by lia.
    assert (filter (fun b => 0 < b_take b) bs = []) as ->; [|apply rebuild_none].
    clear -Htake. induction Htake as [|b l Hb _ IH]; [done|]. rewrite filter_cons, IH.
    destruct (decide _); [lia|done].
  - destruct H3 as [H3|H3]; [left; lia|right].
    apply lengths_ge in H3. pose proof (took_lengths _ _ H1) as El.
    set (out := rebuild _ _ _) in *. assert (ctx_count out = 0) as H0 by lia.
    clear -H0. induction out as [|x out IH]; [constructor|]. unfold ctx_count in H0. cbn [List.filter] in H0.
    destruct (is_context x) eqn:E; [done|]. constructor; [|by apply IH].
    intros Hx. apply is_context_iff in Hx. congruence.
Qed.

Lemma change_kept (lines out : list str) (s : str) :
  shortened lines out -> s ∈ lines -> ~ context_line s -> s ∈ out.
Proof.
  intros Hs Hin Hn. revert Hin. induction Hs as [|line l l' _ IH|run Hc|run line l l' _ Hc _ IH]; intros Hin.
  - done.
  - apply elem_of_cons in Hin as [->|Hin]; [left|right; auto].
  - rewrite Forall_forall in Hc. by destruct Hn; apply Hc.
  - apply elem_of_app in Hin as [Hin|Hin]; [|right; auto].
    rewrite Forall_forall in Hc. by destruct Hn; apply Hc.
Qed.

(** Without a change nothing is displayed. *)
Lemma select_nothing (script before : list diff_line) :
  Forall (fun d => is_change d = false) script -> change_near before = false ->
  select in_section before script = [].
Proof.
  intros H. revert before. induction H as [|d script Hd H IH]; intros before Hb; [done|]. cbn [select].
  assert (change_near script = false) as Ha.
  { clear IH. induction H as [|x l Hx H IH]; [done|]. cbn [change_near]. by rewrite Hx, IH, andb_false_r. }
  assert (in_section before d script = false) as ->.
  { unfold in_section. rewrite Hd, Hb, Ha. by destruct (is_header d). }
  apply IH. cbn [change_near]. by rewrite Hd, Hb, andb_false_r.
Qed.
