(** Proofs about the comment prompt. *)
From Verif Require Import Base BaseFacts ApiMapModel ConfigModel ProblemModel StoreModel TermModel TermSpec TermProofs
  TermKeyProofs RecallSpec.

(** ** Lists of comments *)

Lemma rev_reverse (l : list str) : rev l = reverse l.
Proof. apply rev_alt. Qed.

Lemma latest_in (x : str) (l : list str) : x ∈ latest_first l <-> x ∈ l.
Proof.
  induction l as [|c l IH]; [done|]. cbn [latest_first]. rewrite !elem_of_cons, elem_of_list_filter, IH.
  destruct (decide (x = c)); tauto.
Qed.

Lemma latest_nodup (l : list str) : NoDup (latest_first l).
Proof.
  induction l as [|c l IH]; [constructor|]. cbn [latest_first]. constructor; [|by apply NoDup_filter].
  rewrite elem_of_list_filter. tauto.
Qed.

Lemma filter_twice (c : str) (l : list str) :
  filter (fun x => x <> c) (filter (fun x => x <> c) l) = filter (fun x => x <> c) l.
Proof.
  induction l as [|x l IH]; [done|]. rewrite filter_cons. destruct (decide (x <> c)); [|done].
  rewrite filter_cons. destruct (decide (x <> c)); [|done]. by rewrite IH.
Qed.

Lemma filter_rev (c : str) (l : list str) :
  filter (fun x => x <> c) (rev l) = rev (filter (fun x => x <> c) l).
Proof.
  induction l as [|x l IH]; [done|]. cbn [rev]. rewrite filter_app, IH, !filter_cons, filter_nil.
  destruct (decide (x <> c)); [done|]. by rewrite app_nil_r.
Qed.

Lemma remember_latest (l : list str) (c : str) :
  remember_comment (rev (latest_first l)) c = rev (latest_first (c :: l)).
Proof.
  unfold remember_comment. cbn [latest_first rev]. rewrite filter_rev.
  case_bool_decide as H; [|done]. destruct l as [|x l]; [done|].
  cbn [latest_first rev] in *. rewrite last_snoc in H. injection H as ->.
  rewrite filter_cons, decide_False by tauto. by rewrite filter_twice.
Qed.

Lemma position_at (l : list str) (x : str) : forall i, NoDup l -> l !! i = Some x -> position x l = i.
Proof.
  induction l as [|y l IH]; intros i Hn Hi; [done|]. apply NoDup_cons in Hn as [Hy Hn]. cbn [position].
  destruct i as [|i]; cbn in Hi.
  - injection Hi as ->. assert (str_eqb x x = true) as -> by by apply str_eqb_spec. done.
  - destruct (str_eqb y x) eqn:E; [|f_equal; by apply IH].
    apply str_eqb_spec in E as ->. exfalso. by apply Hy, elem_of_list_lookup_2 with i.
Qed.

Lemma position_none (l : list str) (x : str) : x ∉ l -> position x l = length l.
Proof.
  induction l as [|y l IH]; intros Hx; [done|]. cbn [position length]. rewrite not_elem_of_cons in Hx.
  destruct Hx as [H1 H2]. destruct (str_eqb y x) eqn:E; [apply str_eqb_spec in E; by subst|]. f_equal. by apply IH.
Qed.

Lemma rev_at (l : list str) (i : nat) : i < length l -> rev l !! (length l - S i) = l !! i.
Proof. intros H. rewrite rev_reverse. rewrite reverse_lookup by lia. f_equal. lia. Qed.

(** One arrow key. *)
Lemma earlier_at (l : list str) (n : nat) (up : bool) (i : input) :
  NoDup l -> [] ∉ l -> n <= length l -> in_value i = text_at l n \/ n = 0 /\ in_value i ∉ l ->
  in_value (earlier_comment (rev l) up i) = text_at l (move l n up) /\ move l n up <= length l.
Proof.
  intros Hn Hne Hle Hv. split; [|unfold move; destruct up; lia].
  assert (Hp : position (in_value i) (rev l) = length l - n).
  { destruct n as [|m].
    - rewrite Nat.sub_0_r, <- rev_length. apply position_none. rewrite rev_reverse, elem_of_reverse.
      destruct Hv as [->|[_ Hv]]; done.
    - destruct Hv as [Hv|[? _]]; [|done]. cbn [text_at] in Hv.
      destruct (lookup_lt_is_Some_2 l m) as [x Hx]; [lia|]. rewrite Hx in Hv. cbn in Hv. rewrite Hv.
      apply position_at.
      + by apply NoDup_ListNoDup, NoDup_rev, NoDup_ListNoDup.
      + rewrite rev_at by lia. done. }
  unfold earlier_comment. rewrite Hp. unfold move. destruct up.
  - destruct (Nat.le_gt_cases (length l) n) as [Hge|Hlt].
    + assert (n = length l) as -> by lia. rewrite Nat.sub_diag. cbn [Nat.pred].
      rewrite Nat.min_r by lia. destruct (length l) as [|m] eqn:El.
      * apply nil_length_inv in El as ->. done.
      * cbn [text_at]. pose proof (rev_at l m) as H. rewrite El, Nat.sub_diag in H. rewrite H by lia.
        destruct (lookup_lt_is_Some_2 l m) as [x Hx]; [lia|]. by rewrite Hx.
    + rewrite Nat.min_l by lia. cbn [text_at].
      replace (Nat.pred (length l - n)) with (length l - S n) by lia. rewrite rev_at by lia.
      destruct (lookup_lt_is_Some_2 l n) as [x Hx]; [lia|]. by rewrite Hx.
  - destruct n as [|[|m]]; cbn [Nat.pred].
    + rewrite lookup_ge_None_2; [done|]. rewrite rev_length. lia.
    + rewrite lookup_ge_None_2; [done|]. rewrite rev_length. lia.
    + cbn [text_at]. replace (S (length l - S (S m))) with (length l - S m) by lia. rewrite rev_at by lia.
      destruct (lookup_lt_is_Some_2 l m) as [x Hx]; [lia|]. by rewrite Hx.
Qed.

(** ** Runs *)

Section runs.
  Context (o : outside).

  Lemma taken_app (l1 : list (step o)) : forall (l2 : list (step o)) (s s1 : term o) tr,
    term_run o s l1 = Some (s1, tr) -> taken o s (l1 ++ l2) = taken o s l1 ++ taken o s1 l2.
  Proof.
    induction l1 as [|a l1 IH]; intros l2 s s1 tr Hr.
    - cbn in Hr. by injection Hr as -> _.
    - cbn [term_run] in Hr. destruct (term_step o s a) as [s' acts| | |] eqn:E; [|done..].
      destruct (term_run o s' l1) as [[s'' tr']|] eqn:E'; [|done]. injection Hr as -> <-.
      cbn [app taken]. rewrite E. rewrite <- app_assoc. f_equal. by eapply IH.
  Qed.

  Lemma confirmed_app (l1 l2 : list (term o * key)) : confirmed o (l1 ++ l2) = confirmed o l2 ++ confirmed o l1.
  Proof. unfold confirmed. by rewrite omap_app, rev_app_distr. Qed.

  Lemma confirmed_not_empty (l : list (term o * key)) : [] ∉ confirmed o l.
  Proof.
    unfold confirmed. rewrite rev_reverse, elem_of_reverse, elem_of_list_omap.
    intros ([s k] & _ & H). cbn in H. destruct (on_top o s) as [[]|]; try done. destruct k; try done.
    by destruct (in_value i).
  Qed.

  (** What one step does to the comments and the prompt. *)
  Lemma step_taken (s s' : term o) (a : step o) (acts : list (act o)) :
    term_step o s a = Stepped s' acts ->
    (taken o s [a] = [] /\ ts_ui s' = ts_ui s) \/
    (exists k r, takes_key o s /\ taken o s [a] = [(s, k)] /\ handle_key o (ts_ui s) (ts_world s) k = r /\
       (r = Handled (ts_ui s') (ts_world s') acts \/ r = Failed (ts_ui s') (ts_world s') acts)).
  Proof.
    intros Hs. cbn [taken]. rewrite Hs, app_nil_r.
    destruct (step_ui o _ _ _ _ Hs) as [[Hu _]|(k & r & Hk & -> & Hh & Hr)].
    - destruct a as [c ps|c|t wr| |p]; try by left. destruct p as [| |k]; try by left.
      destruct (ts_at s) eqn:Ea; try by left. destruct (ts_error s) eqn:Ee; [by left|].
      right. exists k, (handle_key o (ts_ui s) (ts_world s) k).
      cbn [term_step] in Hs. rewrite Ea in Hs. unfold at_key in Hs. rewrite Ee in Hs.
      split; [done|]. split; [done|]. split; [done|].
      destruct (handle_key o (ts_ui s) (ts_world s) k) as [u w ac|u w ac| |]; [..|done|done];
        injection Hs as <- <-; cbn; auto.
    - right. exists k, r. destruct Hk as [Ha He]. rewrite Ha, He. done.
  Qed.

  Lemma reached_previous (f : o_text o) (w : bool) (c : config) (l : list (step o)) :
    forall (s : term o) tr, term_run o (term_init o f w c) l = Some (s, tr) ->
    tu_previous (ts_ui s) = rev (latest_first (confirmed o (taken o (term_init o f w c) l))).
  Proof.
    induction l as [|a l IH] using rev_ind; intros s tr Hr.
    - cbn in Hr. by injection Hr as <- _.
    - assert (Hre : reached o (l ++ [a]) s tr) by (by exists f, w, c).
      rewrite run_app in Hr. destruct (term_run o (term_init o f w c) l) as [[s1 tr1]|] eqn:E; [|done].
      cbn [term_run] in Hr. destruct (term_step o s1 a) as [s2 acts| | |] eqn:Es; [|done..]. injection Hr as -> _.
      rewrite (taken_app _ _ _ _ _ E), confirmed_app. specialize (IH _ _ eq_refl).
      assert (Hr1 : reached o l s1 tr1) by (by exists f, w, c).
      destruct (step_taken _ _ _ _ Es) as [[Ht Hu]|(k & r & Hk & Ht & Hh & Hr)].
      + rewrite Ht, Hu, IH. done.
      + rewrite Ht. pose proof (key_tidy o (ts_ui s1) (ts_world s1) k (proj1 (reached_memory o _ _ _ Hr1))) as HT.
        rewrite Hh in HT.
        assert (HT' : tidy o (ts_ui s1) k (Handled (ts_ui s) (ts_world s) acts))
          by (destruct Hr as [Er|Er]; rewrite Er in HT; exact HT).
        clear HT. unfold confirmed at 1. cbn [omap list_omap rev]. cbn [fst snd].
        destruct (on_top o s1) as [[]|] eqn:Eo.
        4: { unfold on_top in Eo. destruct (tu_modes (ts_ui s1)) as [|m ms] eqn:Em; [done|].
          cbn in Eo. injection Eo as ->. unfold handle_key in Hh. rewrite Em in Hh. unfold in_comment_mode in Hh.
          destruct k; cbn in Hh; subst r.
          all: try (destruct Hr as [Hr|Hr]; [|done]; injection Hr as <- _ _; cbn; exact IH).
          destruct Hr as [Hr|Hr]; [|done]. injection Hr as <- _ _. unfold confirm_comment.
          destruct (in_value i) as [|x v] eqn:Ev; cbn [rev app]; [exact IH|].
          cbn [tu_previous pop set_modes set_comment]. rewrite IH. by rewrite remember_latest. }
        all: destruct HT' as (_ & _ & _ & [(_ & T & _)|[[_ T]|(i' & Hi & _)]]); [by rewrite T, IH..|];
          unfold on_top in Eo; by rewrite Eo in Hi.
  Qed.
End runs.
