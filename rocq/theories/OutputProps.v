(** C265, C266: the output of cargo in the course of a run. *)
From Verif Require Import Base WireModel WireSpec WireProofs OutputModel OutputSpec OutputProofs.

(** ** C265: a build goes on *)

(** If all that cargo prints fits into the pipes, the run can go on to its end at any time, whether the interface has been
    opened or not and without the user quitting. *)
Theorem C265_little_output :
  forall (capacity : nat) (todo : list (channel * ascii)) (ok : bool) (es : list run_event) (w : whole_run_state),
  run_steps capacity (run_start todo ok) es = Some w ->
  (forall t, length (text_on t todo) <= capacity) ->
  exists es' w', UserQuits ∉ es' /\ run_steps capacity w es' = Some w' /\ wr_phase w' = Exited.
Proof.
  intros capacity todo ok es w Hr Hcap.
  destruct (course_steps _ _ _ _ _ _ _ (course_start todo ok) Hr) as (quit & Hw & _).
  destruct (decide (wr_phase w = Exited)) as [Hx|Hx]; [exists [], w; split; [apply not_elem_of_nil|done]|].
  destruct (wr_running w) eqn:Hrun; [|by eapply finish].
  destruct w as [l k r p o]. cbn [wr_phase wr_running] in *. subst r.
  destruct (print_room capacity l k p o Hx) as (es1 & o1 & Hn1 & Hr1).
  - intros t. apply (co_closed _ _ _ _ Hw t).
  - intros t. destruct (co_out _ _ _ _ Hw) as (oes & Ho & Ht). cbn [wr_out wr_todo] in *.
    destruct (output_invariant oes o Ho t) as [Hp _]. destruct (Ht t) as (cut & Hcut & _). specialize (Hcap t).
    rewrite <- Hcut, Hp, !app_length in Hcap. lia.
  - destruct (course_steps _ _ _ _ _ _ _ Hw Hr1) as (q1 & Hw1 & _).
    destruct (finish_printed capacity _ _ _ _ Hw1) as (es2 & w2 & Hn2 & Hr2 & Hx2); [done|done|].
    exists (es1 ++ es2), w2. split; [|split; [|done]].
    + intros Hin. by apply elem_of_app in Hin as [?|?].
    + by rewrite (run_steps_app _ _ _ _ _ Hr1).
Qed.
Print Assumptions C265_little_output.

(** As long as the full-screen interface has not been opened, it does so however much cargo prints. *)
Theorem C265_unopened :
  forall (capacity : nat) (todo : list (channel * ascii)) (ok : bool) (es : list run_event) (w : whole_run_state),
  0 < capacity -> run_steps capacity (run_start todo ok) es = Some w -> UiOpens ∉ es ->
  exists es' w', UserQuits ∉ es' /\ run_steps capacity w es' = Some w' /\ wr_phase w' = Exited.
Proof.
  intros capacity todo ok es w Hcap Hr Hno.
  destruct (course_steps _ _ _ _ _ _ _ (course_start todo ok) Hr) as (quit & Hw & _).
  assert (Hl : os_locked (wr_out w) = false) by (by eapply never_locked).
  destruct (decide (wr_phase w = Exited)) as [Hx|Hx]; [exists [], w; split; [apply not_elem_of_nil|done]|].
  destruct (wr_running w) eqn:Hrun; [|by eapply finish].
  destruct w as [l k r p o]. cbn [wr_phase wr_running wr_out] in *. subst r.
  pose proof (co_closed _ _ _ _ Hw) as Hc. cbn [wr_out wr_running negb] in Hc.
  destruct (print_free capacity l k p o Hx Hcap Hc) as (es1 & o1 & Hn1 & Hr1); [|done|].
  - intros t. destruct (co_out _ _ _ _ Hw) as (oes & Ho & _). cbn [wr_out] in Ho.
    destruct (output_invariant oes o Ho t) as [_ He]. destruct (pi_ended (os_pipe o t)) eqn:E; [|done].
    destruct (He eq_refl) as (_ & _ & H). by rewrite Hc in H.
  - destruct (course_steps _ _ _ _ _ _ _ Hw Hr1) as (q1 & Hw1 & _).
    destruct (finish_printed capacity _ _ _ _ Hw1) as (es2 & w2 & Hn2 & Hr2 & Hx2); [done|done|].
    exists (es1 ++ es2), w2. split; [|split; [|done]].
    + intros Hin. by apply elem_of_app in Hin as [?|?].
    + by rewrite (run_steps_app _ _ _ _ _ Hr1).
Qed.
Print Assumptions C265_unopened.

Definition ou_on (t : channel) (s : str) : list (channel * ascii) := map (fun c => (t, c)) s.
Definition ou_text : list (channel * ascii) := ou_on Stderr (lit "warning") ++ ou_on Stdout (lit "ok").
Definition ou_run : list run_event :=
  replicate 7 CargoPrints ++ [UiOpens; CargoPrints; Passes Stderr (Some 4); CargoPrints; CargoEnds; CargoSeen; UiCloses;
    Passes Stderr None; Passes Stderr (Some 3); Passes Stdout (Some 2); Passes Stderr None; Passes Stderr None;
    Passes Stdout None; Passes Stdout None; MainExits].

Example C265_ex :
  exists w, run_steps 8 (run_start ou_text true) ou_run = Some w /\ wr_phase w = Exited /\
    pieces_on Stderr (os_shown (wr_out w)) = lit "warning" /\ pieces_on Stdout (os_shown (wr_out w)) = lit "ok".
Proof. eexists. split; [vm_compute; reflexivity|]. by vm_compute. Qed.

(** Printing as much as there is room for. *)
Lemma prints (capacity n m : nat) (k : bool) (o : output_state) :
  (forall t, pi_closed (os_pipe o t) = false) -> length (pi_waiting (os_pipe o Stderr)) + n <= capacity ->
  exists o', run_steps capacity (WholeRun (replicate (n + m) (Stderr, "x"%char)) k true Building o) (replicate n CargoPrints) =
      Some (WholeRun (replicate m (Stderr, "x"%char)) k true Building o') /\
    os_locked o' = os_locked o /\ pi_held (os_pipe o' Stderr) = pi_held (os_pipe o Stderr) /\
    length (pi_waiting (os_pipe o' Stderr)) = length (pi_waiting (os_pipe o Stderr)) + n.
Proof.
  revert o. induction n as [|n IH]; intros o Hc Hn.
  - exists o. split_and!; [done|done|done|lia].
  - set (o1 := set_pipe Stderr (Pipe (pi_waiting (os_pipe o Stderr) ++ ["x"%char]) false (pi_held (os_pipe o Stderr)) (pi_ended (os_pipe o Stderr))) o).
    assert (P : os_pipe o1 Stderr = Pipe (pi_waiting (os_pipe o Stderr) ++ ["x"%char]) false (pi_held (os_pipe o Stderr)) (pi_ended (os_pipe o Stderr)))
      by (unfold o1; cbn; by rewrite decide_True).
    destruct (IH o1) as (o' & Hr & Hl & Hh & Hlen).
    { intros t. unfold o1. cbn. destruct (decide (t = Stderr)); [done|auto]. }
    { rewrite P. cbn. rewrite app_length. cbn. lia. }
    exists o'. split_and!.
    + cbn [replicate Nat.add]. rewrite run_steps_cons. cbn [run_step]. rewrite decide_False by done.
      assert (E : Nat.ltb (length (pi_waiting (os_pipe o Stderr))) capacity = true) by (apply Nat.ltb_lt; lia).
      rewrite E. cbn [andb output_step]. rewrite Hc. exact Hr.
    + by rewrite Hl.
    + by rewrite Hh, P.
    + rewrite Hlen, P. cbn. rewrite app_length. cbn. lia.
Qed.

(** Otherwise, once the full-screen interface is open, the run can come to a stop for good: cargo waits for room in the pipe,
    the thread that reads the pipe for the terminal, which belongs to the interface, and the interface for cargo. Only
    quitting, which kills cargo, helps. However much a pipe holds, there is such a run. *)
Theorem C265_refuted :
  forall capacity : nat, 0 < capacity ->
  exists (todo : list (channel * ascii)) (es : list run_event) (w : whole_run_state),
    run_steps capacity (run_start todo true) es = Some w /\ UserQuits ∉ es /\
    forall es' w', UserQuits ∉ es' -> run_steps capacity w es' = Some w' -> wr_phase w' <> Exited.
Proof.
  intros capacity Hcap.
  assert (E : exists o, run_steps capacity (run_start (replicate (S (capacity + 1)) (Stderr, "x"%char)) true)
               [UiOpens; CargoPrints; Passes Stderr (Some 1)] =
               Some (WholeRun (replicate (capacity + 1) (Stderr, "x"%char)) true true Building o) /\
               os_pipe o Stderr = Pipe [] false (Some ["x"%char]) false /\ os_locked o = true /\
               forall t, pi_closed (os_pipe o t) = false).
  { destruct capacity as [|n]; [lia|]. eexists. split; [reflexivity|]. split; [reflexivity|]. split; [reflexivity|]. by intros []. }
  destruct E as (o & Eo & Hp & Hlk & Hcl).
  destruct (prints capacity capacity 1 true o Hcl) as (o2 & Hr & Hl & Hh & Hlen); [rewrite Hp; cbn; lia|].
  rewrite Hp in Hh, Hlen. rewrite Hlk in Hl.
  exists (replicate (S (capacity + 1)) (Stderr, "x"%char)).
  exists ([UiOpens; CargoPrints; Passes Stderr (Some 1)] ++ replicate capacity CargoPrints).
  exists (WholeRun (replicate 1 (Stderr, "x"%char)) true true Building o2). split_and!.
  - rewrite (run_steps_app _ _ _ _ _ Eo). exact Hr.
  - intros H. apply elem_of_app in H as [H|H].
    + revert H. apply (bool_decide_unpack _). vm_compute. exact I.
    + apply elem_of_replicate in H as [H _]. done.
  - intros es' w' Hn Hs.
    assert (J : jammed capacity (WholeRun (replicate 1 (Stderr, "x"%char)) true true Building o2)).
    { split; [done|]. split; [done|]. split; [exact Hl|]. exists Stderr, "x"%char, []. split; [done|]. split.
      - cbn [wr_out]. rewrite Hlen. cbn. lia.
      - exists ["x"%char]. exact Hh. }
    destruct (jammed_steps capacity es' _ w' J Hn Hs) as (E & _). by rewrite E.
Qed.
Print Assumptions C265_refuted.

(** ** C266: the output is complete at the end *)

(** If cargo has succeeded, everything that it printed is on the terminal when the process ends. *)
Theorem C266_success :
  forall (capacity : nat) (todo : list (channel * ascii)) (es : list run_event) (w : whole_run_state) (t : channel),
  run_steps capacity (run_start todo true) es = Some w -> UserQuits ∉ es -> wr_phase w = Exited ->
  pieces_on t (os_shown (wr_out w)) = text_on t todo.
Proof.
  intros capacity todo es w t Hr Hq Hx.
  destruct (course_steps _ _ _ _ _ _ _ (course_start todo true) Hr) as (quit & Hw & Hqq). specialize (Hqq Hq). subst quit.
  pose proof (co_ok _ _ _ _ Hw eq_refl) as Hok. pose proof (co_exited _ _ _ _ Hw Hx Hok) as Hwait.
  destruct (co_out _ _ _ _ Hw) as (oes & Ho & Ht). destruct (Ht t) as (cut & Hcut & Hc). rewrite (Hc eq_refl), app_nil_r in Hcut.
  assert (Htodo : wr_todo w = []).
  { apply (co_ended _ _ _ _ Hw). apply (co_phase _ _ _ _ Hw). by rewrite Hx. }
  rewrite Htodo in Hcut. cbn [text_on] in Hcut. rewrite app_nil_r in Hcut. rewrite <- Hcut, <- pieces_shown.
  destruct (output_invariant oes (wr_out w) Ho t) as [Hp He]. unfold output_waited in Hwait. apply andb_true_iff in Hwait as [Ha Hb].
  assert (Hend : pi_ended (os_pipe (wr_out w) t) = true) by (by destruct t). destruct (He Hend) as (Hh & Hwt & _).
  rewrite Hp. unfold held. rewrite Hh, Hwt. cbn. by rewrite app_nil_r.
Qed.
Print Assumptions C266_success.

Example C266_ex :
  UserQuits ∉ ou_run /\ text_on Stderr ou_text = lit "warning" /\ text_on Stdout ou_text = lit "ok".
Proof. split; [apply (bool_decide_unpack _); vm_compute; exact I|]. by vm_compute. Qed.

Definition ou_error : str := lit "error[E0425]: cannot find value".
Definition ou_failed : list run_event :=
  replicate (length ou_error) CargoPrints ++ [CargoEnds; CargoSeen; UiCloses; MainExits].

(** If cargo fails, nobody waits for its output: what it said about the failure can be missing. *)
Theorem C266_refuted :
  exists (capacity : nat) (todo : list (channel * ascii)) (es : list run_event) (w : whole_run_state) (t : channel),
    run_steps capacity (run_start todo false) es = Some w /\ UserQuits ∉ es /\ UiOpens ∉ es /\ wr_phase w = Exited /\
    text_on t todo = ou_error /\ pieces_on t (os_shown (wr_out w)) = [].
Proof.
  exists 100, (ou_on Stderr ou_error), ou_failed. eexists. exists Stderr.
  split; [vm_compute; reflexivity|]. split; [apply (bool_decide_unpack _); vm_compute; exact I|].
  split; [apply (bool_decide_unpack _); vm_compute; exact I|]. by vm_compute.
Qed.
Print Assumptions C266_refuted.
