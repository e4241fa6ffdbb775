(** C223-C228: options, the end of a run, the configurations of the calls of cargo. *)
From Verif Require Import Base BaseFacts TextModel ApiMapModel ConfigModel ConfigSpec ProblemModel StoreModel StoreSpec TomlModel
  EditorModel EditorSpec EditorProps CheckerModel UiSpec UiProofs UiProps LaunchModel LaunchSpec LaunchProofs LaunchProps
  TermModel TermSpec TermProofs TermProps.
From Verif Require Import UiModel OptionsModel OptionsSpec.

(** ** C223: what is printed at the end *)

(** Success is announced, with the summary, exactly if the run succeeds, has no sub-command and is not quiet. *)
Theorem C223_announced :
  forall (o : options) (ui_ok : bool) (r : run_results),
  (CompletedLine ∈ (run_and_report o ui_ok r).1 <->
     (run_and_report o ui_ok r).2 = Success /\ op_quiet o = false /\ fl_command (op_flags o) = false) /\
  (SummaryLines ∈ (run_and_report o ui_ok r).1 <-> CompletedLine ∈ (run_and_report o ui_ok r).1).
Proof.
  intros o ui_ok r. unfold run_and_report. destruct ui_ok; cbn [negb fst snd].
  2: { rewrite !elem_of_list_singleton. naive_solver. }
  destruct ((main_run r).2) as [[]|], (op_print_map o), (op_print_timing o), (op_quiet o), (fl_command (op_flags o));
    cbn [app negb andb]; repeat case_bool_decide; cbn [app negb andb]; try done;
    rewrite ?elem_of_cons, ?elem_of_nil; intuition (first [discriminate|done]).
Qed.
Print Assumptions C223_announced.

(** If success is announced, then nobody was told to give up, the build succeeded, and permissions that are not used
    were looked for and dealt with. *)
Theorem C223_truthful :
  forall (o : options) (ui_ok : bool) (r : run_results) (s : store) (es : list store_event),
  history s es -> rr_aborted r = st_aborted s -> fl_command (op_flags o) = rr_command r ->
  (rr_initial r = Some GiveUp -> exists c, GiveUp ∈ received es c) ->
  (rr_imports r = GiveUp -> exists c, GiveUp ∈ received es c) ->
  CompletedLine ∈ (run_and_report o ui_ok r).1 ->
  nobody_gave_up es /\ rr_build r = true /\
  (rr_replay r = false -> rr_unused r = true /\ rr_unused_fix r = Continue).
Proof.
  intros o ui_ok r s es Hh Ha Hf Hi Hm Hin.
  destruct (C223_announced o ui_ok r) as [[H _] _]. destruct (H Hin) as (Hs & _ & Hc).
  destruct (C94_success ui_ok r s es Hh Ha Hi Hm) as (_ & H1 & _ & _ & _ & _ & _ & H2 & H3).
  { unfold exit_with, run_and_report in *. by destruct ui_ok. }
  split_and!; [done..|]. intros Hr. apply H3; [congruence|done].
Qed.
Print Assumptions C223_truthful.

(** A run that ends with an error, of its own or of the interface, has its error printed and fails. *)
Theorem C223_errors :
  forall (o : options) (ui_ok : bool) (r : run_results),
  (ui_ok = false -> UiErrorLine ∈ (run_and_report o ui_ok r).1 /\ (run_and_report o ui_ok r).2 = Failure) /\
  (ui_ok = true -> (main_run r).2 = None ->
     ErrorLine ∈ (run_and_report o ui_ok r).1 /\ (run_and_report o ui_ok r).2 = Failure) /\
  ((run_and_report o ui_ok r).2 = Success -> UiErrorLine ∉ (run_and_report o ui_ok r).1 /\
     ErrorLine ∉ (run_and_report o ui_ok r).1).
Proof.
  intros o ui_ok r. unfold run_and_report. destruct ui_ok; cbn [negb fst snd].
  2: { split; [|split]; [intros _; split; [left|done]|done|done]. }
  split; [done|]. split.
  - intros _ ->. split; [left|done].
  - destruct ((main_run r).2) as [[]|], (op_print_map o), (op_print_timing o), (op_quiet o), (fl_command (op_flags o));
      cbn [app negb andb]; repeat case_bool_decide; cbn [app negb andb]; try done;
      rewrite ?elem_of_cons, ?elem_of_nil; intuition (first [discriminate|done]).
Qed.
Print Assumptions C223_errors.

Definition op_plain (quiet : bool) : options := Options false None (UiFlags false false false) quiet false false.

Example C223_ex :
  run_and_report (op_plain false) true (run_ex (Some 0%Z) false) = ([CompletedLine; SummaryLines], Success) /\
  run_and_report (op_plain true) true (run_ex (Some 0%Z) false) = ([], Success) /\
  run_and_report (op_plain false) true (run_ex None false) = ([ErrorLine], Failure).
Proof. done. Qed.

(** A warning was submitted and closed before success was announced. *)
Example C223_truthful_ex :
  exists (s : store) (es : list store_event),
    history s es /\ rr_aborted (run_ex (Some 0%Z) false) = st_aborted s /\ received es 0 = [Continue] /\
    CompletedLine ∈ (run_and_report (op_plain false) true (run_ex (Some 0%Z) false)).1.
Proof.
  assert (H : match store_run store_init [SAdd 0 [ui_warning]; SReplace 0 []] with
              | Some (s, es) => st_aborted s = false /\ received es 0 = [Continue]
              | None => False
              end) by (vm_compute; done).
  destruct (store_run store_init [SAdd 0 [ui_warning]; SReplace 0 []]) as [[s es]|] eqn:E; [|done].
  destruct H as [H1 H2]. exists s, es. split; [by eexists|]. split; [by rewrite H1|]. split; [done|left].
Qed.

(** ** C224: quiet *)

(** The help of [--quiet] says "Don't print anything on success". Without a terminal a warning about something that is
    not used is printed all the same, and the run succeeds. *)
Theorem C224_refuted :
  exists (o : options) (fixes : problem -> config -> list edit) (apply : edit -> table -> option table) (i : ui_input)
         (f : ui_flags) (p : problem) (s : ui_system) (acts : list ui_act) (answer : outcome) (r : run_results),
  op_quiet o = true /\ start_ui o false = NullInterface f /\ fl_command f = rr_command r /\
  system_run fixes apply f ui_system_init [USubmit 0 [p]; UTurn i] = Some (s, acts) /\
  APrinted Warning p ∈ acts /\ answers acts 0 = [answer] /\ rr_unused_fix r = answer /\
  run_and_report o true r = ([], Success).
Proof.
  exists (op_plain true), ui_fixes, ui_apply, ui_nothing, (UiFlags false false false), ui_warning.
  assert (H : match system_run ui_fixes ui_apply (UiFlags false false false) ui_system_init
                      [USubmit 0 [ui_warning]; UTurn ui_nothing] with
              | Some (s, acts) => APrinted Warning ui_warning ∈ acts /\ answers acts 0 = [Continue]
              | None => False
              end) by (vm_compute; split; [repeat first [left|right]|done]).
  destruct (system_run ui_fixes ui_apply (UiFlags false false false) ui_system_init
              [USubmit 0 [ui_warning]; UTurn ui_nothing]) as [[s acts]|]; [|done].
  destruct H as [H1 H2]. exists s, acts, Continue, (run_ex (Some 0%Z) false). by split_and!.
Qed.
Print Assumptions C224_refuted.

(** ** C225: which interface is used *)

(** An interactive interface is used only if the options ask for it, and then the output of cargo is kept apart from
    it. Otherwise nobody is asked, and the options for that case are followed. *)
Theorem C225_interface :
  forall (o : options) (terminal : bool),
  (interactive o terminal -> start_ui o terminal ∈ [BasicInterface; FullInterface] /\ captures o terminal = true) /\
  (~ interactive o terminal -> start_ui o terminal = NullInterface (op_flags o) /\ captures o terminal = false) /\
  (op_no_ui o = true \/ (op_ui o = None /\ terminal = false) -> ~ interactive o terminal).
Proof.
  intros [no ui f q m t] terminal. unfold interactive, start_ui, captures, ui_kind. cbn.
  split_and!.
  - intros [-> [-> |[-> |[-> ->]]]]; cbn; (split; [rewrite !elem_of_cons; tauto|done]).
  - intros H. destruct no; [done|]. destruct ui as [[]|]; [done| | |]; try (exfalso; apply H; tauto).
    destruct terminal; [exfalso; apply H; tauto|done].
  - intros [->|[-> ->]] [H1 H2]; [done|]. destruct H2 as [H2|[H2|[_ H2]]]; done.
Qed.
Print Assumptions C225_interface.

Example C225_ex :
  interactive (op_plain false) true /\ start_ui (op_plain false) true = FullInterface /\
  ~ interactive (op_plain false) false.
Proof. unfold interactive. split; [cbn; tauto|]. split; [done|]. cbn. intros [_ [H|[H|[_ H]]]]; done. Qed.

(** ** C226: automatic fixes on a terminal *)

(** The help of [--auto-accept-fixes] says that the first fix is accepted automatically "for all problems". On a
    terminal nothing is ever written before somebody presses a key, whatever the problems are. *)
Theorem C226_refuted :
  exists o : options,
  fl_auto_accept (op_flags o) = true /\ start_ui o true = FullInterface /\
  (forall (w : outside) (l : list (step w)) (s : term w) (tr : list (step w * list (act w))),
     reached w l s tr -> Forall no_key l -> written w (acts_of w tr) = []) /\
  exists (w : outside) (l : list (step w)) (s : term w) (tr : list (step w * list (act w))) (e : edit) (p : problem),
     reached w l s tr /\ Forall no_key l /\ open_problems w s = [(0, p)] /\ offered w s p = [e].
Proof.
  exists (Options false None (UiFlags false false true) false false false).
  split; [done|]. split; [done|]. split.
  - intros w l. induction l as [|a l IH] using rev_ind; intros s tr Hr Hk.
    + destruct Hr as (file & writable & c & Hr). injection Hr as _ <-. done.
    + apply Forall_app in Hk as [Hk Ha]. apply (proj1 (Forall_singleton _ _)) in Ha.
      pose proof Hr as (file & writable & c & Hrun). rewrite run_app in Hrun.
      destruct (term_run w (term_init w file writable c) l) as [[s1 tr1]|] eqn:E; [|done].
      cbn [term_run] in Hrun. destruct (term_step w s1 a) as [s2 acts| | |] eqn:Es; [|done..].
      injection Hrun as <- <-.
      assert (Hr1 : reached w l s1 tr1) by (by exists file, writable, c).
      specialize (IH _ _ Hr1 Hk). unfold acts_of in *. rewrite map_app, concat_app. cbn [map concat snd].
      rewrite app_nil_r. unfold written in *. rewrite omap_app, IH. cbn [app].
      destruct (omap _ acts) as [|t ts] eqn:Ew; [done|]. exfalso.
      assert (Ht : Wrote t ∈ acts).
      { assert (t ∈ omap (fun a => match a with Wrote t => Some t | _ => None end) acts) as Hin by (rewrite Ew; left).
        apply elem_of_list_omap in Hin as (x & Hx & Hxt). destruct x; try done. by injection Hxt as ->. }
      destruct (C132_asked w l s1 s2 tr1 a acts t Hr1 Es Ht) as [(k & -> & _)|Hag]; [by apply (Ha k)|].
      destruct Hag as (l0 & s0 & tr0 & s' & acts' & tr' & _ & _ & _ & _ & _ & Heq).
      assert (Hm : TGo (PollKey KEnter) ∈ map fst (tr1 ++ [(a, acts)])).
      { rewrite Heq, map_app. apply elem_of_app. right. left. }
      rewrite map_app in Hm. destruct Hr as (_ & _ & _ & _).
      pose proof (run_steps w _ _ _ _ E) as Hf. rewrite Hf in Hm. cbn [map fst] in Hm.
      apply elem_of_app in Hm as [Hm|Hm].
      * rewrite Forall_forall in Hk. by apply (Hk _ Hm KEnter).
      * apply elem_of_list_singleton in Hm. by apply (Ha KEnter).
  - pose (l := tx_start [tx_macro] ++ tx_wait).
    exists tx, l, (tx_run tx_empty l).1, (tx_run tx_empty l).2, (AllowProcMacro (lit "foo", All)), tx_macro.
    split_and!; [apply tx_reached; tx_eq| |tx_eq|tx_eq].
    unfold l, tx_start, tx_wait. cbn [app]. repeat constructor; done.
Qed.
Print Assumptions C226_refuted.

(** ** C227: cleaning and building *)

(** If the file is not changed in the meantime, the profile that is built is the one that was cleaned, and it is that
    of the configuration that the checker has. *)
Theorem C227_same :
  forall (dir tmpdir target_dir exe rustc names : str) (a : launch_args) (l : loads) (p f : str) (words : list str),
  la_command a = None -> unchanged l ->
  wanted_profile a (checker_of l) p -> wanted_features a (checker_of l) f -> wanted_words a (checker_of l) (lit "build") words ->
  LaunchSpec.harmless p -> LaunchSpec.harmless f -> (forall w, w ∈ words -> LaunchSpec.harmless w) ->
  (forall w, w ∈ la_packages a -> LaunchSpec.harmless w) -> (forall t, la_target a = Some t -> LaunchSpec.harmless t) ->
  option_values (lit "--profile") (clean_of dir target_dir a l) = [p] /\
  option_values (lit "--profile") (build_of dir tmpdir target_dir exe rustc names a l) = [p] /\
  option_values (lit "--features") (build_of dir tmpdir target_dir exe rustc names a l) = (if decide (f = []) then [] else [f]).
Proof.
  intros dir tmpdir target_dir exe rustc names a l p f words Hc [Hu1 Hu2] Hp Hf Hw H1 H2 H3 H4 H5.
  unfold checker_of in *. rewrite Hu2 in *.
  assert (E : default (ld_first l) (last (ld_handled l)) = ld_first l).
  { destruct (last (ld_handled l)) as [c|] eqn:El; [|done]. cbn. apply last_Some_elem_of in El.
    rewrite Forall_forall in Hu1. by apply Hu1. }
  unfold build_of, clean_of. rewrite E.
  destruct (C155_options dir tmpdir target_dir exe rustc names a (ld_first l) (lit "build") p f words Hp Hf Hw H1 H2 H3 H4 H5)
    as (X1 & _ & X2 & _).
  destruct (C155_clean dir tmpdir target_dir exe rustc names a (ld_first l) p Hc Hp H1) as (_ & _ & Y & _).
  by split_and!.
Qed.
Print Assumptions C227_same.

Definition op_config (profile : str) (features : list str) : build_config := BuildConfig (Some profile) features None.
Definition op_args : launch_args := LaunchArgs false None None None None [].
Definition op_same : loads := Loads (op_config (lit "dev") [lit "x"]) [op_config (lit "dev") [lit "x"]] (op_config (lit "dev") [lit "x"]).

Example C227_ex :
  unchanged op_same /\ wanted_profile op_args (checker_of op_same) (lit "dev") /\
  wanted_features op_args (checker_of op_same) (lit "x") /\
  wanted_words op_args (checker_of op_same) (lit "build") [lit "--all-targets"] /\
  option_values (lit "--profile") (clean_of [] [] op_args op_same) = [lit "dev"].
Proof.
  split; [split; [by repeat constructor|done]|]. split; [by right; left|]. split; [|split; [|by vm_compute]].
  - unfold wanted_features. cbn. tauto.
  - unfold wanted_words. cbn. tauto.
Qed.

(** If the profile is changed while problems found before the build are dealt with, a profile is built that was not
    cleaned: what cargo finds there already is not compiled again, and so not checked. *)
Theorem C228_refuted :
  exists (a : launch_args) (l : loads),
  la_command a = None /\ last (ld_handled l) = Some (checker_of l) /\
  forall dir tmpdir target_dir exe rustc names, exists p q,
    option_values (lit "--profile") (clean_of dir target_dir a l) = [p] /\
    option_values (lit "--profile") (build_of dir tmpdir target_dir exe rustc names a l) = [q] /\
    wanted_profile a (checker_of l) q /\ p <> q.
Proof.
  exists op_args, (Loads (op_config (lit "dev") []) [op_config (lit "ci") []] (op_config (lit "ci") [])).
  split; [done|]. split; [done|]. intros dir tmpdir target_dir exe rustc names. exists (lit "dev"), (lit "ci").
  split; [reflexivity|]. split; [reflexivity|]. split; [by right; left|]. discriminate.
Qed.
Print Assumptions C228_refuted.

(** A change of the file while unused imports are asked about reaches the checker, but not cargo. *)
Theorem C229_refuted :
  exists (a : launch_args) (l : loads) (p f : str),
  la_command a = None /\ wanted_profile a (checker_of l) p /\ wanted_features a (checker_of l) f /\ f <> [] /\
  forall dir tmpdir target_dir exe rustc names,
    let call := build_of dir tmpdir target_dir exe rustc names a l in
    option_values (lit "--profile") call <> [p] /\ option_values (lit "--features") call <> [f].
Proof.
  exists op_args, (Loads (op_config (lit "dev") []) [] (op_config (lit "ci") [lit "x"])), (lit "ci"), (lit "x").
  split; [done|]. split; [by right; left|]. split; [unfold wanted_features; cbn; tauto|]. split; [discriminate|].
  intros dir tmpdir target_dir exe rustc names call. split; discriminate.
Qed.
Print Assumptions C229_refuted.
