(** C39 and what follows from the non-interactive mode. *)
From Verif Require Import Base BaseFacts ApiMapModel ConfigModel ConfigSpec ProblemModel StoreModel StoreSpec
  StoreProofs TomlModel EditorModel EditorSpec CheckerModel UiModel UiSpec UiProofs EditorProps.

(** ** C39: the answers of the non-interactive mode *)

(** Each client is answered by the first turn of the interface after its submission, such a turn is always
    possible, and the answer is to give up exactly if anything submitted so far by anybody makes the run
    fail. *)
Theorem C39_answers :
  forall (fixes : problem -> config -> list edit) (apply : edit -> table -> option table) (f : ui_flags)
         (l1 l2 : list ui_step) (c : nat) (ps : list problem) (s : ui_system) (acts : list ui_act),
  fl_auto_accept f = false ->
  system_run fixes apply f ui_system_init (l1 ++ USubmit c ps :: l2) = Some (s, acts) ->
  NoDup (submitters (l1 ++ USubmit c ps :: l2)) ->
  (Forall (fun a => ~ is_turn a) l2 ->
     answers acts c = [] /\
     forall i, exists s' acts', system_step fixes apply f s (UTurn i) = Stepped s' acts') /\
  (forall b1 i b2, l2 = b1 ++ UTurn i :: b2 -> Forall (fun a => ~ is_turn a) b1 ->
     ((exists p, p ∈ submissions (l1 ++ USubmit c ps :: b1) /\ objects f p) -> answers acts c = [GiveUp]) /\
     ((forall p, p ∈ submissions (l1 ++ USubmit c ps :: b1) -> ~ objects f p) ->
        answers acts c = [Continue])).
Proof. intros fixes apply f l1 l2 c ps s acts. apply answered. Qed.
Print Assumptions C39_answers.

(** Before giving up everything that makes the run fail is printed as an error, with all its usages. *)
Theorem C39_printed :
  forall (fixes : problem -> config -> list edit) (apply : edit -> table -> option table) (f : ui_flags)
         (l : list ui_step) (i : ui_input) (p : problem) (s s' : ui_system) (acts acts' : list ui_act),
  fl_auto_accept f = false ->
  system_run fixes apply f ui_system_init l = Some (s, acts) ->
  system_step fixes apply f s (UTurn i) = Stepped s' acts' ->
  p ∈ submissions l -> objects f p ->
  exists q, APrinted Error q ∈ acts' /\ same_problem q p /\ forall u, u ∈ usages_in p -> u ∈ usages_in q.
Proof.
  intros fixes apply f l i p s s' acts acts' Hauto Hrun Hs Hin Hobj.
  pose proof (run_reached fixes apply f _ _ _ Hauto Hrun) as R.
  destruct (re_kept _ _ _ _ R p Hin Hobj) as (id & q & Hq & Hsame & Hu).
  exists q. split; [|done].
  destruct (step_turn fixes apply f _ _ _ _ _ _ Hauto R Hs) as (_ & Hp & _). apply Hp.
  split; [by exists id|]. by rewrite (objects_same f _ _ Hsame).
Qed.
Print Assumptions C39_printed.

(** A panic is only possible when nothing is submitted, which [fix_problems] does not do. *)
Theorem C39_no_panic :
  forall (fixes : problem -> config -> list edit) (apply : edit -> table -> option table) (f : ui_flags)
         (l : list ui_step) (a : ui_step) (s : ui_system) (acts : list ui_act),
  fl_auto_accept f = false ->
  system_run fixes apply f ui_system_init l = Some (s, acts) ->
  system_step fixes apply f s a = Panicked -> exists c, a = USubmit c [].
Proof.
  intros fixes apply f l a s acts Hauto Hrun.
  pose proof (run_reached fixes apply f _ _ _ Hauto Hrun) as [Hh Hr _ _ _ _].
  destruct a as [c ps|i]; cbn [system_step].
  - destruct (store_step (us_store s) (SAdd c ps)) as [[s1 e]|] eqn:E; [done|]. intros _.
    apply (panics_iff _ _ _ Hh) in E as [[c' E]|(id & ps' & E & _)]; [|done]. exists c. congruence.
  - rewrite Hr. destruct (us_events s); [done|]. unfold null_turn. rewrite Hauto.
    by destruct (report_spec f (us_store s) _ Hh) as (s1 & acts1 & -> & _).
Qed.
Print Assumptions C39_no_panic.

Definition ui_none : config := Config empty_raw ∅ ∅.
Definition ui_nothing : ui_input := UiInput ui_none (Some []) true.
Definition ui_fixes : problem -> config -> list edit :=
  fixes_for_problem (fun _ => sandbox_default) no_export no_prefixes.
Definition ui_apply : edit -> table -> option table := apply_edit any_kind ∅.
Definition ui_warning : problem := PUnusedPackageConfig (lit "foo", All).
Definition ui_error : problem := PDisallowedApiUsage (ed_usage Test (lit "net")).

(** Client 0 has a warning, client 1 an error; client 2 only has a warning, but it comes too late. *)
Example C39_ex :
  let f := UiFlags false false false in
  match system_run ui_fixes ui_apply f ui_system_init
          [USubmit 0 [ui_warning]; UTurn ui_nothing; USubmit 1 [ui_warning; ui_error]; UTurn ui_nothing;
           USubmit 2 [ui_warning]; UTurn ui_nothing] with
  | Some (s, acts) =>
      answers acts 0 = [Continue] /\ answers acts 1 = [GiveUp] /\ answers acts 2 = [GiveUp] /\
      APrinted Warning ui_warning ∈ acts /\ APrinted Error ui_error ∈ acts
  | None => False
  end.
Proof. vm_compute. split_and!; try done; repeat first [left|right]. Qed.

Example C39_ex_flags :
  let run f := match system_run ui_fixes ui_apply f ui_system_init
                       [USubmit 0 [ui_warning]; UTurn ui_nothing] with
               | Some (_, acts) => answers acts 0
               | None => []
               end in
  run (UiFlags false true false) = [GiveUp] /\ run (UiFlags true true false) = [Continue].
Proof. by vm_compute. Qed.

(** ** C93: automatic fixes *)

(** A turn with automatic fixes never panics. If each first fix can be applied in turn and the file can be
    written, the file is written once, with exactly these fixes in the order of the problems; all problems
    with a fix are resolved; and then either something without a fix makes the run fail and everybody who
    still waits is told to give up, or nothing is left open. Otherwise nothing is written. *)
Theorem C93_auto_accept :
  forall (fixes : problem -> config -> list edit) (apply : edit -> table -> option table) (f : ui_flags)
         (i : ui_input) (s : store) (es : list store_event) (d : table),
  fl_auto_accept f = true -> history s es -> ui_file i = Some d ->
  let fx := fixable fixes (ui_config i) (store_open s) in
  exists s' acts ok, null_turn fixes apply f i s = Some (s', acts, ok) /\
    history s' (es ++ store_events acts) /\
    match apply_in_order apply fx.*2 d with
    | Some d' =>
        if decide (fx = []) then written acts = [] /\ ok = true
        else if ui_writable i then written acts = [d'] /\ ok = true else written acts = [] /\ ok = false
    | None => written acts = [] /\ ok = false
    end /\
    (ok = true ->
       (forall id, id ∈ fx.*1 -> id ∈ resolved acts) /\
       ((exists id p, (id, p) ∈ unfixable fixes (ui_config i) (store_open s) /\ objects f p) /\
          st_aborted s' = true /\ st_entries s' = [] \/
        (forall id p, (id, p) ∈ unfixable fixes (ui_config i) (store_open s) -> ~ objects f p) /\
          st_aborted s' = st_aborted s /\ store_open s' = [])).
Proof. intros fixes apply f i s es d. apply auto_turn. Qed.
Print Assumptions C93_auto_accept.

(** [foo] may use [net] in its tests afterwards; the message has no fix. *)
Definition ui_loaded (d : table) : ui_input := UiInput (config_of (ed_load ed_idx d)) (Some d) true.

Example C93_ex :
  let f := UiFlags false false true in
  let d := ed_doc 3 ed_foo in
  let fixed := edited_doc (AllowApiUsage (lit "foo", Test) (lit "net")) d in
  match system_run ui_fixes ui_apply f ui_system_init
          [USubmit 0 [ui_error]; USubmit 1 [PMessage (lit "x")]; UTurn (ui_loaded d)] with
  | Some (s, acts) =>
      answers acts 0 = [Continue] /\ answers acts 1 = [GiveUp] /\ written acts = [fixed] /\ fixed <> d /\
      us_running s = true
  | None => False
  end.
Proof. by vm_compute. Qed.

(** ** C94: exit code *)

(** The run exits with success only if the configuration was loaded and reloaded, cargo ran and succeeded,
    and nobody was ever told to give up: neither a part of the main procedure (a part that was told to give
    up is among the clients) nor a wrapper. *)
Theorem C94_success :
  forall (ui_ok : bool) (r : run_results) (s : store) (es : list store_event),
  history s es -> rr_aborted r = st_aborted s ->
  (rr_initial r = Some GiveUp -> exists c, GiveUp ∈ received es c) ->
  (rr_imports r = GiveUp -> exists c, GiveUp ∈ received es c) ->
  exit_with ui_ok r = Success ->
  ui_ok = true /\ nobody_gave_up es /\
  rr_create r = Continue /\ rr_load r = true /\ rr_initial r = Some Continue /\ rr_imports r = Continue /\
  rr_reload r = true /\ rr_build r = true /\
  (rr_command r = false -> rr_replay r = false -> rr_unused r = true /\ rr_unused_fix r = Continue).
Proof.
  intros ui_ok r s es Hh Hab Hi Him. unfold exit_with, main_run. destruct ui_ok; [|done]. cbn [negb].
  destruct (rr_create r); [|done]. destruct (rr_load r); [|done]. cbn [negb].
  destruct (should_clean r && _); [done|].
  destruct (rr_initial r) as [o|] eqn:Ei; [|done]. destruct (rr_reload r); [|done]. cbn [negb].
  assert (rr_aborted r = false -> nobody_gave_up es) as Hno by (intros E; apply (not_aborted s); congruence).
  destruct (rr_aborted r); [by destruct (outcome_and o (rr_imports r))|]. specialize (Hno eq_refl).
  destruct o; [|destruct (Hi eq_refl) as [c Hc]; by destruct (Hno c)].
  destruct (rr_imports r); [|destruct (Him eq_refl) as [c Hc]; by destruct (Hno c)]. cbn [outcome_and].
  destruct (rr_build r); [|done]. cbn [negb]. unfold should_clean.
  destruct (rr_command r), (rr_replay r); cbn; try (intros _; by split_and!).
  destruct (rr_unused r); [|done]. cbn. destruct (rr_unused_fix r); [|done]. intros _. by split_and!.
Qed.
Print Assumptions C94_success.

(** The build is started only if the initial checks and the imports were not given up and the
    configuration was reloaded after these; unused permissions are looked for only after a complete build
    that was started after cargo clean. *)
Theorem C94_stages :
  forall r : run_results,
  (RanBuild ∈ (main_run r).1 ->
     rr_create r = Continue /\ rr_load r = true /\ rr_initial r = Some Continue /\ rr_imports r = Continue /\
     rr_reload r = true) /\
  (RanUnused ∈ (main_run r).1 -> rr_aborted r = false /\
     (rr_initial r = Some Continue -> rr_imports r = Continue ->
        rr_build r = true /\ (main_run r).1 = [RanClean; RanBuild; RanUnused])).
Proof.
  intros r. unfold main_run. destruct (rr_create r); [|split; intros H; by apply elem_of_nil in H].
  destruct (rr_load r); [|split; intros H; by apply elem_of_nil in H]. cbn [negb].
  destruct (rr_initial r) as [[]|], (rr_imports r), (rr_reload r), (rr_aborted r), (rr_build r), (rr_unused r),
    (rr_unused_fix r), (rr_clean r), (should_clean r); cbn; split; intros H;
    rewrite ?elem_of_cons in H; try (split_and!; done);
    repeat (destruct H as [H|H]; [done|]); by apply elem_of_nil in H.
Qed.
Print Assumptions C94_stages.

Definition run_ex (clean : option Z) (aborted : bool) : run_results :=
  RunResults false false false Continue true clean GiveUp (Some Continue) Continue true true aborted true
    Continue.
Example C94_ex :
  (main_run (run_ex (Some 0%Z) false)).1 = [RanClean; RanBuild; RanUnused] /\
  exit_with true (run_ex (Some 0%Z) false) = Success /\ exit_with true (run_ex (Some 0%Z) true) = Failure.
Proof. done. Qed.

(** ** C95: cargo clean *)

(** The claim that a successful run (without a sub-command) analysed a build from scratch fails: the exit
    code of [cargo clean] is ignored. *)
Theorem C95_clean_refuted :
  exists r : run_results,
    rr_command r = false /\ rr_replay r = false /\ rr_clean r = Some 101%Z /\ exit_with true r = Success.
Proof. by exists (run_ex (Some 101%Z) false). Qed.
Print Assumptions C95_clean_refuted.

(** ** C96: warnings in a request *)

(** With [--fail-on-warnings] and no sub-command a request is answered after one check. *)
Theorem C96_one_check :
  forall (n : nat) (f : ui_flags) (env : environment) (scan : scanner) (requests : nat -> rustc_output)
         (h : nat) (s : system),
  fl_fail_on_warnings f = true -> fl_command f = false ->
  null_handle (S n) f env scan requests h s <> None.
Proof.
  intros n f env scan requests h s Hf Hc. cbn [null_handle].
  destruct (sys_step env scan requests s (EComplete h)) as [s' [|t sc [[|p ps]|]]]; try done.
  destruct (null_answer f (p :: ps)) eqn:E; [|done].
  apply null_answer_spec with (p := p) in E; [|left]. destruct E. by right.
Qed.
Print Assumptions C96_one_check.

(** A request whose check finds something that is not a warning is answered by giving up, after that
    check. *)
Theorem C96_error :
  forall (n : nat) (f : ui_flags) (env : environment) (scan : scanner) (requests : nat -> rustc_output)
         (h : nat) (s s' : system) (t sc : option link_info) (ps : list problem) (p : problem),
  sys_step env scan requests s (EComplete h) = (s', OComplete t sc (Some ps)) ->
  p ∈ ps -> ~ warning p ->
  null_handle (S n) f env scan requests h s = Some GiveUp.
Proof.
  intros n f env scan requests h s s' t sc ps p Hs Hin Hw. cbn [null_handle]. rewrite Hs.
  assert (null_answer f ps = GiveUp) as ->;
    [|destruct ps; [by apply elem_of_nil in Hin|done]].
  apply null_answer_spec. exists p. split; [done|by left].
Qed.
Print Assumptions C96_error.

(** Without that option, a package that seems to export an API makes the check of the program fail to end:
    the warning is printed, the configuration is reloaded, and the same check gives the same warning. *)
Definition loop_env : environment :=
  Environment ed_idx (fun _ => None) (fun _ => None) (fun _ => None) (fun _ => false).
Definition loop_export : possible_export := PossibleExport ed_pkg (lit "fs") (lit "_ZN3foo2fs4openE").
Definition loop_scan : scanner := fun _ _ => Some (ScanOutputs [] [] [loop_export]).
Definition loop_config : config :=
  Config (RawConfig 3 false [] {[lit "fs" := ApiConfig [lit "std::fs"] [] []]} ∅ sandbox_default
            sandbox_default) ∅ ∅.
Definition loop_request (_ : nat) : rustc_output := RustcOutput (CrateSel ed_pkg Primary) [].
Definition loop_start : list event := [ELoad loop_config; ELinker (LinkInfo (CrateSel ed_pkg Primary) 0)].

Example C96_ex :
  let s := (sys_run loop_env loop_scan loop_request sys_init loop_start).1 in
  null_handle 1 (UiFlags false true false) loop_env loop_scan loop_request 0 s = Some GiveUp /\
  null_handle 1 (UiFlags false false false) loop_env
    (fun _ _ => Some (ScanOutputs [ui_error] [] [loop_export])) loop_request 0 s = Some GiveUp.
Proof. by vm_compute. Qed.

(** ** C97 *)
Theorem C97_warnings_refuted :
  exists (env : environment) (scan : scanner) (requests : nat -> rustc_output) (es : list event) (f : ui_flags),
    let s := (sys_run env scan requests sys_init es).1 in
    (exists s' t sc ps, sys_step env scan requests s (EComplete 0) = (s', OComplete t sc (Some ps)) /\
       ps <> [] /\ Forall warning ps) /\
    forall n, null_handle n f env scan requests 0 s = None.
Proof.
  exists loop_env, loop_scan, loop_request, loop_start, (UiFlags false false false). cbn zeta.
  set (ck := Checker ∅ loop_config ∅ [LinkInfo (CrateSel ed_pkg Primary) 0]).
  set (x := (ScanOutputs [] [] [loop_export], rc_apis (cf_raw loop_config))).
  set (ps := [PPossibleExportedApi ed_pkg (lit "fs") (lit "_ZN3foo2fs4openE")]).
  replace (sys_run loop_env loop_scan loop_request sys_init loop_start).1 with (System ck ∅)
    by (vm_compute; reflexivity).
  assert (Hstep : forall m, m !! 0 = None \/ m !! 0 = Some x -> exists t sc m',
    sys_step loop_env loop_scan loop_request (System ck m) (EComplete 0) =
      (System ck m', OComplete t sc (Some ps)) /\ m' !! 0 = Some x).
  { intros m Hm. cbn [sys_step sy_checker sy_states].
    assert (exists log, rustc_complete loop_env loop_scan ck (m !! 0) (loop_request 0) =
      (ck, Some x, Some ps, log)) as [log ->].
    { destruct Hm as [-> | ->]; eexists; vm_compute; reflexivity. }
    do 3 eexists. split; [reflexivity|apply lookup_insert]. }
  split.
  - destruct (Hstep ∅) as (t & sc & m' & Hs & _); [by left|].
    exists (System ck m'), t, sc, ps. split; [done|]. split; [done|]. repeat constructor.
  - assert (Hload : forall m, (sys_step loop_env loop_scan loop_request (System ck m)
      (ELoad (ck_config (sy_checker (System ck m))))).1 = System ck m) by reflexivity.
    intros n. assert (forall m, m !! 0 = None \/ m !! 0 = Some x ->
      null_handle n (UiFlags false false false) loop_env loop_scan loop_request 0 (System ck m) = None) as H;
      [|apply H; by left].
    induction n as [|n IH]; intros m Hm; [done|]. destruct (Hstep m Hm) as (t & sc & m' & Hs & Hm').
    cbn [null_handle]. rewrite Hs. unfold ps at 1.
    replace (null_answer (UiFlags false false false) ps) with Continue by (by vm_compute).
    replace (all_send_retry ps) with false by done. rewrite Hload. apply IH. by right.
Qed.
Print Assumptions C97_warnings_refuted.

(** ** C98: automatic fixes that fail *)

(** The claim that every client is answered fails with automatic fixes: if a fix cannot be applied to the
    file, here because the package is written as an inline table, the interface ends and whoever submitted
    the problem waits for ever. *)
Definition ui_inline : table := ed_doc 3 [(lit "foo", Inline [(lit "allow_apis", Array [Text (lit "fs")])])].

Theorem C98_hang_refuted :
  exists (f : ui_flags) (c : nat) (ps : list problem) (i : ui_input) (s : ui_system) (acts : list ui_act),
    ui_writable i = true /\ ed_load ed_idx ui_inline = Some (Loaded (ui_config i)) /\
    ui_file i = Some ui_inline /\
    system_run ui_fixes ui_apply f ui_system_init [USubmit c ps; UTurn i] = Some (s, acts) /\
    answers acts c = [] /\
    forall l s' acts', system_run ui_fixes ui_apply f s l = Some (s', acts') -> answers acts' c = [].
Proof.
  set (f := UiFlags false false true). set (i := ui_loaded ui_inline).
  assert (H : match system_run ui_fixes ui_apply f ui_system_init [USubmit 0 [ui_error]; UTurn i] with
              | Some (s, acts) => us_running s = false /\ answers acts 0 = []
              | None => False
              end) by by vm_compute.
  destruct (system_run _ _ _ _ _) as [[s acts]|] eqn:E; [|done]. destruct H as [Hr Ha].
  exists f, 0, [ui_error], i, s, acts. split; [done|].
  split; [apply config_of_loaded; by vm_compute|]. split_and!; try done.
  intros l s' acts' Hrun. by destruct (stopped _ _ _ _ _ _ _ Hr Hrun).
Qed.
Print Assumptions C98_hang_refuted.

(** ** C99: fixes and answers *)

(** The claim that a client is told to continue only once its fix is in the file fails: it is told so before
    the file is written, ... *)
Theorem C99_before_saving_refuted :
  exists (f : ui_flags) (c : nat) (ps : list problem) (i : ui_input) (s : ui_system) (e1 e2 : store_event)
         (d : table),
    system_run ui_fixes ui_apply f ui_system_init [USubmit c ps; UTurn i] =
      Some (s, [AStore e1; AStore e2; AWrote d]) /\ (c, Continue) ∈ se_sent e2.
Proof.
  set (f := UiFlags false false true). set (i := ui_loaded (ed_doc 3 ed_foo)).
  assert (H : match system_run ui_fixes ui_apply f ui_system_init [USubmit 0 [ui_error]; UTurn i] with
              | Some (s, [AStore e1; AStore e2; AWrote d]) => se_sent e2 = [(0, Continue)]
              | _ => False
              end) by by vm_compute.
  destruct (system_run _ _ _ _ _) as [[s acts]|] eqn:E; [|done].
  destruct acts as [|[e1| |] [|[e2| |] [|[|d|] [|]]]]; try done.
  exists f, 0, [ui_error], i, s, e1, e2, d. split; [done|]. rewrite H. left.
Qed.
Print Assumptions C99_before_saving_refuted.

(** ... and if a later fix fails, nothing is saved at all. *)
Theorem C99_never_saved_refuted :
  exists (f : ui_flags) (c c' : nat) (ps ps' : list problem) (i : ui_input) (s : ui_system) (acts : list ui_act),
    ui_writable i = true /\ ui_file i = Some ui_inline /\
    system_run ui_fixes ui_apply f ui_system_init [USubmit c ps; USubmit c' ps'; UTurn i] = Some (s, acts) /\
    answers acts c = [Continue] /\ written acts = [] /\ us_running s = false.
Proof.
  set (f := UiFlags false false true). set (i := ui_loaded ui_inline).
  set (other := PIsProcMacro (PkgId (lit "bar") [1])).
  assert (H : match system_run ui_fixes ui_apply f ui_system_init
                      [USubmit 0 [other]; USubmit 1 [ui_error]; UTurn i] with
              | Some (s, acts) => us_running s = false /\ answers acts 0 = [Continue] /\ written acts = []
              | None => False
              end) by by vm_compute.
  destruct (system_run _ _ _ _ _) as [[s acts]|] eqn:E; [|done]. destruct H as (Hr & Ha & Hw).
  exists f, 0, 1, [other], [ui_error], i, s, acts. done.
Qed.
Print Assumptions C99_never_saved_refuted.

(** ** C100: the basic interface *)

(** The claim that closing the input ends the basic interface fails: it asks again for ever. *)
Theorem C100_closed_input_refuted :
  exists (s : store) (es : list store_event) (id : nat) (p : problem),
    history s es /\ is_open s id p /\ forall fuel, basic_event fuel s [] = None.
Proof.
  destruct (store_run store_init [SAdd 0 [ui_error]]) as [[s es]|] eqn:E; [|discriminate E].
  assert (H : match store_run store_init [SAdd 0 [ui_error]] with
              | Some (s, _) => store_open s = [(0, ui_error)]
              | None => False
              end) by by vm_compute.
  rewrite E in H. exists s, es, 0, ui_error. split; [by eexists|]. split; [unfold is_open; rewrite H; left|].
  induction fuel as [|fuel IH]; [done|]. cbn [basic_event]. by rewrite H.
Qed.
Print Assumptions C100_closed_input_refuted.
