(** The terminal after a run. *)
From Verif Require Import Base StoreModel CrashModel CrashSpec CrashProofs RestoreModel RestoreSpec RestoreProofs.

(** C274: if the interface can be opened, the terminal is as before at every orderly end of the process, with success or without, and
    also as soon as the interface is gone, be it by a crash. It is not touched before something was objected to. *)
Theorem C274_restored (jobs : nat) (clean : bool) (es : list shown_event) (s : shown_run) :
  opening_works es -> shown_runs jobs clean shown_init es = Some s -> orderly_end s -> as_before s.
Proof. apply restored. Qed.
Print Assumptions C274_restored.

Theorem C274_gone (jobs : nat) (clean : bool) (es : list shown_event) (s : shown_run) :
  opening_works es -> shown_runs jobs clean shown_init es = Some s -> interface_gone (sr_run s) -> as_before s.
Proof. apply gone_restored. Qed.
Print Assumptions C274_gone.

Theorem C274_untouched (jobs : nat) (clean : bool) (es : list shown_event) (s : shown_run) :
  (forall e, e ∈ es -> ~ objects e) -> shown_runs jobs clean shown_init es = Some s -> as_before s.
Proof. apply untouched. Qed.
Print Assumptions C274_untouched.

Example C274_example_quiet :
  option_map (fun s => (cr_main (sr_run s), sr_raw s, sr_alternate s))
    (shown_runs 1 true shown_init
       (map Goes [Connects; Judged 0 Fine; CargoExits true; CargoSeen; UnusedChecked Fine; UiShutsDown; MainJoins])) =
  Some (Ended ExitSuccess, false, false).
Proof. vm_compute. reflexivity. Qed.

Definition c274_start : list shown_event := [Goes Connects; Goes (Judged 0 (Objects false)); Opens Opened].

Example C274_example_open :
  option_map (fun s => (sr_raw s, sr_alternate s)) (shown_runs 1 true shown_init c274_start) = Some (true, true).
Proof. vm_compute. reflexivity. Qed.

Example C274_example_quit :
  option_map (fun s => (cr_main (sr_run s), sr_raw s, sr_alternate s))
    (shown_runs 1 true shown_init
       (c274_start ++ map Goes [UserGivesUp; CargoKilled; CargoSeen; UiShutsDown; MainJoins])) =
  Some (Ended ExitFailure, false, false).
Proof. vm_compute. reflexivity. Qed.

Example C274_example_crash :
  option_map (fun s => (cr_ui (sr_run s), sr_raw s, sr_alternate s))
    (shown_runs 1 true shown_init (c274_start ++ [Goes (UiPanics true false)])) = Some (UiCrashed, false, false).
Proof. vm_compute. reflexivity. Qed.

(** C275: that the terminal is as before when the process has ended is not so when the main thread panics while the interface is
    shown, here in the check of what is unused; nor when the interface could not be opened all the way. *)
Definition c275_events : list shown_event :=
  [Goes Connects; Goes (Judged 0 (Objects false)); Opens Opened; Goes (UserContinues 0); Goes (Reloaded 0 Fine); Goes (Judged 0 Fine);
   Goes (CargoExits true); Goes CargoSeen; Goes (UnusedChecked Panics)].

Theorem C275_refuted :
  exists es s, opening_works es /\ shown_runs 1 true shown_init es = Some s /\ ended s /\ ~ as_before s.
Proof.
  exists c275_events,
    (ShownRun (Crash [Answered Continue] false false UiRuns false 0 0 (Some true) (Ended ExitPanic)) true true true).
  split; [|split; [vm_compute; reflexivity|split]].
  - intros o Ho. unfold c275_events in Ho.
    repeat (apply elem_of_cons in Ho as [Ho|Ho]; [first [discriminate Ho|injection Ho as Ho; exact Ho]|]). by apply elem_of_nil in Ho.
  - exists ExitPanic. reflexivity.
  - intros [H _]. discriminate H.
Qed.
Print Assumptions C275_refuted.

Theorem C275_refuted_opening :
  exists es s, shown_runs 2 true shown_init es = Some s /\ orderly_end s /\ sr_raw s = true.
Proof.
  exists [Goes Connects; Goes Connects; Goes (Judged 0 (Objects false)); Opens NoAlternate; Goes (Judged 1 Fails); Goes CargoKilled;
          Goes CargoSeen; Goes MainJoins],
    (ShownRun (Crash [Asking false; Answered GiveUp] false false (UiReturned false) false 1 1 (Some false) (Ended ExitFailure))
       true false false).
  split; [vm_compute; reflexivity|]. split; [by right|done].
Qed.
Print Assumptions C275_refuted_opening.
