(** Threads that crash. *)
From Verif Require Import Base StoreModel CrashModel CrashSpec CrashProofs.

(** C267: if judging or reporting a request crashes then its process is never told anything, and the run does not end with
    success. *)
Theorem C267_crash (jobs : nat) (clean : bool) (es : list crash_event) (i : nat) (e : crash_event) (s : crash_state) :
  crashed_at i e -> e ∈ es -> crash_run jobs clean crash_init es = Some s -> ~ succeeded s /\ ~ told s i.
Proof. intros. eapply crash_fails; eauto using sound_init. Qed.
Print Assumptions C267_crash.

(** The same for a crash of the interface while it looks at the checker, and for one of the check of unused permissions. *)
Theorem C267_others (jobs : nat) (clean : bool) (es : list crash_event) (store : bool) (s : crash_state) :
  UiPanics store true ∈ es \/ UnusedChecked Panics ∈ es -> crash_run jobs clean crash_init es = Some s -> ~ succeeded s.
Proof.
  intros [H|H] Hr; [by eapply checker_fails; eauto using sound_init|by eapply unused_fails; eauto].
Qed.
Print Assumptions C267_others.

(** Another process of the build, and the main thread at the end, meet the poisoned mutex. *)
Example C267_example :
  let es := [Connects; Connects; Judged 1 Panics; Judged 0 Fine; CargoExits false; CargoSeen; UiShutsDown; MainJoins] in
  option_map (fun s => (cr_requests s, cr_main s)) (crash_run 2 true crash_init es) = Some ([Lost; Lost], Ended ExitPanic).
Proof. vm_compute. reflexivity. Qed.

Example C267_example_reported :
  let es := [Connects; StoreAddPanics 0; CargoExits false; CargoSeen] in
  option_map (fun s => (cr_requests s, cr_main s)) (crash_run 2 true crash_init es) = Some ([Lost], Ended ExitPanic).
Proof. vm_compute. reflexivity. Qed.

Example C267_example_interface :
  let es := [UiPanics false true; Connects; Judged 0 Fine; CargoExits false; CargoSeen; MainJoins] in
  option_map (fun s => (cr_requests s, cr_main s)) (crash_run 2 true crash_init es) = Some ([Lost], Ended ExitPanic).
Proof. vm_compute. reflexivity. Qed.

(** Without a crash the run ends with success. *)
Example C267_example_success :
  let es := [Connects; Judged 0 (Objects false); UserContinues 0; Reloaded 0 Fine; Judged 0 Fine; CargoExits true; CargoSeen;
             UnusedChecked Fine; UiShutsDown; MainJoins] in
  option_map (fun s => (cr_requests s, cr_main s)) (crash_run 1 true crash_init es) = Some ([Answered Continue], Ended ExitSuccess).
Proof. vm_compute. reflexivity. Qed.

(** C268: when the interface has ended with an error, the run does not end with success; but a request that waits for a
    decision, or comes to wait for one, is never answered, and the run may never end. *)
Theorem C268_error (jobs : nat) (clean : bool) (es : list crash_event) (s : crash_state) :
  UiFails ∈ es -> crash_run jobs clean crash_init es = Some s -> ~ succeeded s.
Proof. apply error_fails. Qed.
Print Assumptions C268_error.

Theorem C268_never (jobs : nat) (clean : bool) (es : list crash_event) (s s' : crash_state) (i : nat) :
  interface_gone s -> undecided s i -> crash_run jobs clean s es = Some s' -> undecided s' i.
Proof. apply never_answered. Qed.
Print Assumptions C268_never.

Theorem C268_refuted :
  forall gone, gone = UiFails \/ (exists store checker, gone = UiPanics store checker) ->
  exists s, crash_run 1 true crash_init [Connects; Judged 0 (Objects false); gone] = Some s /\
    interface_gone s /\ undecided s 0 /\ hangs 1 true s.
Proof.
  intros gone Hgone.
  assert (Hs : exists u checker store, u <> UiRuns /\
    crash_run 1 true crash_init [Connects; Judged 0 (Objects false); gone] =
    Some (Crash [Asking false] checker store u false 0 0 None Serving)).
  { destruct Hgone as [->|(store & checker & ->)]; [exists (UiReturned false), false, false|exists UiCrashed, checker, store];
      (split; [done|]); try destruct store, checker; reflexivity. }
  destruct Hs as (u & checker & store & Hu & Hrun).
  exists (Crash [Asking false] checker store u false 0 0 None Serving).
  split; [exact Hrun|]. split; [exact Hu|]. split; [by exists false|]. split; [done|].
  intros e. unfold crash_step. cbn [cr_main cr_requests cr_checker cr_store cr_ui cr_cargo cr_aborts].
  destruct e as [|i v|i v|i|i| | |a b| | |ok| |v| |]; try done.
  - destruct i; done.
  - destruct i; done.
  - destruct i; done.
  - by rewrite decide_False.
  - rewrite decide_False; [done|]. by intros [? _].
  - by rewrite decide_False.
  - by rewrite decide_False.
  - by rewrite decide_False.
Qed.
Print Assumptions C268_refuted.

(** C269: a crash of the interface does not keep the run from ending with success, nor does one with the mutex of the store once
    the build has been served. *)
Theorem C269_refuted :
  (exists s, crash_run 1 true crash_init
     [Connects; Judged 0 (Objects false); UserContinues 0; UiPanics false false; Reloaded 0 Fine; Judged 0 Fine; CargoExits true;
      CargoSeen; UnusedChecked Fine; MainJoins] = Some s /\ cr_ui s = UiCrashed /\ succeeded s) /\
  (exists s, crash_run 1 true crash_init
     [Connects; Judged 0 Fine; CargoExits true; CargoSeen; UnusedChecked (Objects false); UserContinuesUnused;
      UiPanics true false; MainJoins] = Some s /\ cr_ui s = UiCrashed /\ succeeded s).
Proof. split; eexists; (split; [reflexivity|]; split; reflexivity). Qed.
Print Assumptions C269_refuted.
