(** The two mutexes. *)
From Verif Require Import Base LockModel LockSpec LockProofs.

(** C270: whatever the threads do and in whichever order they get their turns, they never all wait for mutexes, and from
    everywhere all of them can come to their end. *)
Theorem C270_no_deadlock (threads : list (list part)) (ts : list nat) (s : lock_state) :
  lock_run (lock_init threads) ts = Some s ->
  ~ deadlocked s /\ exists ts' s', lock_run s ts' = Some s' /\ forall t, ~ unfinished s' t.
Proof.
  intros H. pose proof (orderly_run ts _ s (orderly_init threads) H) as Hs. split.
  - intros [Hu Hn]. destruct (orderly_progress s Hs Hu) as [t [s' Ht]]. by rewrite Hn in Ht.
  - by eapply all_finish.
Qed.
Print Assumptions C270_no_deadlock.

(** A thread of a request, the main thread and the full-screen interface; the interface applies an edit and has to wait
    for the checker, which a request is judged with. *)
Example C270_example :
  let s := lock_run (lock_init [[Judge; Report; WaitForOutcome; Reload; Judge]; [Aborted; UnusedPermissions; Finish];
                                [ShowProblems; WaitForKey; ApplyEdit; Quit]]) [0; 0; 2; 2] in
  option_map lk_checker s = Some (Some 0) /\ option_map lk_store s = Some (Some 2) /\
  option_map (fun s => (bool_decide (is_Some (lock_step s 0)), bool_decide (is_Some (lock_step s 1)),
                        bool_decide (is_Some (lock_step s 2)))) s = Some (true, false, false).
Proof. vm_compute. auto. Qed.

(** Threads that lock in both orders do deadlock. *)
Example C270_example_deadlock :
  exists s, lock_run (Locks None None [[Lock OfStore; Lock OfChecker]; [Lock OfChecker; Lock OfStore]]) [0; 1] = Some s /\
    deadlocked s.
Proof.
  eexists. split; [reflexivity|]. split; [exists 0; eexists _, _; reflexivity|].
  intros [|[|t]]; reflexivity.
Qed.

(** C271: who waits for the user, or for a decision, holds neither mutex. *)
Theorem C271_asks_without_locks (threads : list (list part)) (ts : list nat) (s : lock_state) (t : nat) (l : list action)
    (m : mutex) :
  lock_run (lock_init threads) ts = Some s -> lk_threads s !! t = Some (Asks :: l) -> ~ holds s m t.
Proof. intros H. eapply asks_free, orderly_run; [apply orderly_init|exact H]. Qed.
Print Assumptions C271_asks_without_locks.

Example C271_example :
  option_map (fun s => (lk_threads s !! 0, lk_checker s, lk_store s))
    (lock_run (lock_init [[BasicList; BasicPrompt; Resolve]; [Judge]]) [0; 0; 0; 0; 0; 0; 0; 1])
  = Some (Some (Asks :: briefly OfStore), Some 1, None).
Proof. vm_compute. reflexivity. Qed.
