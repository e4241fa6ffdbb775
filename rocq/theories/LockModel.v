(** The two mutexes, of the checker and of the store of problems, and who locks them in which order.
    Sources: those beside the parts below. *)
From Verif Require Import Base.

Inductive mutex := OfChecker | OfStore.
Global Instance mutex_eq_dec : EqDecision mutex.
Proof. solve_decision. Defined.

(** [Waits] stands for everything in between that may take time: judging, the terminal, other processes; [Asks] for waiting until
    the user has typed something or, in the thread of a request, until there is a decision. *)
Inductive action := Lock (m : mutex) | Unlock (m : mutex) | Waits | Asks.

Definition briefly (m : mutex) : list action := [Lock m; Waits; Unlock m].
Definition checker_in_store : list action := [Lock OfStore; Waits; Lock OfChecker; Waits; Unlock OfChecker; Waits; Unlock OfStore].

(** What a thread does, part by part. A guard that is not bound to a name is dropped at the end of its statement. *)
Inductive part :=
| Judge               (** main.rs:580-584 *)
| Report              (** problem_store.rs:47 *)
| Reload              (** main.rs:591 *)
| WaitForOutcome      (** problem_store.rs:48 *)
| Prepare             (** main.rs:363-375: [proxy::clean] is run with the checker locked *)
| Versions            (** main.rs:377 *)
| Settings            (** main.rs:384-385 *)
| ReloadBeforeBuild   (** main.rs:391-398 *)
| SavedPath           (** main.rs:480-487 *)
| Aborted             (** main.rs:439 *)
| UnusedPermissions   (** main.rs:449 *)
| Finish              (** main.rs:328-345, 347-354 *)
| NullTurn            (** ui/null_ui.rs:97-147, with [accept_all_single_edits] (45-71) *)
| BasicList           (** ui/basic_term.rs:53-76 *)
| BasicPrompt         (** ui/basic_term.rs:86-91: no lock while the user is asked *)
| Resolve             (** ui/basic_term.rs:62, 87 *)
| WaitForKey          (** ui/full_term.rs:136-142 *)
| Quit                (** ui/full_term.rs:105-113, 153 *)
| Count               (** ui/full_term/problems_ui.rs:198, 255 *)
| AcceptAll           (** problems_ui.rs:353-363 *)
| ShowProblems        (** problems_ui.rs:369-442 *)
| ShowDetails         (** problems_ui.rs:445-462, 669-672 *)
| Edits               (** problems_ui.rs:466-467 *)
| Usages              (** problems_ui.rs:471-475 *)
| ApplyEdit           (** problems_ui.rs:570-593 *)
| SupportsComments    (** problems_ui.rs:596-613 *)
| Backtrace.          (** problems_ui.rs:674-688 *)

Definition part_actions (p : part) : list action :=
  match p with
  | Judge | Reload | Prepare | Versions | ReloadBeforeBuild | SavedPath | UnusedPermissions | Finish => briefly OfChecker
  | Report | Aborted | Resolve | Quit | Count | ShowDetails | Usages => briefly OfStore
  | WaitForOutcome | BasicPrompt | WaitForKey => [Asks]
  | Settings => briefly OfChecker ++ briefly OfChecker
  | NullTurn | BasicList | ShowProblems | SupportsComments => checker_in_store
  | AcceptAll | Edits => briefly OfChecker ++ briefly OfStore
  | ApplyEdit => [Lock OfStore; Waits; Lock OfChecker; Waits; Unlock OfChecker; Waits; Lock OfChecker; Waits;
                  Unlock OfChecker; Waits; Unlock OfStore]
  | Backtrace => briefly OfStore ++ briefly OfChecker
  end.

(** A thread goes through parts, in any order and as many as there may be. *)
Definition thread_actions (ps : list part) : list action := concat (map part_actions ps).

(** Who holds which mutex, and what each thread has still to do. *)
Record lock_state := Locks {
  lk_checker : option nat;
  lk_store : option nat;
  lk_threads : list (list action) }.

Definition lock_init (threads : list (list part)) : lock_state := Locks None None (map thread_actions threads).

Definition holder (s : lock_state) (m : mutex) : option nat :=
  match m with OfChecker => lk_checker s | OfStore => lk_store s end.
Definition set_holder (m : mutex) (h : option nat) (s : lock_state) : lock_state :=
  match m with
  | OfChecker => Locks h (lk_store s) (lk_threads s)
  | OfStore => Locks (lk_checker s) h (lk_threads s)
  end.
Definition set_thread (t : nat) (l : list action) (s : lock_state) : lock_state :=
  Locks (lk_checker s) (lk_store s) (<[t := l]> (lk_threads s)).

(** The next action of a thread; [None] if it has to wait or has ended. A thread that locks what it holds waits for ever. *)
Definition lock_step (s : lock_state) (t : nat) : option lock_state :=
  match lk_threads s !! t with
  | Some (a :: l) =>
      match a with
      | Waits | Asks => Some (set_thread t l s)
      | Lock m =>
          match holder s m with
          | None => Some (set_holder m (Some t) (set_thread t l s))
          | Some _ => None
          end
      | Unlock m =>
          if decide (holder s m = Some t) then Some (set_holder m None (set_thread t l s)) else None
      end
  | _ => None
  end.

Definition lock_run (s : lock_state) (ts : list nat) : option lock_state :=
  fold_left (fun s t => s ← s; lock_step s t) ts (Some s).
