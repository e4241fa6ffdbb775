(** Runs in which threads crash: a poisoned mutex, a connection that is closed without an answer, an interface that is gone.
    Sources: /repo/src/main.rs:302-345, 436-457, 577-606, /repo/src/proxy.rs:198-240, 299-314, /repo/src/problem_store.rs:41-54,
    166-173, /repo/src/ui.rs:81-84.
    What happens before the build is left out. How a request is judged, and what the user does, are inputs. *)
From Verif Require Import Base StoreModel.

(** Where a request is: its thread judges it (main.rs:580-584); it has handed in problems and waits for a decision
    (problem_store.rs:47-48); the decision is to go on and the configuration is going to be loaded (main.rs:590-598), after
    which the request is judged again or, for [retry], answered; its process has been answered; its thread has panicked,
    which closes the connection. *)
Inductive stage := Judging | Asking (retry : bool) | Reloading (retry : bool) | Answered (o : outcome) | Lost.

(** The thread of the interface: it runs, it has panicked, it has returned ([true]: without an error). *)
Inductive ui_thread := UiRuns | UiCrashed | UiReturned (ok : bool).

(** How the process ends. A panic of the main thread ends it with code 101. *)
Inductive ending := ExitSuccess | ExitFailure | ExitPanic.

(** The main thread: it serves the build (proxy.rs:198-240); it checks what is unused (main.rs:448-449); it waits for a
    decision about that (450); it has sent [Shutdown] and joins the interface (314-315); the process has ended. *)
Inductive main_thread := Serving | Unused | AskingUnused | Closing (success : bool) | Ended (e : ending).

Global Instance stage_eq_dec : EqDecision stage.
Proof. solve_decision. Defined.
Global Instance ui_thread_eq_dec : EqDecision ui_thread.
Proof. solve_decision. Defined.
Global Instance ending_eq_dec : EqDecision ending.
Proof. solve_decision. Defined.
Global Instance main_thread_eq_dec : EqDecision main_thread.
Proof. solve_decision. Defined.

Record crash_state := Crash {
  cr_requests : list stage;
  cr_checker : bool;          (** the mutex of the checker is poisoned *)
  cr_store : bool;            (** the mutex of the store is poisoned *)
  cr_ui : ui_thread;
  cr_aborted : bool;          (** [has_aborted] *)
  cr_aborts : nat;            (** messages to the main thread to kill cargo *)
  cr_errors : nat;            (** errors of requests *)
  cr_cargo : option bool;     (** [None]: it runs; otherwise whether its code is 0 *)
  cr_main : main_thread }.

Definition crash_init : crash_state := Crash [] false false UiRuns false 0 0 None Serving.

(** How judging a request ends: nothing to object; problems, with [should_send_retry_to_subprocess]; an error; a panic, with the
    mutex of the checker locked. *)
Inductive verdict := Fine | Objects (retry : bool) | Fails | Panics.

Inductive crash_event :=
| Connects
| Judged (i : nat) (v : verdict)
| Reloaded (i : nat) (v : verdict)
| StoreAddPanics (i : nat)
| UserContinues (i : nat)
| UserContinuesUnused
| UserGivesUp
| UiPanics (store checker : bool)
| UiFails
| CargoKilled
| CargoExits (ok : bool)
| CargoSeen
| UnusedChecked (v : verdict)
| UiShutsDown
| MainJoins.

Definition set_request (i : nat) (st : stage) (s : crash_state) : crash_state :=
  Crash (<[i := st]> (cr_requests s)) (cr_checker s) (cr_store s) (cr_ui s) (cr_aborted s) (cr_aborts s) (cr_errors s)
    (cr_cargo s) (cr_main s).
Definition set_main (m : main_thread) (s : crash_state) : crash_state :=
  Crash (cr_requests s) (cr_checker s) (cr_store s) (cr_ui s) (cr_aborted s) (cr_aborts s) (cr_errors s) (cr_cargo s) m.
Definition set_ui (u : ui_thread) (s : crash_state) : crash_state :=
  Crash (cr_requests s) (cr_checker s) (cr_store s) u (cr_aborted s) (cr_aborts s) (cr_errors s) (cr_cargo s) (cr_main s).
Definition set_cargo (c : bool) (s : crash_state) : crash_state :=
  Crash (cr_requests s) (cr_checker s) (cr_store s) (cr_ui s) (cr_aborted s) (cr_aborts s) (cr_errors s) (Some c) (cr_main s).
Definition poison (checker store : bool) (s : crash_state) : crash_state :=
  Crash (cr_requests s) (cr_checker s || checker) (cr_store s || store) (cr_ui s) (cr_aborted s) (cr_aborts s) (cr_errors s)
    (cr_cargo s) (cr_main s).

(** [process_request] (proxy.rs:304-313) with a result of [handle_request]; [None] is an error. *)
Definition answer (i : nat) (response : option outcome) (s : crash_state) : crash_state :=
  let o := default GiveUp response in
  Crash (<[i := Answered o]> (cr_requests s)) (cr_checker s) (cr_store s) (cr_ui s) (cr_aborted s)
    (cr_aborts s + if decide (o = GiveUp) then 1 else 0)
    (cr_errors s + match response with None => 1 | Some _ => 0 end) (cr_cargo s) (cr_main s).

(** Problems are handed in (problem_store.rs:43-49): [lock] panics if the mutex is poisoned. *)
Definition hand_in (i : nat) (retry : bool) (s : crash_state) : crash_state :=
  if cr_store s then set_request i Lost s else set_request i (Asking retry) s.

(** [abort] (problem_store.rs:166-173): everybody who waits is told to give up; requests then send the message to
    kill cargo and answer their processes (main.rs:600-602, proxy.rs:304-311). *)
Definition give_up (s : crash_state) : crash_state :=
  let s := foldl (fun s i => match cr_requests s !! i with
                             | Some (Asking _) => answer i (Some GiveUp) s
                             | _ => s
                             end) s (seq 0 (length (cr_requests s))) in
  Crash (cr_requests s) (cr_checker s) (cr_store s) (cr_ui s) true (S (cr_aborts s)) (cr_errors s) (cr_cargo s)
    (if decide (cr_main s = AskingUnused) then Closing false else cr_main s).

(** What [run] does once [invoke_cargo_build] has returned (proxy.rs:200-212, main.rs:439-449); [clean] is
    [should_run_cargo_clean]. *)
Definition after_build (clean : bool) (ok : bool) (s : crash_state) : main_thread :=
  if cr_store s then Ended ExitPanic
  else if cr_aborted s then Closing false
  else if Nat.ltb 0 (cr_errors s) || negb ok then Closing false
  else if clean then Unused else Closing true.

(** One event; [None] if it cannot happen now. At most [jobs] processes of cargo have open requests.
    - [Connects]: a process sends a request, which is read (proxy.rs:220-232).
    - [Judged], [Reloaded]: the thread of a request comes to an end with locking the checker, which panics if the mutex is
      poisoned.
    - [StoreAddPanics]: adding to the store panics with its mutex locked.
    - [UserContinues], [UserContinuesUnused], [UserGivesUp]: the interface decides, with the mutex of the store.
    - [UiPanics]: the interface panics, with either mutex locked or not. [UiFails]: its [run] returns an error.
    - [CargoKilled]: the main thread has got a message (proxy.rs:213-216).
    - [CargoExits]: cargo waits for its processes before it exits by itself; with code 0 only if every request was answered, since a process whose request is not answered fails
      (proxy/rpc.rs:29-80) or waits.
    - [UnusedChecked]: [check_unused] (main.rs:449), and [fix_problems] (450).
    - [UiShutsDown]: the interface gets [Shutdown]. [MainJoins]: main.rs:315-345. *)
Definition open_request (st : stage) : bool :=
  match st with Judging | Asking _ | Reloading _ => true | Answered _ | Lost => false end.
Definition was_answered (st : stage) : bool := match st with Answered _ => true | _ => false end.

Definition crash_step (jobs : nat) (clean : bool) (s : crash_state) (e : crash_event) : option crash_state :=
  if match cr_main s with Ended _ => true | _ => false end then None
  else match e with
  | Connects =>
      if decide (cr_cargo s = None) then
        if Nat.ltb (length (filter (fun st => open_request st = true) (cr_requests s))) jobs
        then Some (Crash (cr_requests s ++ [Judging]) (cr_checker s) (cr_store s) (cr_ui s) (cr_aborted s) (cr_aborts s)
                     (cr_errors s) (cr_cargo s) (cr_main s))
        else None
      else None
  | Judged i v =>
      match cr_requests s !! i with
      | Some Judging =>
          Some (if cr_checker s then set_request i Lost s
                else match v with
                     | Fine => answer i (Some Continue) s
                     | Objects retry => hand_in i retry s
                     | Fails => answer i None s
                     | Panics => poison true false (set_request i Lost s)
                     end)
      | _ => None
      end
  | StoreAddPanics i =>
      match cr_requests s !! i with
      | Some Judging => if cr_checker s then None else Some (poison false true (set_request i Lost s))
      | _ => None
      end
  | UserContinues i =>
      if decide (cr_ui s = UiRuns) then
        if cr_store s then None
        else match cr_requests s !! i with
             | Some (Asking retry) => Some (set_request i (Reloading retry) s)
             | _ => None
             end
      else None
  | Reloaded i v =>
      match cr_requests s !! i with
      | Some (Reloading retry) =>
          Some (if cr_checker s then set_request i Lost s
                else match v with
                     | Fine | Objects _ => if retry then answer i (Some Continue) s else set_request i Judging s
                     | Fails => answer i None s
                     | Panics => poison true false (set_request i Lost s)
                     end)
      | _ => None
      end
  | UserContinuesUnused =>
      if decide (cr_ui s = UiRuns /\ cr_main s = AskingUnused) then
        if cr_store s then None else Some (set_main (Closing true) s)
      else None
  | UserGivesUp =>
      if decide (cr_ui s = UiRuns) then if cr_store s then None else Some (give_up s) else None
  | UiPanics store checker =>
      if decide (cr_ui s = UiRuns) then Some (poison checker store (set_ui UiCrashed s)) else None
  | UiFails => if decide (cr_ui s = UiRuns) then Some (set_ui (UiReturned false) s) else None
  | CargoKilled =>
      if decide (cr_cargo s = None) then if Nat.ltb 0 (cr_aborts s) then Some (set_cargo false s) else None else None
  | CargoExits ok =>
      if decide (cr_cargo s = None) then
        if negb (existsb open_request (cr_requests s)) && (negb ok || forallb was_answered (cr_requests s))
        then Some (set_cargo ok s) else None
      else None
  | CargoSeen =>
      match cr_main s, cr_cargo s with
      | Serving, Some ok => Some (set_main (after_build clean ok s) s)
      | _, _ => None
      end
  | UnusedChecked v =>
      if decide (cr_main s = Unused) then
        Some (set_main (if cr_checker s then Ended ExitPanic
                        else match v with
                             | Fine => Closing true
                             | Objects _ => if cr_store s then Ended ExitPanic else AskingUnused
                             | Fails => Closing false
                             | Panics => Ended ExitPanic
                             end) s)
      else None
  | UiShutsDown =>
      match cr_main s with
      | Closing _ => if decide (cr_ui s = UiRuns) then Some (set_ui (UiReturned true) s) else None
      | _ => None
      end
  | MainJoins =>
      match cr_main s with
      | Closing success =>
          match cr_ui s with
          | UiRuns => None
          | UiReturned false => Some (set_main (Ended ExitFailure) s)
          | UiReturned true | UiCrashed =>
              Some (set_main (Ended (if cr_checker s then ExitPanic else if success then ExitSuccess else ExitFailure)) s)
          end
      | _ => None
      end
  end.

Definition crash_run (jobs : nat) (clean : bool) (s : crash_state) (es : list crash_event) : option crash_state :=
  fold_left (fun s e => s ← s; crash_step jobs clean s e) es (Some s).
