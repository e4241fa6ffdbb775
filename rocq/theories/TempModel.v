(** Who owns the temporary directory, and when it is removed.
    Sources: /repo/src/tmpdir.rs, /repo/src/main.rs:217-231, 246-300, 302-355, 459-470, 563-571, /repo/src/checker.rs:51-56, 108-135,
    /repo/src/ui.rs:43-84, /repo/src/problem_store.rs:15-31, /repo/src/proxy.rs:220-232. *)
From Verif Require Import Base.

(** [TempDir] (tmpdir.rs:5-15): made by the process and removed when it is dropped, or given with --tmpdir. *)
Inductive temp_dir := Owned | Borrowed.
Global Instance temp_dir_eq_dec : EqDecision temp_dir.
Proof. solve_decision. Defined.

(** Where the main thread is: in [run] (main.rs:308); it has sent [Shutdown] (314); it has joined the interface (315); [Cackle] has been
    dropped at the end of [run_and_report_errors] (345); [std::process::exit] was called (231). *)
Inductive main_at := Running | Stopping | Joined | Dropped | Gone.
Global Instance main_at_eq_dec : EqDecision main_at.
Proof. solve_decision. Defined.

Record temp_state := Temp {
  tp_kind : temp_dir;
  tp_main : main_at;
  tp_ui : bool;          (** the thread of the interface is alive *)
  tp_handlers : nat;     (** how many threads of requests are alive *)
  tp_there : bool }.     (** the directory is there *)

(** [Cackle::new] (main.rs:246-296) *)
Definition temp_init (k : temp_dir) : temp_state := Temp k Running true 0 true.

(** [Cackle] has not been dropped. *)
Definition cackle_alive (s : temp_state) : bool :=
  match tp_main s with Running | Stopping | Joined => true | Dropped | Gone => false end.

(** The owners of the checker: [Cackle] (main.rs:238), the interface (ui.rs:55-79), each [RequestHandler] (main.rs:459-466). *)
Definition checker_alive (s : temp_state) : bool := cackle_alive s || tp_ui s || Nat.ltb 0 (tp_handlers s).

(** The owners of the store of problems: the same (main.rs:235, ui.rs:82-84, main.rs:463). *)
Definition store_alive (s : temp_state) : bool := cackle_alive s || tp_ui s || Nat.ltb 0 (tp_handlers s).

(** Somebody can still send events to the interface: [Cackle] (main.rs:242) or the store (problem_store.rs:29). *)
Definition sender_alive (s : temp_state) : bool := cackle_alive s || store_alive s.

(** The owners of the directory: [Cackle] (main.rs:239) and the checker (checker.rs:54). *)
Definition dir_owned (s : temp_state) : bool := cackle_alive s || checker_alive s.

(** After something was dropped: the last owner removes a directory of its own. *)
Definition clean_up (s : temp_state) : temp_state :=
  Temp (tp_kind s) (tp_main s) (tp_ui s) (tp_handlers s)
    (tp_there s && (dir_owned s || bool_decide (tp_kind s = Borrowed))).

Definition set_at (m : main_at) (s : temp_state) : temp_state := Temp (tp_kind s) m (tp_ui s) (tp_handlers s) (tp_there s).
Definition set_ui_alive (b : bool) (s : temp_state) : temp_state := Temp (tp_kind s) (tp_main s) b (tp_handlers s) (tp_there s).
Definition set_handlers (n : nat) (s : temp_state) : temp_state := Temp (tp_kind s) (tp_main s) (tp_ui s) n (tp_there s).

(** - [RequestComes]: a thread with a [RequestHandler] starts (proxy.rs:220-232); [RequestEnds]: it ends.
    - [UiCrashes]: the interface ends by itself, with a panic or an error. [UiEnds]: it has received [Shutdown], or nobody can send
      events any more (full_term.rs:130-133, null_ui.rs:93-95, basic_term.rs:51).
    - [RunReturns], [Joins], [Drops], [Exits]: the main thread. [SummaryReturns]: [print_summary] (main.rs:305-307), after which
      [Cackle] is dropped at once. *)
Inductive temp_event :=
| RequestComes | RequestEnds | UiCrashes | UiEnds | RunReturns | Joins | Drops | Exits | SummaryReturns.

Definition temp_step (s : temp_state) (e : temp_event) : option temp_state :=
  if decide (tp_main s = Gone) then None
  else match e with
  | RequestComes => if decide (tp_main s = Running) then Some (set_handlers (S (tp_handlers s)) s) else None
  | RequestEnds => match tp_handlers s with S n => Some (clean_up (set_handlers n s)) | 0 => None end
  | UiCrashes => if tp_ui s then Some (clean_up (set_ui_alive false s)) else None
  | UiEnds =>
      if tp_ui s && (bool_decide (tp_main s = Stopping) || negb (sender_alive s))
      then Some (clean_up (set_ui_alive false s)) else None
  | RunReturns => if decide (tp_main s = Running) then Some (set_at Stopping s) else None
  | Joins => if decide (tp_main s = Stopping) then if tp_ui s then None else Some (set_at Joined s) else None
  | Drops => if decide (tp_main s = Joined) then Some (clean_up (set_at Dropped s)) else None
  | SummaryReturns => if decide (tp_main s = Running) then Some (clean_up (set_at Dropped s)) else None
  | Exits => if decide (tp_main s = Dropped) then Some (set_at Gone s) else None
  end.

Definition temp_run (s : temp_state) (es : list temp_event) : option temp_state :=
  fold_left (fun s e => s ← s; temp_step s e) es (Some s).
