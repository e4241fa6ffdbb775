(** The output of cargo in the course of a whole run, with pipes that hold only so much.
    Sources: /repo/src/proxy.rs:174-212, 267-298, /repo/src/main.rs:302-322, 414-433, /repo/src/ui/full_term.rs:62-79, 100-152. *)
From Verif Require Import Base WireModel.

(** Where the main thread is: cargo has been started; the interface has been told to shut down (main.rs:314); the
    interface has ended (main.rs:315); the process has ended. *)
Inductive phase := Building | Told | Alone | Exited.
Global Instance phase_eq_dec : EqDecision phase.
Proof. solve_decision. Defined.

(** What cargo still has to print, byte by byte; whether it will succeed; whether it runs. *)
Record whole_run_state := WholeRun {
  wr_todo : list (channel * ascii);
  wr_ok : bool;
  wr_running : bool;
  wr_phase : phase;
  wr_out : output_state }.

Definition run_start (todo : list (channel * ascii)) (ok : bool) : whole_run_state :=
  WholeRun todo ok true Building output_init.

Inductive run_event :=
| CargoPrints
| CargoEnds
| UiOpens
| CargoSeen
| UiCloses
| MainExits
| UserQuits
| Passes (t : channel) (read : option nat).

(** The writing ends of both pipes are closed. *)
Definition close_both (s : output_state) : option output_state :=
  s ← output_step s (Closed Stdout); output_step s (Closed Stderr).

(** One event; [None] if it cannot happen now. A pipe holds [capacity] bytes, and cargo waits while its pipe is full.
    - [UiOpens]: the full-screen interface gets the first problem and locks stderr (full_term.rs:70-79, 100-104). It keeps
      the lock until it is told to shut down (full_term.rs:130-132).
    - [CargoSeen]: [invoke_cargo_build] returns (proxy.rs:200-212), and [run] after it; what is asked about unused
      permissions in between is left out. If cargo has failed, [CargoOutputWaiter] is dropped (proxy.rs:207-209,
      main.rs:427-432).
    - [MainExits]: with a [CargoOutputWaiter] only after both threads (main.rs:319-321).
    - [UserQuits]: cargo is killed (full_term.rs:106-115, proxy.rs:213-216). Processes that cargo has started die with it.
    - [Passes]: a turn of a thread of [start_output_pass_through_thread] (proxy.rs:278-298): a read, with its size, or
      without one writing to the terminal or seeing the end. *)
Definition run_step (capacity : nat) (w : whole_run_state) (e : run_event) : option whole_run_state :=
  let 'WholeRun todo ok running phase out := w in
  if decide (phase = Exited) then None
  else match e with
  | CargoPrints =>
      match todo with
      | (t, c) :: todo =>
          if running && Nat.ltb (length (pi_waiting (os_pipe out t))) capacity
          then out ← output_step out (Printed t [c]); Some (WholeRun todo ok running phase out)
          else None
      | [] => None
      end
  | CargoEnds =>
      match todo with
      | [] => if running then out ← close_both out; Some (WholeRun [] ok false phase out) else None
      | _ => None
      end
  | UiOpens =>
      if decide (phase = Building) then out ← output_step out TakeLock; Some (WholeRun todo ok running phase out) else None
  | CargoSeen =>
      if decide (phase = Building) then if running then None else Some (WholeRun todo ok running Told out) else None
  | UiCloses =>
      if decide (phase = Told) then
        if os_locked out then out ← output_step out GiveLock; Some (WholeRun todo ok running Alone out)
        else Some (WholeRun todo ok running Alone out)
      else None
  | MainExits =>
      if decide (phase = Alone) then
        if ok && negb (output_waited out) then None else Some (WholeRun todo ok running Exited out)
      else None
  | UserQuits =>
      if running && os_locked out then out ← close_both out; Some (WholeRun [] false false phase out) else None
  | Passes t (Some size) => out ← output_step out (ReadPipe t size); Some (WholeRun todo ok running phase out)
  | Passes t None =>
      match output_step out (PassOn t) with
      | Some out => Some (WholeRun todo ok running phase out)
      | None => out ← output_step out (SeeEnd t); Some (WholeRun todo ok running phase out)
      end
  end.

Definition run_steps (capacity : nat) (w : whole_run_state) (es : list run_event) : option whole_run_state :=
  fold_left (fun w e => w ← w; run_step capacity w e) es (Some w).
