(** The terminal in the course of a run with the full-screen interface.
    Sources: /repo/src/ui/full_term.rs:62-82, 98-104, 130-133, 167-175, /repo/src/main.rs:302-345.
    The run itself is that of [CrashModel]. [disable_raw_mode] and leaving the alternate screen are taken to work. *)
From Verif Require Import Base StoreModel CrashModel.

(** The terminal, and whether the interface has a [Terminal] (full_term.rs:62-67). *)
Record shown_run := ShownRun {
  sr_run : crash_state;
  sr_raw : bool;          (** keys are neither echoed nor waited for by the line *)
  sr_alternate : bool;    (** the alternate screen is shown *)
  sr_open : bool }.

Definition shown_init : shown_run := ShownRun crash_init false false false.

(** How far [Terminal::new] (full_term.rs:69-82) gets: raw mode cannot be enabled; the alternate screen cannot be entered; the size of
    the terminal cannot be read; all works. *)
Inductive opening := NoRaw | NoAlternate | NoSize | Opened.
Global Instance opening_eq_dec : EqDecision opening.
Proof. solve_decision. Defined.

Inductive shown_event := Opens (o : opening) | Goes (e : crash_event).

(** Somebody has handed in problems (full_term.rs:98-101). *)
Definition has_problems (s : crash_state) : bool :=
  existsb (fun st => match st with Asking _ => true | _ => false end) (cr_requests s) || bool_decide (cr_main s = AskingUnused).

(** The user can only decide what is shown. *)
Definition by_user (e : crash_event) : bool :=
  match e with UserContinues _ | UserContinuesUnused | UserGivesUp => true | _ => false end.

(** Whatever way the thread of the interface ends, its [Terminal] is dropped (full_term.rs:167-175). *)
Definition settle (s : shown_run) : shown_run :=
  if decide (cr_ui (sr_run s) = UiRuns) then s
  else if sr_open s then ShownRun (sr_run s) false false false else s.

(** One event. [Opens]: the interface is sent the first problem and makes its [Terminal] (full_term.rs:98-102); an error of that ends
    the interface. A [Terminal] that was not made is not dropped. *)
Definition shown_step (jobs : nat) (clean : bool) (s : shown_run) (e : shown_event) : option shown_run :=
  match e with
  | Opens o =>
      if sr_open s || negb (has_problems (sr_run s)) then None
      else match o with
           | Opened =>
               if decide (cr_ui (sr_run s) = UiRuns) then
                 match cr_main (sr_run s) with Ended _ => None | _ => Some (ShownRun (sr_run s) true true true) end
               else None
           | _ =>
               r ← crash_step jobs clean (sr_run s) UiFails;
               Some (ShownRun r (sr_raw s || negb (bool_decide (o = NoRaw))) (sr_alternate s || bool_decide (o = NoSize)) false)
           end
  | Goes e =>
      if by_user e && negb (sr_open s) then None
      else r ← crash_step jobs clean (sr_run s) e; Some (settle (ShownRun r (sr_raw s) (sr_alternate s) (sr_open s)))
  end.

Definition shown_runs (jobs : nat) (clean : bool) (s : shown_run) (es : list shown_event) : option shown_run :=
  fold_left (fun s e => s ← s; shown_step jobs clean s e) es (Some s).
