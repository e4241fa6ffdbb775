(** What a crash may and may not lead to. *)
From Verif Require Import Base StoreModel CrashModel.

(** While the [i]th request was judged or reported, its thread crashed. *)
Definition crashed_at (i : nat) (e : crash_event) : Prop :=
  e = Judged i Panics \/ e = Reloaded i Panics \/ e = StoreAddPanics i.

(** The process has ended with success. *)
Definition succeeded (s : crash_state) : Prop := cr_main s = Ended ExitSuccess.

(** The process of the [i]th request has been told something. *)
Definition told (s : crash_state) (i : nat) : Prop := exists o, cr_requests s !! i = Some (Answered o).

(** The [i]th request has problems about which somebody has to decide. *)
Definition undecided (s : crash_state) (i : nat) : Prop := exists retry, cr_requests s !! i = Some (Asking retry).

(** Nobody is there to decide. *)
Definition interface_gone (s : crash_state) : Prop := cr_ui s <> UiRuns.

(** The process has not ended and never will: nothing can happen. *)
Definition hangs (jobs : nat) (clean : bool) (s : crash_state) : Prop :=
  (forall e, cr_main s <> Ended e) /\ forall e, crash_step jobs clean s e = None.
