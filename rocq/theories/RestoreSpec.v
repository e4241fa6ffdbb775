(** A terminal as it was before. *)
From Verif Require Import Base CrashModel RestoreModel.

Definition as_before (s : shown_run) : Prop := sr_raw s = false /\ sr_alternate s = false.

(** The interface could be opened whenever it was tried. *)
Definition opening_works (es : list shown_event) : Prop := forall o, Opens o ∈ es -> o = Opened.

(** The main thread has left [main] in the way it should. *)
Definition orderly_end (s : shown_run) : Prop :=
  cr_main (sr_run s) = Ended ExitSuccess \/ cr_main (sr_run s) = Ended ExitFailure.
Definition ended (s : shown_run) : Prop := exists e, cr_main (sr_run s) = Ended e.

(** Something was objected to. *)
Definition objects (e : shown_event) : Prop :=
  (exists i retry, e = Goes (Judged i (Objects retry))) \/ (exists retry, e = Goes (UnusedChecked (Objects retry))).
