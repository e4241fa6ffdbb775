(** Leaving nothing behind. *)
From Verif Require Import Base TempModel.

(** The process has ended. *)
Definition has_exited (s : temp_state) : Prop := tp_main s = Gone.

(** The temporary directory is left behind. *)
Definition left_behind (s : temp_state) : Prop := tp_there s = true.

(** What was run is [cargo acl summary]. *)
Definition is_summary (es : list temp_event) : Prop := SummaryReturns ∈ es.

(** The interface did not break down. *)
Definition ui_sound (es : list temp_event) : Prop := UiCrashes ∉ es.
