(** What the options promise. *)
From Verif Require Import Base ConfigModel ProblemModel StoreModel UiModel LaunchModel OptionsModel TermModel TermSpec.

(** Nobody presses a key. *)
Definition no_key {o : outside} (a : step o) : Prop := forall k, a <> TGo (PollKey k).

(** The options ask for an interactive interface, in so many words or by leaving the choice to a terminal. *)
Definition interactive (o : options) (terminal : bool) : Prop :=
  op_no_ui o = false /\ (op_ui o = Some BasicUi \/ op_ui o = Some FullUi \/ (op_ui o = None /\ terminal = true)).

(** The file is the same whenever it is loaded. *)
Definition unchanged (l : loads) : Prop :=
  Forall (fun c => c = ld_first l) (ld_handled l) /\ ld_last l = ld_first l.
