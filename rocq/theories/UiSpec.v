(** What the users of the non-interactive mode may rely on. *)
From Verif Require Import Base ApiMapModel ConfigModel ProblemModel StoreModel StoreSpec TomlModel
  EditorModel UiModel.

(** The problems that are only warnings: unused permissions, possible improvements of the
    configuration. *)
Inductive warning : problem -> Prop :=
| warn_unused_api sel apis : warning (PUnusedAllowApi sel apis)
| warn_unused_package sel : warning (PUnusedPackageConfig sel)
| warn_possible_export p api sym : warning (PPossibleExportedApi p api sym)
| warn_new_version v : warning (PNewConfigVersionAvailable v)
| warn_available p api config : warning (PAvailableApi p api config).

(** A problem makes the run fail: it is not a warning, or warnings are to be errors. Under a
    sub-command warnings never matter. *)
Definition objects (f : ui_flags) (p : problem) : Prop :=
  ~ warning p \/ fl_fail_on_warnings f = true /\ fl_command f = false.

Definition store_events (acts : list ui_act) : list store_event :=
  omap (fun a => match a with AStore e => Some e | _ => None end) acts.

(** What client [c] was answered. *)
Definition answers (acts : list ui_act) (c : nat) : list outcome := received (store_events acts) c.

Definition is_turn (a : ui_step) : Prop := match a with UTurn _ => True | _ => False end.
Definition submissions (l : list ui_step) : list problem :=
  concat (map (fun a => match a with USubmit _ ps => ps | _ => [] end) l).
Definition submitters (l : list ui_step) : list nat :=
  omap (fun a => match a with USubmit c _ => Some c | _ => None end) l.

(** The files that were written. *)
Definition written (acts : list ui_act) : list table :=
  omap (fun a => match a with AWrote d => Some d | _ => None end) acts.

(** The problems that were resolved, by id. *)
Definition resolved (acts : list ui_act) : list nat :=
  omap (fun e => match se_op e with SReplace id _ => Some id | _ => None end) (store_events acts).

(** Edits one after the other. *)
Fixpoint apply_in_order (apply : edit -> table -> option table) (l : list edit) (d : table)
    : option table :=
  match l with
  | [] => Some d
  | e :: l' => match apply e d with Some d' => apply_in_order apply l' d' | None => None end
  end.

(** The problems for which there is a fix, each with the fix that is offered first; and the others. *)
Definition fixable (fixes : problem -> config -> list edit) (c : config) (l : list (nat * problem))
    : list (nat * edit) :=
  omap (fun e : nat * problem => (fun x => (e.1, x)) <$> head (fixes e.2 c)) l.
Definition unfixable (fixes : problem -> config -> list edit) (c : config) (l : list (nat * problem))
    : list (nat * problem) :=
  filter (fun e : nat * problem => fixes e.2 c = []) l.

(** Giving up was never answered to anybody. *)
Definition nobody_gave_up (es : list store_event) : Prop := forall c, GiveUp ∉ received es c.
