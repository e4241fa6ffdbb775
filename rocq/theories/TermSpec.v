(** What the users of the full-screen interface may rely on, in terms of what was on the screen, the keys,
    the problems, and the configuration file. *)
From Verif Require Import Base ApiMapModel ConfigModel ProblemModel StoreModel StoreSpec TomlModel
  EditorModel TermModel.

Section spec.
  Context (o : outside).

  (** After the steps [l] from the start of the interface the state is [s]; [tr] tells what each step
      did. *)
  Definition reached (l : list (step o)) (s : term o) (tr : list (step o * list (act o))) : Prop :=
    exists file writable c, term_run o (term_init o file writable c) l = Some (s, tr).

  Definition acts_of (tr : list (step o * list (act o))) : list (act o) := concat (map snd tr).

  (** The texts that were written to the file; what happened to the problems. *)
  Definition written (acts : list (act o)) : list (o_text o) :=
    omap (fun a => match a with Wrote t => Some t | _ => None end) acts.
  Definition stored (acts : list (act o)) : list store_event :=
    omap (fun a => match a with Stored e => Some e | _ => None end) acts.
  Definition drawn (acts : list (act o)) : list (screen o) :=
    omap (fun a => match a with Drew s => Some s | _ => None end) acts.

  (** The line that is marked as selected. *)
  Definition highlighted (sc : screen o) : option row := sc_rows sc !! sc_index sc.

  (** The keys that apply the selected fix. *)
  Definition confirms (k : key) : Prop := k = KEnter \/ k = KChar " " \/ k = KChar "f".

  (** Other threads neither submit problems nor reload the configuration, and nobody else changes the
      file. *)
  Definition undisturbed (a : step o) : Prop :=
    match a with TSubmit _ _ | TReload _ | TFile _ _ => False | TShutdown | TGo _ => True end.

  (** [sc] is on the screen, and it was drawn when everything was as it is now. *)
  Definition up_to_date (tr : list (step o * list (act o))) (sc : screen o) : Prop :=
    exists tr1 a acts tr2, tr = tr1 ++ (a, acts) :: tr2 /\ last (drawn acts) = Some sc /\
      Forall (fun e : step o * list (act o) => undisturbed e.1 /\ drawn e.2 = []) tr2.

  (** The fixes that are offered for a problem. *)
  Definition offered (s : term o) (p : problem) : list edit :=
    fixes_for_problem (o_failed_in o) (o_exported o) (o_prefixes o) p (w_config (ts_world s)).

  (** What is on top of the screen. *)
  Definition on_top (s : term o) : option mode := head (tu_modes (ts_ui s)).

  Definition open_problems (s : term o) : list (nat * problem) := store_open (w_store (ts_world s)).

  (** The problem that is selected in the list. *)
  Definition current (s : term o) : option (nat * problem) := open_problems s !! tu_problem (ts_ui s).

  (** The list that the arrow keys move in, if there is one, and the place in it. *)
  Definition items (s : term o) : option (list row) :=
    match on_top s with
    | Some SelectProblem => Some (map (fun e : nat * problem => RowProblem e.2) (open_problems s))
    | Some SelectEdit =>
        Some (match current s with Some (_, p) => map RowEdit (offered s p) | None => [] end)
    | Some SelectUsage =>
        Some (match current s with Some (_, p) => map RowUsage (o_usages o p) | None => [] end)
    | Some (Backtrace f) => Some (map RowFrame f)
    | _ => None
    end.
  Definition cursor (s : term o) : nat :=
    match on_top s with
    | Some SelectEdit => tu_edit (ts_ui s)
    | Some SelectUsage => tu_usage (ts_ui s)
    | Some (Backtrace _) => tu_frame (ts_ui s)
    | _ => tu_problem (ts_ui s)
    end.

  (** The next key that is pressed is for what is on the screen: no error is shown on top of it. *)
  Definition takes_key (s : term o) : Prop := ts_at s = AtKey /\ ts_error s = false.

  (** From [s] the run goes on to [s']. *)
  Definition continues (s : term o) (tr : list (step o * list (act o))) (s' : term o) : Prop :=
    exists l, term_run o s l = Some (s', tr).

  (** In the run that led to [s], somebody pressed Enter when the interface asked whether to accept all
      fixes that have no alternative. *)
  Definition agreed (tr : list (step o * list (act o))) (s : term o) : Prop :=
    exists l0 s0 tr0 s1 acts tr1, reached l0 s0 tr0 /\ takes_key s0 /\ on_top s0 = Some PromptAutoAccept /\
      term_step o s0 (TGo (PollKey KEnter)) = Stepped s1 acts /\ continues s1 tr1 s /\
      tr = tr0 ++ (TGo (PollKey KEnter), acts) :: tr1.

  (** In the run that led to [s], somebody pressed Enter when the comment prompt contained [c], and [P]
      holds of what happened since then. *)
  Definition entered (tr : list (step o * list (act o))) (s : term o) (c : str)
      (P : list (step o * list (act o)) -> Prop) : Prop :=
    exists l0 s0 tr0 i s1 acts tr1, reached l0 s0 tr0 /\ takes_key s0 /\ on_top s0 = Some (SetComment i) /\
      in_value i = c /\ c <> [] /\
      term_step o s0 (TGo (PollKey KEnter)) = Stepped s1 acts /\ continues s1 tr1 s /\
      tr = tr0 ++ (TGo (PollKey KEnter), acts) :: tr1 /\ P tr1.

  (** The problems for which exactly one fix is offered, each with that fix; and the others. *)
  Definition sole_fix (s : term o) (p : problem) : option edit :=
    match offered s p with [e] => Some e | _ => None end.
  Definition singles (s : term o) : list (nat * edit) :=
    omap (fun e : nat * problem => (fun x => (e.1, x)) <$> sole_fix s e.2) (open_problems s).
  Definition others (s : term o) : list (nat * problem) :=
    filter (fun e : nat * problem => sole_fix s e.2 = None) (open_problems s).

  (** Fixes applied one after the other, without comments. *)
  Fixpoint applied (l : list edit) (d : o_doc o) : option (o_doc o) :=
    match l with
    | [] => Some d
    | e :: l' => match o_apply o e None d with Some d' => applied l' d' | None => None end
    end.

  (** A fix of the problem that is meant to change something would leave the text as it is. *)
  Definition settled (s : term o) (d : o_doc o) (p : problem) : Prop :=
    exists e d', e ∈ offered s p /\ (forall api, e <> IgnoreStdApi api) /\ (forall pkg, e <> IgnoreApi pkg) /\
      o_apply o e None d = Some d' /\ o_print o d' = o_print o d.

  (** What is closed without anything in its place, by id. *)
  Definition resolved (acts : list (act o)) : list nat :=
    omap (fun e => match se_op e with SReplace id _ => Some id | _ => None end) (stored acts).
End spec.

(** The problems that a screen lists. *)
Definition listed {o : outside} (sc : screen o) : list problem :=
  omap (fun r => match r with RowProblem p => Some p | _ => None end) (sc_rows sc).
