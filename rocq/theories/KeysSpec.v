(** What the help of the full-screen interface says about keys. *)
From Verif Require Import Base ApiMapModel ConfigModel ProblemModel StoreModel TomlModel EditorModel TermModel
  TermSpec KeysModel.

(** ** Names of keys *)

(** Names are separated by slashes. *)
Fixpoint parts (s : str) : list str :=
  match s with
  | [] => [[]]
  | c :: s' =>
      if bool_decide (c = "/"%char) then [] :: parts s'
      else match parts s' with p :: ps => (c :: p) :: ps | [] => [[c]] end
  end.

Definition key_named (name : str) : option key :=
  if bool_decide (name = lit "up") then Some KUp
  else if bool_decide (name = lit "down") then Some KDown
  else if bool_decide (name = lit "enter") then Some KEnter
  else if bool_decide (name = lit "esc") then Some KEsc
  else if bool_decide (name = lit "space") then Some (KChar " ")
  else match name with [c] => Some (KChar c) | _ => None end.

Definition keys_named (names : str) : list key := omap key_named (parts names).

(** ** What keys do *)

Section spec.
  Context (o : outside).

  (** Pressing [k] neither crashes nor hangs, and [P] holds of what comes out of it. *)
  Definition pressing (s : term o) (k : key) (P : term o -> list (act o) -> Prop) : Prop :=
    exists s' acts, term_step o s (TGo (PollKey k)) = Stepped s' acts /\ P s' acts.

  (** Nothing is written, no problem is closed, nobody gets an answer. *)
  Definition quiet (s s' : term o) (acts : list (act o)) : Prop := acts = [] /\ ts_world s' = ts_world s.

  (** Only a message about an error appears. *)
  Definition refuses (s s' : term o) (acts : list (act o)) : Prop :=
    quiet s s' acts /\ ts_error s' = true /\ on_top o s' = on_top o s /\ items o s' = items o s /\
    cursor o s' = cursor o s.

  (** Another view of the same problem appears, and keys now act on it. *)
  Definition opens (m : mode) (s s' : term o) (acts : list (act o)) : Prop :=
    quiet s s' acts /\ ts_error s' = false /\ on_top o s' = Some m /\ current o s' = current o s.

  (** A list appears, and its first element is selected. *)
  Definition lists (m : mode) (rows : list row) (s s' : term o) (acts : list (act o)) : Prop :=
    opens m s s' acts /\ items o s' = Some rows /\ cursor o s' = 0.

  (** The fixes and the uses of the selected problem. *)
  Definition its_fixes (s : term o) : list edit :=
    match current o s with Some (_, p) => offered o s p | None => [] end.
  Definition its_uses (s : term o) : list nat :=
    match current o s with Some (_, p) => o_usages o p | None => [] end.

  (** ** The meaning of the texts *)

  Definition shows_fixes (s : term o) (k : key) : Prop :=
    pressing s k (fun s' acts =>
      (its_fixes s <> [] -> lists SelectEdit (map RowEdit (its_fixes s)) s s' acts) /\
      (its_fixes s = [] -> refuses s s' acts)).

  Definition jumps_to_fixes (s : term o) (k : key) : Prop :=
    pressing s k (lists SelectEdit (map RowEdit (its_fixes s)) s).

  Definition shows_uses (s : term o) (k : key) : Prop :=
    pressing s k (fun s' acts =>
      (its_uses s <> [] -> lists SelectUsage (map RowUsage (its_uses s)) s s' acts) /\
      (its_uses s = [] -> refuses s s' acts)).

  Definition shows (m : mode) (s : term o) (k : key) : Prop := pressing s k (opens m s).

  (** The cursor moves one up or down in the list, around at the ends. *)
  Definition moves (up : bool) (s : term o) (k : key) : Prop :=
    forall rows, items o s = Some rows -> cursor o s < length rows ->
    pressing s k (fun s' acts =>
      quiet s s' acts /\ ts_error s' = false /\ on_top o s' = on_top o s /\ items o s' = Some rows /\
      if up then cursor o s' = if Nat.eqb (cursor o s) 0 then length rows - 1 else cursor o s - 1
      else cursor o s' = if Nat.eqb (S (cursor o s)) (length rows) then 0 else S (cursor o s)).

  (** First there is a question; if it has been answered before, nothing happens. *)
  Definition offers_auto_apply (s : term o) (k : key) : Prop :=
    pressing s k (fun s' acts =>
      (tu_accept (ts_ui s) = false -> opens PromptAutoAccept s s' acts) /\
      (tu_accept (ts_ui s) = true -> quiet s s' acts /\ ts_ui s' = ts_ui s)).

  (** The fix is applied with the comment, the file is written, and the list of problems is shown; or an
      error is shown, and the fix cannot be applied or the file cannot be written. *)
  Definition applies (s : term o) (k : key) : Prop :=
    forall e, its_fixes s !! cursor o s = Some e ->
    pressing s k (fun s' acts =>
      (exists d d', o_parse o (w_file (ts_world s)) = Some d /\ o_apply o e (tu_comment (ts_ui s)) d = Some d' /\
         w_writable (ts_world s) = true /\ written o acts = [o_print o d'] /\
         w_file (ts_world s') = o_print o d' /\ ts_error s' = false /\ on_top o s' = Some SelectProblem) \/
      (refuses s s' acts /\
       (w_writable (ts_world s) = true -> forall d, o_parse o (w_file (ts_world s)) = Some d ->
          o_apply o e (tu_comment (ts_ui s)) d = None))).

  (** A prompt with the comment that was given before, if any, and the cursor at its end. *)
  Definition asks_for_comment (s : term o) (k : key) : Prop :=
    pressing s k (fun s' acts =>
      let supported := exists e d, its_fixes s !! cursor o s = Some e /\
                         o_parse o (w_file (ts_world s)) = Some d /\ o_has_comment o e d = true in
      (supported -> exists i, opens (SetComment i) s s' acts /\ in_value i = default [] (tu_comment (ts_ui s)) /\
                      in_cursor i = length (in_value i)) /\
      (~ supported -> refuses s s' acts)).

  Definition shows_backtrace (s : term o) (k : key) : Prop :=
    forall u, its_uses s !! cursor o s = Some u ->
    pressing s k (fun s' acts =>
      match o_backtrace o u with
      | Some frames => lists (Backtrace frames) (map RowFrame frames) s s' acts
      | None => refuses s s' acts
      end).

  (** Nothing else is different, and pressing it again undoes it. *)
  Definition toggles_details (s : term o) (k : key) : Prop :=
    pressing s k (fun s' acts => quiet s s' acts /\ ts_error s' = false /\
      tu_details (ts_ui s') = negb (tu_details (ts_ui s)) /\
      on_top o s' = on_top o s /\ items o s' = items o s /\ cursor o s' = cursor o s).

  Definition quits (s : term o) (k : key) : Prop :=
    pressing s k (fun s' acts => quiet s s' acts /\ on_top o s' = None).

  (** The help is that of what was on top. *)
  Definition shows_help (s : term o) (k : key) : Prop :=
    pressing s k (fun s' acts => opens Help s s' acts /\ help_shown (ts_ui s') = Some (help_rows (on_top o s))).

  Inductive meaning : str -> (term o -> key -> Prop) -> Prop :=
  | m_fixes : meaning (lit "Show available automatic fixes for this problem") shows_fixes
  | m_details : meaning (lit "Select and show details of each usage (API/unsafe/extern only)") shows_uses
  | m_tree : meaning (lit "Show tree of crate dependencies to this crate") (shows ShowPackageTree)
  | m_previous_problem : meaning (lit "Select previous problem") (moves true)
  | m_next_problem : meaning (lit "Select next problem") (moves false)
  | m_auto : meaning (lit "Enable auto-apply for problems with only one edit") offers_auto_apply
  | m_apply : meaning (lit "Apply this edit") applies
  | m_jump_details : meaning (lit "Jump to usage details (API/unsafe/extern only)") shows_uses
  | m_comment : meaning (lit "Add comment to edit (supported edits only)") asks_for_comment
  | m_previous_edit : meaning (lit "Select previous edit") (moves true)
  | m_next_edit : meaning (lit "Select next edit") (moves false)
  | m_return : meaning (lit "Return to problem list") (shows SelectProblem)
  | m_previous_usage : meaning (lit "Select previous usage") (moves true)
  | m_next_usage : meaning (lit "Select next usage") (moves false)
  | m_backtrace : meaning (lit "Show backtrace for this usage (API only)") shows_backtrace
  | m_jump_edits : meaning (lit "Jump to edits for the current problem") jumps_to_fixes
  | m_diagnostics : meaning (lit "Show internal diagnostics (requires --debug)") (shows ShowInternalDiagnostics)
  | m_package : meaning (lit "Toggle display of package details") toggles_details
  | m_quit : meaning (lit "Quit") quits
  | m_help : meaning (lit "Show mode-specific help") shows_help.

  (** The key has no effect at all. *)
  Definition ignored (s : term o) (k : key) : Prop :=
    pressing s k (fun s' acts => quiet s s' acts /\ ts_error s' = false /\ ts_ui s' = ts_ui s).
End spec.

(** The views that have a help of their own. *)
Definition main_view (m : mode) : Prop := m = SelectProblem \/ m = SelectEdit \/ m = SelectUsage.
