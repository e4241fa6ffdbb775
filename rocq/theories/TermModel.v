(** The full-screen user interface: /repo/src/ui/full_term.rs, /repo/src/ui/full_term/problems_ui.rs,
    /repo/src/problem_store.rs:88-122, /repo/src/config_editor.rs:46-54.
    Layout, colours, and the panes that show package details, source code and the tree of packages are
    not modelled, nor are errors of the terminal, which end the interface. *)
From Verif Require Import Base ApiMapModel ConfigModel ProblemModel StoreModel TomlModel EditorModel.

(** ** Keys, modes, and the state of the interface *)

(** [KeyCode]; [KOther] stands for all the others. *)
Inductive key := KUp | KDown | KEnter | KEsc | KChar (c : ascii) | KOther (n : nat).
Global Instance key_eq_dec : EqDecision key.
Proof. solve_decision. Defined.

Definition is_char (s : list ascii) (k : key) : bool :=
  match k with KChar c => bool_decide (c ∈ s) | _ => false end.

(** [tui_input::Input]: the text and the place of the cursor. *)
Record input := Input { in_value : str; in_cursor : nat }.
Global Instance input_eq_dec : EqDecision input.
Proof. solve_decision. Defined.
Definition input_of (s : str) : input := Input s (length s).

(** [Mode] (problems_ui.rs:75-86); a frame is a number. *)
Inductive mode :=
| SelectProblem | SelectEdit | SelectUsage | SetComment (i : input) | Backtrace (frames : list nat)
| PromptAutoAccept | ShowPackageTree | ShowInternalDiagnostics | Help.
Global Instance mode_eq_dec : EqDecision mode.
Proof. solve_decision. Defined.

(** [ProblemsUi] (problems_ui.rs:59-73) without what it shares with other threads. The last element of
    the vector of modes comes first. *)
Record tui := Tui {
  tu_modes : list mode;
  tu_problem : nat;
  tu_edit : nat;
  tu_usage : nat;
  tu_frame : nat;
  tu_accept : bool;
  tu_details : bool;
  tu_comment : option str;
  tu_previous : list str }.

(** problems_ui.rs:312-326 *)
Definition tui_init : tui := Tui [SelectProblem] 0 0 0 0 false true None [].

Definition set_modes (u : tui) (m : list mode) : tui :=
  Tui m (tu_problem u) (tu_edit u) (tu_usage u) (tu_frame u) (tu_accept u) (tu_details u) (tu_comment u)
    (tu_previous u).
Definition set_problem (u : tui) (n : nat) : tui :=
  Tui (tu_modes u) n (tu_edit u) (tu_usage u) (tu_frame u) (tu_accept u) (tu_details u) (tu_comment u)
    (tu_previous u).
Definition set_edit (u : tui) (n : nat) : tui :=
  Tui (tu_modes u) (tu_problem u) n (tu_usage u) (tu_frame u) (tu_accept u) (tu_details u) (tu_comment u)
    (tu_previous u).
Definition set_usage (u : tui) (n : nat) : tui :=
  Tui (tu_modes u) (tu_problem u) (tu_edit u) n (tu_frame u) (tu_accept u) (tu_details u) (tu_comment u)
    (tu_previous u).
Definition set_frame (u : tui) (n : nat) : tui :=
  Tui (tu_modes u) (tu_problem u) (tu_edit u) (tu_usage u) n (tu_accept u) (tu_details u) (tu_comment u)
    (tu_previous u).
Definition set_accept (u : tui) : tui :=
  Tui (tu_modes u) (tu_problem u) (tu_edit u) (tu_usage u) (tu_frame u) true (tu_details u) (tu_comment u)
    (tu_previous u).
Definition toggle_details (u : tui) : tui :=
  Tui (tu_modes u) (tu_problem u) (tu_edit u) (tu_usage u) (tu_frame u) (tu_accept u)
    (negb (tu_details u)) (tu_comment u) (tu_previous u).
Definition set_comment (u : tui) (c : option str) (previous : list str) : tui :=
  Tui (tu_modes u) (tu_problem u) (tu_edit u) (tu_usage u) (tu_frame u) (tu_accept u) (tu_details u) c
    previous.

Definition push (u : tui) (m : mode) : tui := set_modes u (m :: tu_modes u).
Definition pop (u : tui) : tui := set_modes u (tail (tu_modes u)).

(** [update_counter] (full_term.rs:255-261); [None] is the panic of a remainder by zero. *)
Definition update_counter (counter : nat) (up : bool) (len : nat) : option nat :=
  match len with
  | 0 => None
  | _ => Some ((if up then counter + len - 1 else counter + len + 1) mod len)
  end.

(** [enter_usage_mode] (problems_ui.rs:293-299); [None] is an endless loop. *)
Fixpoint back_to_problems (m : list mode) : option (list mode) :=
  match m with
  | [] => None
  | SelectProblem :: _ => Some m
  | _ :: m' => back_to_problems m'
  end.

(** ** Comments *)

(** The place of a text in a list (problems_ui.rs:161-165). *)
Fixpoint position (s : str) (l : list str) : nat :=
  match l with
  | [] => 0
  | x :: l' => if str_eqb x s then 0 else S (position s l')
  end.

(** problems_ui.rs:159-175 *)
Definition earlier_comment (previous : list str) (up : bool) (i : input) : input :=
  let n := position (in_value i) previous in
  match previous !! (if up then Nat.pred n else S n) with
  | Some s => input_of s
  | None => input_of []
  end.

(** problems_ui.rs:176-189 *)
Definition remember_comment (previous : list str) (s : str) : list str :=
  if bool_decide (last previous = Some s) then previous
  else filter (fun p => p <> s) previous ++ [s].
Definition confirm_comment (u : tui) (i : input) : tui :=
  match in_value i with
  | [] => pop (set_comment u None (tu_previous u))
  | s => pop (set_comment u (Some s) (remember_comment (tu_previous u) s))
  end.

(** ** What the threads share and what they do *)

(** What is given from outside:
    - texts and parsed configuration files, [ConfigEditor::from_toml_string], [to_toml], and [Edit::apply]
      with the comment to attach. An error of [apply] may leave changes in the parsed file; they are only
      looked at to be displayed, which is left out;
    - the oracles of [fixes_for_problem], and the names of the built-in APIs (config_editor.rs:479);
    - [usages_for_problem] (problems_ui.rs:925-964), where a usage is a number, and
      [ProblemsUi::backtrace] (674-688), given a usage;
    - [Input::handle_event] (191), and whether an edit supports comments (595-613). *)
Record outside := Outside {
  o_text : Type;
  o_text_eq : EqDecision o_text;
  o_doc : Type;
  o_parse : o_text -> option o_doc;
  o_print : o_doc -> o_text;
  o_apply : edit -> option str -> o_doc -> option o_doc;
  o_failed_in : nat -> sandbox_config;
  o_exported : nat -> api_config;
  o_prefixes : bool -> list api_usage -> option (list str);
  o_std_apis : list str;
  o_usages : problem -> list nat;
  o_backtrace : nat -> option (list nat);
  o_type_key : key -> input -> input;
  o_has_comment : edit -> o_doc -> bool }.
Global Existing Instance o_text_eq.

Section term.
  Context (o : outside).
  Notation text := (o_text o).
  Notation doc := (o_doc o).
  Notation parse := (o_parse o).
  Notation print := (o_print o).
  Notation apply := (o_apply o).
  Notation usages := (o_usages o).
  Notation backtrace := (o_backtrace o).
  Notation type_key := (o_type_key o).
  Notation has_comment := (o_has_comment o).

  Definition fixes (p : problem) (c : config) : list edit :=
    fixes_for_problem (o_failed_in o) (o_exported o) (o_prefixes o) p c.

  (** [Edit::replacement_problems] (config_editor.rs:46-48, 476-483, 507-511). *)
  Definition replacement_problems (e : edit) : list problem :=
    match e with
    | CreateCustomConfig => PSelectSandbox :: map PImportStdApi (o_std_apis o)
    | CreateRecommendedConfig => [PSelectSandbox]
    | _ => []
    end.

  (** [Edit::resolve_problem_if_edit_is_empty] (config_editor.rs:52-54, 685-687, 714-716). *)
  Definition resolve_if_empty (e : edit) : bool :=
    match e with IgnoreStdApi _ | IgnoreApi _ => false | _ => true end.

  (** What is shared: the problems, the file as [read_to_string(..).unwrap_or_default()] sees it, whether
      it can be written, and the configuration that the checker has loaded. *)
  Record world := World { w_store : store; w_file : text; w_writable : bool; w_config : config }.
  Definition set_store (w : world) (s : store) : world :=
    World s (w_file w) (w_writable w) (w_config w).
  Definition set_file (w : world) (t : text) : world :=
    World (w_store w) t (w_writable w) (w_config w).

  (** ** What is on the screen *)

  (** The lines of the list at the top (problems_ui.rs:368-441). *)
  Inductive row := RowProblem (p : problem) | RowEdit (e : edit) | RowUsage (u : nat) | RowFrame (f : nat).

  (** The pane that shows what an edit does (problems_ui.rs:478-497, 732-755): the texts whose difference
      is shown, or an error. *)
  Inductive preview := PreviewError | PreviewDiff (original updated : text).

  (** The screen: the list and which line is selected, the preview, what is on top, and whether there is
      an error on top of everything. *)
  Record screen := Screen {
    sc_rows : list row; sc_index : nat; sc_preview : option preview; sc_top : option mode; sc_error : bool }.

  (** [edits_for_problem] (problems_ui.rs:914-923), [usages_for_problem]. *)
  Definition selected (u : tui) (w : world) : option (nat * problem) :=
    store_open (w_store w) !! tu_problem u.
  Definition edits (u : tui) (w : world) : list edit :=
    match selected u w with Some (_, p) => fixes p (w_config w) | None => [] end.
  Definition shown_usages (u : tui) (w : world) : list nat :=
    match selected u w with Some (_, p) => usages p | None => [] end.

  Definition edit_mode (u : tui) : bool := bool_decide (SelectEdit ∈ tu_modes u).
  Definition usage_mode (u : tui) : bool := bool_decide (SelectUsage ∈ tu_modes u).
  Definition frames_shown (u : tui) : option (list nat) :=
    match tu_modes u with Backtrace f :: _ => Some f | _ => None end.

  (** problems_ui.rs:392-406 *)
  Fixpoint usage_rows (u : tui) (n : nat) (l : list nat) : list row :=
    match l with
    | [] => []
    | x :: l' =>
        RowUsage x ::
        match frames_shown u with
        | Some f => if Nat.eqb n (tu_usage u) then map RowFrame f else []
        | None => []
        end ++ usage_rows u (S n) l'
    end.

  (** problems_ui.rs:382-407 *)
  Fixpoint problem_rows (u : tui) (w : world) (n : nat) (l : list (nat * problem)) : list row :=
    match l with
    | [] => []
    | (_, p) :: l' =>
        RowProblem p ::
        (if Nat.eqb n (tu_problem u) then
           if edit_mode u then map RowEdit (edits u w)
           else if usage_mode u then usage_rows u 0 (shown_usages u w) else []
         else [])
        ++ problem_rows u w (S n) l'
    end.

  (** problems_ui.rs:408-423 *)
  Definition row_index (u : tui) : nat :=
    if edit_mode u then tu_problem u + (tu_edit u + 1)
    else if usage_mode u then
      tu_problem u + (tu_usage u + 1) + match frames_shown u with Some _ => tu_frame u + 1 | None => 0 end
    else tu_problem u.

  (** [render_edit_help_and_diff] and [config_diff_lines] (problems_ui.rs:478-497, 732-755). *)
  Definition edit_preview (u : tui) (w : world) : option preview :=
    if edit_mode u then
      match edits u w !! tu_edit u with
      | None => None
      | Some e =>
          Some match parse (w_file w) with
               | None => PreviewError
               | Some d => match apply e (tu_comment u) d with
                           | None => PreviewError
                           | Some d' => PreviewDiff (w_file w) (print d')
                           end
               end
      end
    else None.

  (** [render] (problems_ui.rs:93-146, 368-373). *)
  Definition draw (u : tui) (w : world) (error : bool) : screen :=
    Screen (problem_rows u w 0 (store_open (w_store w))) (row_index u) (edit_preview u w)
      (head (tu_modes u)) error.

  (** ** What a key does *)

  (** What the interface does that others can see. *)
  Inductive act :=
  | Drew (s : screen)
  | Stored (e : store_event)
  | Wrote (t : text)
  | StoppedCargo.

  (** The result of handling a key or new problems. An error is shown. *)
  Inductive handled :=
  | Handled (u : tui) (w : world) (acts : list act)
  | Failed (u : tui) (w : world) (acts : list act)
  | Crash
  | Hang.

  Definition act_resolve (s : store) (id : nat) (replacement : list problem) : option (store * act) :=
    match store_step s (SReplace id replacement) with
    | Some (s', e) => Some (s', Stored e)
    | None => None
    end.

  Fixpoint resolve_ids (s : store) (ids : list nat) : option (store * list act) :=
    match ids with
    | [] => Some (s, [])
    | id :: ids =>
        match act_resolve s id [] with
        | None => None
        | Some (s', a) =>
            match resolve_ids s' ids with
            | None => None
            | Some (s'', acts) => Some (s'', a :: acts)
            end
        end
    end.

  (** [resolve_problems_with_empty_diff] (problem_store.rs:88-122). *)
  Definition changes_nothing_now (c : config) (d : doc) (p : problem) : bool :=
    existsb (fun e => resolve_if_empty e &&
               match apply e None d with
               | Some d' => bool_decide (print d' = print d)
               | None => false
               end) (fixes p c).
  Definition empty_ids (c : config) (d : doc) (l : list (nat * problem)) : list nat :=
    map fst (List.filter (fun e : nat * problem => changes_nothing_now c d e.2) l).
  Definition resolve_empty (c : config) (d : doc) (s : store) : option (store * list act) :=
    resolve_ids s (rev (empty_ids c d (store_open s))).

  (** [apply_selected_edit] (problems_ui.rs:568-593); [write_atomic] either replaces the file or leaves it
      (C26). *)
  Definition apply_selected (u : tui) (w : world) : handled :=
    match edits u w !! tu_edit u with
    | None => Handled u w []
    | Some e =>
        match parse (w_file w) with
        | None => Failed u w []
        | Some d =>
            match apply e (tu_comment u) d with
            | None => Failed u w []
            | Some d' =>
                if negb (w_writable w) then Failed u w []
                else
                  match selected u w with
                  | None => Crash              (* not possible: there is an edit *)
                  | Some (id, _) =>
                      match act_resolve (w_store w) id (replacement_problems e) with
                      | None => Crash
                      | Some (s, a) =>
                          match resolve_empty (w_config w) d' s with
                          | None => Crash
                          | Some (s', acts) =>
                              Handled u (set_store (set_file w (print d')) s')
                                (Wrote (print d') :: a :: acts)
                          end
                      end
                  end
            end
        end
    end.

  (** [first_single_edit] (problems_ui.rs:337-351). *)
  Fixpoint first_single_edit (c : config) (l : list (nat * problem)) : option (nat * edit) :=
    match l with
    | [] => None
    | (id, p) :: l' =>
        match fixes p c with
        | [e] => Some (id, e)
        | _ => first_single_edit c l'
        end
    end.

  (** The loop of [accept_all_single_edits] (problems_ui.rs:356-359): the store, what was done, and the
      edited file, [None] if an edit failed. [None] is a panic, or the fuel is used up. *)
  Fixpoint accept_singles (fuel : nat) (c : config) (s : store) (d : doc)
      : option (store * list act * option doc) :=
    match first_single_edit c (store_open s) with
    | None => Some (s, [], Some d)
    | Some (id, e) =>
        match fuel with
        | 0 => None
        | S fuel =>
            match apply e None d with
            | None => Some (s, [], None)
            | Some d' =>
                match act_resolve s id [] with
                | None => None
                | Some (s', a) =>
                    match accept_singles fuel c s' d' with
                    | None => None
                    | Some (s'', acts, r) => Some (s'', a :: acts, r)
                    end
                end
            end
        end
    end.

  (** [accept_all_single_edits] (problems_ui.rs:336-362). *)
  Definition accept_all_single_edits (u : tui) (w : world) : handled :=
    match parse (w_file w) with
    | None => Failed u w []
    | Some d =>
        match accept_singles (length (st_problems (w_store w))) (w_config w) (w_store w) d with
        | None => Crash
        | Some (s, acts, None) => Failed u (set_store w s) acts
        | Some (s, acts, Some d') =>
            if w_writable w
            then Handled u (set_store (set_file w (print d')) s) (acts ++ [Wrote (print d')])
            else Failed u (set_store w s) acts
        end
    end.

  (** [problems_added] (problems_ui.rs:329-334). *)
  Definition problems_added (u : tui) (w : world) : handled :=
    if tu_accept u then accept_all_single_edits u w else Handled u w [].

  (** [current_edit_supports_comments] (problems_ui.rs:595-613). *)
  Definition supports_comments (u : tui) (w : world) : bool :=
    match edits u w !! tu_edit u, parse (w_file w) with
    | Some e, Some d => has_comment e d
    | _, _ => false
    end.

  (** Keys that do the same in several modes (problems_ui.rs:276-288); ['h'] and ['?'] are different in
      the help itself. *)
  Definition common_key (u : tui) (w : world) (k : key) : handled :=
    if is_char ["p"%char] k then Handled (toggle_details u) w []
    else if is_char ["h"%char; "?"%char] k then
      match tu_modes u with
      | Help :: _ => Handled (pop u) w []
      | _ => Handled (push u Help) w []
      end
    else if bool_decide (k = KEsc) then
      Handled (if Nat.leb 2 (length (tu_modes u)) then pop u else u) w []
    else Handled u w [].

  Definition is_arrow (k : key) : bool := match k with KUp | KDown => true | _ => false end.

  (** An arrow key in a list of the given length (problems_ui.rs:194-211). *)
  Definition arrow (w : world) (k : key) (n len : nat) (set : nat -> tui) : handled :=
    match update_counter n (bool_decide (k = KUp)) len with
    | Some n' => Handled (set n') w []
    | None => Crash
    end.

  (** problems_ui.rs:293-304 *)
  Definition enter_usage_mode (u : tui) (w : world) : handled :=
    match back_to_problems (tu_modes u) with
    | Some m => Handled (set_usage (set_modes u (SelectUsage :: m)) 0) w []
    | None => Hang
    end.
  Definition enter_edit_mode (u : tui) : tui := set_edit (push u SelectEdit) 0.

  (** problems_ui.rs:218-223 *)
  Definition details_key (u : tui) (w : world) : handled :=
    match shown_usages u w with [] => Failed u w [] | _ => enter_usage_mode u w end.

  Definition in_problem_mode (u : tui) (w : world) (k : key) : handled :=
    if is_arrow k then arrow w k (tu_problem u) (store_len (w_store w)) (set_problem u)   (* 194-200 *)
    else if is_char ["f"%char] k then                                                     (* 212-217 *)
      match edits u w with [] => Failed u w [] | _ => Handled (enter_edit_mode u) w [] end
    else if is_char ["d"%char] k then details_key u w
    else if is_char ["t"%char] k then Handled (push u ShowPackageTree) w []               (* 224-226 *)
    else if is_char ["a"%char] k && negb (tu_accept u)
    then Handled (push u PromptAutoAccept) w []                                           (* 268-270 *)
    else common_key u w k.

  Definition in_edit_mode (u : tui) (w : world) (k : key) : handled :=
    if is_arrow k then arrow w k (tu_edit u) (length (edits u w)) (set_edit u)            (* 201-204 *)
    else if is_char ["d"%char] k then details_key u w
    else if is_char [" "%char; "f"%char] k || bool_decide (k = KEnter) then               (* 252-259 *)
      match apply_selected u w with
      | Handled u' w' acts =>
          let u' := set_comment u' None (tu_previous u') in
          let u' := if Nat.leb (store_len (w_store w')) (tu_problem u') then set_problem u' 0 else u' in
          Handled (pop u') w' acts
      | r => r
      end
    else if is_char ["c"%char] k then                                                     (* 260-267 *)
      if supports_comments u w
      then Handled (push u (SetComment (input_of (default [] (tu_comment u))))) w []
      else Failed u w []
    else common_key u w k.

  Definition in_usage_mode (u : tui) (w : world) (k : key) : handled :=
    if is_arrow k then arrow w k (tu_usage u) (length (shown_usages u w)) (set_usage u)   (* 205-208 *)
    else if is_char ["d"%char] k then Handled (pop u) w []                                (* 230-233 *)
    else if is_char ["i"%char] k then Handled (push u ShowInternalDiagnostics) w []       (* 234-236 *)
    else if is_char ["f"%char] k then Handled (enter_edit_mode (pop u)) w []              (* 240-244 *)
    else if is_char ["b"%char] k then                                                     (* 245-248 *)
      let u := set_frame u 0 in
      match shown_usages u w !! tu_usage u with
      | None => Failed u w []
      | Some x => match backtrace x with
                  | None => Failed u w []
                  | Some f => Handled (push u (Backtrace f)) w []
                  end
      end
    else common_key u w k.

  Definition in_backtrace_mode (u : tui) (w : world) (f : list nat) (k : key) : handled :=
    if is_arrow k then arrow w k (tu_frame u) (length f) (set_frame u)                    (* 209-211 *)
    else if is_char ["b"%char; "d"%char] k then Handled (pop u) w []                      (* 249-251 *)
    else common_key u w k.

  Definition in_prompt_mode (u : tui) (w : world) (k : key) : handled :=
    if bool_decide (k = KEnter) then                                                      (* 271-275 *)
      match accept_all_single_edits (set_accept u) w with
      | Handled u' w' acts => Handled (pop u') w' acts
      | r => r
      end
    else common_key u w k.

  Definition in_comment_mode (u : tui) (w : world) (i : input) (k : key) : handled :=
    if bool_decide (k = KEsc) then Handled (pop u) w []                                   (* 156-158 *)
    else if is_arrow k then
      Handled (push (pop u) (SetComment (earlier_comment (tu_previous u) (bool_decide (k = KUp)) i))) w []
    else if bool_decide (k = KEnter) then Handled (confirm_comment u i) w []
    else Handled (push (pop u) (SetComment (type_key k i))) w [].                         (* 190-192 *)

  (** [handle_key] (problems_ui.rs:148-291). *)
  Definition handle_key (u : tui) (w : world) (k : key) : handled :=
    match tu_modes u with
    | [] => Handled u w []
    | SetComment i :: _ => in_comment_mode u w i k
    | m :: _ =>
        if is_char ["q"%char] k then Handled (set_modes u []) w []                        (* 193 *)
        else match m with
             | SelectProblem => in_problem_mode u w k
             | SelectEdit => in_edit_mode u w k
             | SelectUsage => in_usage_mode u w k
             | Backtrace f => in_backtrace_mode u w f k
             | PromptAutoAccept => in_prompt_mode u w k
             | ShowPackageTree => Handled (pop u) w []                                    (* 227-229 *)
             | ShowInternalDiagnostics =>                                                 (* 237-239 *)
                 if is_char ["i"%char] k then Handled (pop u) w [] else common_key u w k
             | Help | SetComment _ => common_key u w k
             end
    end.

  (** ** The threads *)

  (** Where the thread of the interface is: waiting for the first problems (full_term.rs:98-101), at the
      beginning of its loop (104-127), looking for an event (128-141), waiting for a key (142-160), or at
      the end. *)
  Inductive place := AtStart | AtTop | AtEvent | AtKey | AtEnd.

  (** [ts_events] is the number of [ProblemsAdded] in the queue; [Shutdown] comes after all of them. *)
  Record term := Term {
    ts_ui : tui; ts_world : world; ts_at : place; ts_redraw : bool; ts_error : bool;
    ts_events : nat; ts_shutdown : bool }.

  Definition term_init (file : text) (writable : bool) (c : config) : term :=
    Term tui_init (World store_init file writable c) AtStart true false 0 false.

  (** What happens: other threads submit problems (never none, problem_store.rs:44-46), reload the
      configuration, end the run; the file is changed by others; the interface goes on, where the result
      of waiting for a key is given: nothing, another event of the terminal, or a key. *)
  Inductive polled := PollNothing | PollOther | PollKey (k : key).
  Inductive step :=
  | TSubmit (client : nat) (ps : list problem)
  | TReload (c : config)
  | TFile (t : text) (writable : bool)
  | TShutdown
  | TGo (p : polled).

  Inductive stepped := Stepped (s : term) (acts : list act) | NotPossible | Crashed | Stuck.

  Definition with_ui (s : term) (u : tui) (w : world) (at' : place) (redraw error : bool) (events : nat)
      : term := Term u w at' redraw error events (ts_shutdown s).

  (** full_term.rs:104-127; [sleep] is left out, the store is locked meanwhile. *)
  Definition at_top (s : term) : stepped :=
    let '(w, acts) := match tu_modes (ts_ui s) with
                      | [] => let '(st, sent) := store_abort (w_store (ts_world s)) in
                              (set_store (ts_world s) st,
                               [StoppedCargo; Stored (StoreEvent SAbort [] sent)])
                      | _ => (ts_world s, [])
                      end in
    Stepped (with_ui s (ts_ui s) w AtEvent false (ts_error s) (ts_events s))
      (acts ++ if ts_redraw s then [Drew (draw (ts_ui s) w (ts_error s))] else []).

  (** full_term.rs:128-141 *)
  Definition at_event (s : term) : stepped :=
    match ts_events s with
    | S n =>
        match problems_added (ts_ui s) (ts_world s) with
        | Handled u w acts => Stepped (with_ui s u w AtTop true (ts_error s) n) acts
        | Failed u w acts => Stepped (with_ui s u w AtTop true true n) acts
        | Crash => Crashed
        | Hang => Stuck
        end
    | 0 =>
        if ts_shutdown s
        then Stepped (with_ui s (ts_ui s) (ts_world s) AtEnd (ts_redraw s) (ts_error s) 0) []
        else Stepped (with_ui s (ts_ui s) (ts_world s) AtKey (ts_redraw s) (ts_error s) 0) []
    end.

  (** full_term.rs:142-160 *)
  Definition at_key (s : term) (p : polled) : stepped :=
    let back u w redraw error acts := Stepped (with_ui s u w AtTop redraw error (ts_events s)) acts in
    match p with
    | PollNothing => back (ts_ui s) (ts_world s) (ts_redraw s) (ts_error s) []
    | PollOther => back (ts_ui s) (ts_world s) true (ts_error s) []
    | PollKey k =>
        if ts_error s then
          if is_char ["q"%char] k then
            let '(st, sent) := store_abort (w_store (ts_world s)) in
            back (ts_ui s) (set_store (ts_world s) st) true false [Stored (StoreEvent SAbort [] sent)]
          else back (ts_ui s) (ts_world s) true false []
        else
          match handle_key (ts_ui s) (ts_world s) k with
          | Handled u w acts => back u w true false acts
          | Failed u w acts => back u w true true acts
          | Crash => Crashed
          | Hang => Stuck
          end
    end.

  (** full_term.rs:85-164; what another thread does, or one part of the loop. *)
  Definition term_step (s : term) (a : step) : stepped :=
    match a with
    | TSubmit c [] => NotPossible
    | TSubmit c ps =>
        match store_step (w_store (ts_world s)) (SAdd c ps) with
        | Some (st, e) =>
            Stepped (Term (ts_ui s) (set_store (ts_world s) st) (ts_at s) (ts_redraw s) (ts_error s)
                       (S (ts_events s)) (ts_shutdown s)) [Stored e]
        | None => Crashed
        end
    | TReload c =>
        let w := ts_world s in
        Stepped (with_ui s (ts_ui s) (World (w_store w) (w_file w) (w_writable w) c) (ts_at s)
                   (ts_redraw s) (ts_error s) (ts_events s)) []
    | TFile t writable =>
        let w := ts_world s in
        Stepped (with_ui s (ts_ui s) (World (w_store w) t writable (w_config w)) (ts_at s)
                   (ts_redraw s) (ts_error s) (ts_events s)) []
    | TShutdown =>
        Stepped (Term (ts_ui s) (ts_world s) (ts_at s) (ts_redraw s) (ts_error s) (ts_events s) true) []
    | TGo p =>
        match ts_at s with
        | AtStart =>
            match ts_events s with
            | S n => Stepped (with_ui s (ts_ui s) (ts_world s) AtTop (ts_redraw s) (ts_error s) n) []
            | 0 => if ts_shutdown s
                   then Stepped (with_ui s (ts_ui s) (ts_world s) AtEnd (ts_redraw s) (ts_error s) 0) []
                   else NotPossible
            end
        | AtTop => at_top s
        | AtEvent => at_event s
        | AtKey => at_key s p
        | AtEnd => NotPossible
        end
    end.

  (** Runs in which every step is possible, with what each step did. *)
  Fixpoint term_run (s : term) (l : list step) : option (term * list (step * list act)) :=
    match l with
    | [] => Some (s, [])
    | a :: l' =>
        match term_step s a with
        | Stepped s' acts =>
            match term_run s' l' with
            | Some (s'', tr) => Some (s'', (a, acts) :: tr)
            | None => None
            end
        | _ => None
        end
    end.
End term.

Arguments World {o}.
Arguments w_store {o}.
Arguments w_file {o}.
Arguments w_writable {o}.
Arguments w_config {o}.
Arguments Screen {o}.
Arguments sc_rows {o}.
Arguments sc_index {o}.
Arguments sc_preview {o}.
Arguments sc_top {o}.
Arguments sc_error {o}.
Arguments PreviewError {o}.
Arguments PreviewDiff {o}.
Arguments Drew {o}.
Arguments Stored {o}.
Arguments Wrote {o}.
Arguments StoppedCargo {o}.
Arguments Handled {o}.
Arguments Failed {o}.
Arguments Crash {o}.
Arguments Hang {o}.
Arguments Term {o}.
Arguments ts_ui {o}.
Arguments ts_world {o}.
Arguments ts_at {o}.
Arguments ts_redraw {o}.
Arguments ts_error {o}.
Arguments ts_events {o}.
Arguments ts_shutdown {o}.
Arguments TSubmit {o}.
Arguments TReload {o}.
Arguments TFile {o}.
Arguments TShutdown {o}.
Arguments TGo {o}.
Arguments Stepped {o}.
Arguments NotPossible {o}.
Arguments Crashed {o}.
Arguments Stuck {o}.
