(** The help of the full-screen interface: /repo/src/ui/full_term/problems_ui.rs:103-144, 809-871. *)
From Verif Require Import Base TermModel.

(** The rows of [render_help] (problems_ui.rs:809-854): names of keys, and what they are said to do. Titles,
    widths and heights are left out. *)
Definition help_rows (m : option mode) : list (str * str) :=
  match m with
  | Some SelectProblem =>
      [(lit "f", lit "Show available automatic fixes for this problem");
       (lit "d", lit "Select and show details of each usage (API/unsafe/extern only)");
       (lit "t", lit "Show tree of crate dependencies to this crate");
       (lit "up", lit "Select previous problem");
       (lit "down", lit "Select next problem");
       (lit "a", lit "Enable auto-apply for problems with only one edit")]
  | Some SelectEdit =>
      [(lit "space/enter/f", lit "Apply this edit");
       (lit "d", lit "Jump to usage details (API/unsafe/extern only)");
       (lit "c", lit "Add comment to edit (supported edits only)");
       (lit "up", lit "Select previous edit");
       (lit "down", lit "Select next edit");
       (lit "esc", lit "Return to problem list")]
  | Some SelectUsage =>
      [(lit "up", lit "Select previous usage");
       (lit "down", lit "Select next usage");
       (lit "b", lit "Show backtrace for this usage (API only)");
       (lit "f", lit "Jump to edits for the current problem");
       (lit "d/esc", lit "Return to problem list");
       (lit "i", lit "Show internal diagnostics (requires --debug)")]
  | _ => []
  end ++
  [(lit "p", lit "Toggle display of package details");
   (lit "q", lit "Quit");
   (lit "h/?", lit "Show mode-specific help")].

(** The help that is on top of the screen, if it is: that of the mode below (problems_ui.rs:104, 142-144). *)
Definition help_shown (u : tui) : option (list (str * str)) :=
  match tu_modes u with
  | Help :: ms => Some (help_rows (head ms))
  | _ => None
  end.
