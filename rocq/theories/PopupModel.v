(** The boxes that the full-screen interface puts over the others.
    Sources: /repo/src/ui/full_term.rs:206-227, /repo/src/ui/full_term/problems_ui.rs:690-699, 855-911.
    Texts are ASCII, so that lengths in bytes (problems_ui.rs:890, 857) are widths. *)
From Coq Require Import NArith.
From Verif Require Import Base TermModel KeysModel.

(** [as u16] *)
Definition as_u16 (n : nat) : nat := N.to_nat (N.modulo (N.of_nat n) 65536).

(** [centre] (full_term.rs:219-227) and the second of the parts it makes: where it begins, and its size. *)
Definition centre (target available : nat) : nat * nat :=
  let actual := Nat.min target available in (Nat.div (available - actual) 2, actual).

(** The longest of some texts (problems_ui.rs:857, 888-892). *)
Definition longest (l : list str) : nat := foldr Nat.max 0 (map length l).

Section popup.
  (** How [Paragraph] breaks a line for a width (ratatui, [Wrap { trim: false }]). *)
  Context (wrap : nat -> str -> list str).

  (** [render_message] (problems_ui.rs:887-911): the rows inside the borders, on a screen of a width and a height. *)
  Definition message_rows (screen_width screen_height : nat) (lines : list str) : list str :=
    let width := longest lines + 2 in
    let height := length lines + 2 in
    let w := (centre (Nat.max (as_u16 width) 20) screen_width).2 in
    let h := (centre (Nat.max (as_u16 height) 5) screen_height).2 in
    firstn (h - 2) (concat (map (wrap (w - 2)) lines)).
End popup.

(** [render_auto_accept] (problems_ui.rs:873-885) *)
Definition accept_lines : list str :=
  [lit "Auto-accept edits for all problems that only have a single edit?";
   [];
   lit "It's recommended that you look over the resulting cackle.toml afterwards to see if there are any crates with permissions that you don't think they should have.";
   [];
   lit "Press enter to accept, or escape to cancel."].

(** The table of [render_help] (problems_ui.rs:855-871): a column of five characters for the keys, a space, and a
    column with the rest. What does not fit into a column is cut off. *)
Definition help_screen (screen_width screen_height : nat) (m : option mode) : list (str * str) :=
  let rows := help_rows m in
  let width := longest (map snd rows) + 5 + 3 in
  let height := length rows + 2 in
  let w := (centre (as_u16 width) screen_width).2 - 2 in
  let h := (centre (as_u16 height) screen_height).2 - 2 in
  map (fun r : str * str => (firstn (Nat.min 5 w) r.1, firstn (w - 6) r.2)) (firstn h rows).

(** [render_comment_input] (problems_ui.rs:690-699): the column where the text begins, the text that is shown, and the
    column of the cursor. The text is neither broken nor moved. *)
Definition comment_box (screen_width : nat) (i : input) : nat * str * nat :=
  let '(x, w) := centre 80 screen_width in
  (x + 1, firstn (w - 2) (in_value i), x + 1 + as_u16 (in_cursor i)).
