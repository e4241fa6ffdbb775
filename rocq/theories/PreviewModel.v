(** The preview of a fix in the full-screen interface.
    Source: /repo/src/ui/full_term/problems_ui.rs:478-497, 732-755. *)
From Coq Require Import ZArith.
From Verif Require Import Base DiffModel.

(** [remove_excess_context] (diff.rs:60-126) with the number of lines as the function uses it, namely as a signed
    number (line 89). *)
Definition shorten (lines : list str) (max : Z) : list str :=
  let blocks := find_blocks 0 None lines in
  let blocks := reclaim (S (length lines)) (Z.of_nat (length lines) - max) blocks in
  rebuild 0 (filter (fun b => 0 < b_take b) blocks) lines.

(** Subtraction of two [usize], then taken as signed: with checks for overflow it panics ([None]); otherwise it wraps
    and wraps back. The numbers are far below 2^63. *)
Definition subtract (checks : bool) (a b : nat) : option Z :=
  if checks && Nat.ltb a b then None else Some (Z.of_nat a - Z.of_nat b)%Z.

(** [render_edit_help_and_diff], [config_diff_lines]: the lines that are shown in a pane of this height, borders
    included, for a fix that applies or fails with a text, where [diff] is what [diff_lines] returns; [None] is a panic.
    A file that cannot be parsed, for which only an error is shown, is left out. *)
Definition preview_lines (checks : bool) (height : nat) (help : str) (error : option str) (diff : list str)
    : option (list str) :=
  let max_lines := height - 4 in
  let lines := [help] ++ match error with Some e => [[]; e] | None => [] end ++
               (if bool_decide (diff = []) then [] else [[]; lit "=== Diff of cackle.toml ==="]) in
  match subtract checks max_lines (length lines) with
  | Some max => Some (lines ++ shorten diff max)
  | None => None
  end.
