(** Displaying the effect of a fix: /repo/src/ui/full_term/problems_ui/diff.rs and
    /repo/src/ui/basic_term.rs:260-295. *)
From Verif Require Import Base.

(** What [diff::lines] returns: an edit script. The two lines of [diff::Result::Both] are equal. *)
Inductive diff_line :=
| DBoth (s : str)
| DLeft (s : str)
| DRight (s : str).

(** How a line of the script is displayed, without the colours (diff.rs:24, 36, 46; basic_term.rs:263,
    275, 285, 290). *)
Definition render (d : diff_line) : str :=
  match d with
  | DBoth s => " "%char :: s
  | DLeft s => "-"%char :: s
  | DRight s => "+"%char :: s
  end.

(** diff.rs:10-12 *)
Definition is_section_start (s : str) : bool := starts_with (lit "[") s.

(** The loop of [diff_lines] (diff.rs:18-54) with its three variables; the lines are added to the end of
    [lines]. *)
Fixpoint diff_loop (script : list diff_line) (lines : list str) (common : list str) (after_context : bool)
    : list str :=
  match script with
  | [] => lines
  | DBoth s :: rest =>
      if after_context then
        if is_section_start s then diff_loop rest lines common false
        else diff_loop rest (lines ++ [render (DBoth s)]) common true
      else
        let common := if is_section_start s then [] else common in
        diff_loop rest lines (common ++ [s]) false
  | d :: rest =>
      diff_loop rest (lines ++ map (fun s => render (DBoth s)) common ++ [render d]) [] true
  end.

(** [diff_lines] (diff.rs:9-57). *)
Definition diff_lines (script : list diff_line) : list str := diff_loop script [] [] false.

(** The loop of [show_diff] (basic_term.rs:268-294). *)
Definition CONTEXT : nat := 2.
Fixpoint show_loop (script : list diff_line) (common : list str) (after_context : nat) : list str :=
  match script with
  | [] => []
  | DBoth s :: rest =>
      match after_context with
      | S n => render (DBoth s) :: show_loop rest common n
      | 0 =>
          let common := common ++ [s] in
          show_loop rest (if Nat.ltb CONTEXT (length common) then tail common else common) 0
      end
  | d :: rest => map (fun s => render (DBoth s)) common ++ render d :: show_loop rest [] CONTEXT
  end.
Definition show_diff (script : list diff_line) : list str := show_loop script [] 0.

(** ** remove_excess_context (diff.rs:60-126) *)

(** diff.rs:61-65 *)
Record block := Block { b_start : nat; b_length : nat; b_take : nat }.

(** diff.rs:70-74. A line is one span here. *)
Definition is_context (line : str) : bool := starts_with (lit " ") line.

(** diff.rs:67-86 *)
Fixpoint find_blocks (offset : nat) (current : option block) (lines : list str) : list block :=
  match lines with
  | [] => match current with Some b => [b] | None => [] end
  | line :: rest =>
      if is_context line then
        let b := match current with Some b => b | None => Block offset 0 0 end in
        find_blocks (S offset) (Some (Block (b_start b) (S (b_length b)) (b_take b))) rest
      else match current with
           | Some b => b :: find_blocks (S offset) None rest
           | None => find_blocks (S offset) None rest
           end
  end.

(** [Iterator::max_by_key]: the position of the last maximum, with its key. *)
Fixpoint max_by_key {A} (key : A -> nat) (l : list A) : option (nat * nat) :=
  match l with
  | [] => None
  | x :: l' =>
      match max_by_key key l' with
      | Some (i, k) => if Nat.leb (key x) k then Some (S i, k) else Some (0, key x)
      | None => Some (0, key x)
      end
  end.

(** The loop of diff.rs:89-104. The number of iterations is bounded by the number of context lines; if
    the fuel is used up the blocks are returned as they are. *)
Fixpoint reclaim (fuel : nat) (to_reclaim : Z) (blocks : list block) : list block :=
  match fuel with
  | 0 => blocks
  | S fuel =>
      if Z.ltb 0 to_reclaim then
        match max_by_key (fun b => b_length b - b_take b) blocks with
        | Some (i, S _) =>
            match blocks !! i with
            | Some b =>
                let to_reclaim := if Nat.ltb 0 (b_take b) then (to_reclaim - 1)%Z else to_reclaim in
                reclaim fuel to_reclaim (<[i := Block (b_start b) (b_length b) (S (b_take b))]> blocks)
            | None => blocks
            end
        | _ => blocks
        end
      else blocks
  end.

Definition dots : str := lit "...".

(** The loop of diff.rs:109-125; the blocks are those from [block_index] on. *)
Fixpoint rebuild (offset : nat) (blocks : list block) (lines : list str) : list str :=
  match lines with
  | [] => []
  | line :: rest =>
      match blocks with
      | [] => line :: rebuild (S offset) [] rest
      | b :: blocks' =>
          let skip_start := b_start b + (b_length b - b_take b) / 2 in
          let skip_end := skip_start + b_take b in
          if Nat.ltb offset skip_start then line :: rebuild (S offset) blocks rest
          else if Nat.leb skip_end offset then dots :: line :: rebuild (S offset) blocks' rest
          else rebuild (S offset) blocks rest
      end
  end.

Definition remove_excess_context (lines : list str) (max_lines : nat) : list str :=
  let blocks := find_blocks 0 None lines in
  let blocks := reclaim (S (length lines)) (Z.of_nat (length lines) - Z.of_nat max_lines) blocks in
  rebuild 0 (filter (fun b => 0 < b_take b) blocks) lines.
