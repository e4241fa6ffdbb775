(** What boxes over the screen are to show. *)
From Coq Require Import NArith.
From Verif Require Import Base.

(** A line is broken into rows: between two rows nothing is lost but at most one space. *)
Inductive broken : str -> list str -> Prop :=
| broken_last (r : str) : broken r [r]
| broken_on (r rest : str) (rows : list str) : broken rest rows -> broken (r ++ rest) (r :: rows)
| broken_space (r rest : str) (rows : list str) : broken rest rows -> broken (r ++ " "%char :: rest) (r :: rows).

(** What is expected of breaking lines: rows fit, nothing is lost, and a line that fits is left alone. *)
Definition breaks_lines (wrap : nat -> str -> list str) : Prop :=
  forall (w : nat) (line : str), 0 < w ->
    broken line (wrap w line) /\ Forall (fun r => length r <= w) (wrap w line) /\
    (length line <= w -> wrap w line = [line]).

(** A box with these lines and a border has room on the screen. *)
Definition has_room (width height : nat) (lines : list str) : Prop :=
  length lines + 2 <= height /\ Forall (fun l : str => length l + 2 <= width) lines.

(** Sizes of a screen. *)
Definition screen (width height : nat) : Prop := 2 < width /\ (N.of_nat width < 65536)%N /\ 2 < height /\ (N.of_nat height < 65536)%N.
