(** What cargo makes of its arguments. *)
From Verif Require Import Base.

(** The words that cargo takes for its own come before its sub-command: here the first one. Cargo colours what it prints if it is told
    so; if it is told nothing, and no variable or setting says otherwise, it does if it prints to a terminal. *)
Definition told_always (words : list str) : Prop := head words = Some (lit "--color=always").
Definition told_never (words : list str) : Prop := head words = Some (lit "--color=never").
Definition cargo_colours (words : list str) (stderr_is_terminal : bool) : Prop :=
  told_always words \/ ~ told_never words /\ stderr_is_terminal = true.
