(** What a displayed diff should show. *)
From Verif Require Import Base DiffModel.

(** The elements of a list that satisfy a condition on what comes before (the nearest first), the element,
    and what comes after. *)
Fixpoint select {A} (P : list A -> A -> list A -> bool) (before : list A) (l : list A) : list A :=
  match l with
  | [] => []
  | x :: l' => (if P before x l' then [x] else []) ++ select P (x :: before) l'
  end.

Definition is_change (d : diff_line) : bool := match d with DBoth _ => false | _ => true end.

(** How a line is displayed: a sign, namely a minus for a removed line, a plus for an added one and a space for
    one that stays, and its text. *)
Definition sign (d : diff_line) : ascii :=
  match d with DBoth _ => " "%char | DLeft _ => "-"%char | DRight _ => "+"%char end.
Definition text (d : diff_line) : str := match d with DBoth s | DLeft s | DRight s => s end.
Definition displayed (d : diff_line) : str := sign d :: text d.

(** The line with which a section of a configuration file starts. *)
Definition is_header (d : diff_line) : bool :=
  match d with DBoth s => match s with c :: _ => Ascii.eqb c "["%char | [] => false end | _ => false end.

(** A change is reached before a header is. *)
Fixpoint change_near (l : list diff_line) : bool :=
  match l with
  | [] => false
  | d :: l' => is_change d || negb (is_header d) && change_near l'
  end.

(** What the full-screen interface shows: the changes, what follows a change in its section, and what
    precedes a change in its section, with its header unless the section before has changes, too. *)
Definition in_section (before : list diff_line) (d : diff_line) (after : list diff_line) : bool :=
  is_change d || negb (is_header d) && change_near before ||
  change_near after && negb (is_header d && change_near before).

(** What the basic interface shows: the changes and the two lines before and after each. *)
Definition within_two (before : list diff_line) (d : diff_line) (after : list diff_line) : bool :=
  is_change d || existsb is_change (take 2 before) || existsb is_change (take 2 after).

(** Shortening: runs of context lines may be left out; they are replaced by dots unless they are at the
    end. *)
Definition context_line (s : str) : Prop := exists s', s = " "%char :: s'.

Inductive shortened : list str -> list str -> Prop :=
| sh_nil : shortened [] []
| sh_keep line l l' : shortened l l' -> shortened (line :: l) (line :: l')
| sh_end run : Forall context_line run -> shortened run []
| sh_cut run line l l' :
    run <> [] -> Forall context_line run -> shortened (line :: l) l' ->
    shortened (run ++ line :: l) (lit "..." :: l').
