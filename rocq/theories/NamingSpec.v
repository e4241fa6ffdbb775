(** Names and tables as a reader understands them. *)
From Verif Require Import Base CollectModel NamingModel.

(** A part of a name without colons. *)
Definition colonless (p : str) : Prop := ":"%char ∉ p.

(** Parts with two colons in between. *)
Inductive path_text : list str -> str -> Prop :=
| path_one (p : str) : path_text [p] p
| path_more (p : str) (ps : list str) (t : str) : path_text ps t -> path_text (p :: ps) (p ++ ":"%char :: ":"%char :: t).

(** A table: each line starts with its key and a space, then there are only spaces up to the column where all the values start. *)
Definition table_of (column : nat) (d : str * str) (line : str) : Prop :=
  exists spaces, line = d.1 ++ spaces ++ d.2 /\ (forall c, c ∈ spaces -> c = " "%char) /\ spaces <> [] /\
    length (d.1 ++ spaces) = column.
