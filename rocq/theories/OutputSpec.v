(** What is expected of the output of cargo. *)
From Verif Require Import Base WireModel.

(** The part of a text that goes to a channel. *)
Fixpoint text_on (t : channel) (l : list (channel * ascii)) : str :=
  match l with
  | [] => []
  | (t', c) :: l => if decide (t' = t) then c :: text_on t l else text_on t l
  end.

(** Of pieces written to the terminal. *)
Fixpoint pieces_on (t : channel) (l : list (channel * str)) : str :=
  match l with
  | [] => []
  | (t', s) :: l => if decide (t' = t) then s ++ pieces_on t l else pieces_on t l
  end.
