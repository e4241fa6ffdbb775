(** Shown command lines and passed-on output. *)
From Verif Require Import Base LaunchSpec WireModel.

(** ** What bash makes of a line *)

(** Bash runs these commands for the line. *)
Definition bash_runs (vars : str -> str) (line : str) (cmds : list (list str)) : Prop :=
  exists ts, lex (line ++ [line_end]) = Some ts /\
    Forall2 (fun ws cmd => expand vars [] ws = Some cmd) (commands ts []) cmds.

(** Letters, digits and some signs have no meaning of their own. *)
Definition meaningless (c : ascii) : Prop :=
  c ∈ lit "abcdefghijklmnopqrstuvwxyzABCDEFGHIJKLMNOPQRSTUVWXYZ0123456789-_./:=,+@%".

(** No dollar sign, backquote or exclamation mark, and nothing that cannot be printed. *)
Definition quotes_help (c : ascii) : Prop :=
  32 <= nat_of_ascii c /\ nat_of_ascii c <> 127 /\ c <> "$"%char /\ c <> "`"%char /\ c <> "!"%char.

Definition ordinary (arg : str) : Prop :=
  (forall c, c ∈ arg -> meaningless c) \/
  ((arg = [] \/ " "%char ∈ arg \/ double_quote ∈ arg) /\ forall c, c ∈ arg -> quotes_help c).

(** ** Output *)

(** What was printed to a channel, and what of it is on the terminal. *)
Definition printed (es : list output_event) (t : channel) : str :=
  concat (map (fun e => match e with Printed t' b => if decide (t' = t) then b else [] | _ => [] end) es).
Definition shown_of (pieces : list (channel * str)) (t : channel) : str :=
  concat (map (fun p : channel * str => if decide (p.1 = t) then p.2 else []) pieces).

(** Something that the threads do which pass on the output. *)
Definition passing (e : output_event) : Prop :=
  match e with ReadPipe _ _ | PassOn _ | SeeEnd _ => True | _ => False end.

(** The text is made of whole lines of the one and the other. *)
Inductive lines_of : str -> str -> str -> Prop :=
| lines_none : lines_of [] [] []
| lines_first l a b text : nl ∉ l -> lines_of a b text -> lines_of (l ++ [nl] ++ a) b (l ++ [nl] ++ text)
| lines_second l a b text : nl ∉ l -> lines_of a b text -> lines_of a (l ++ [nl] ++ b) (l ++ [nl] ++ text).
