(** What the scanners should report. *)
From Verif Require Import Base TextSpec TextModel ScannerModel.

(** A source file as a sequence of pieces: comments and white space, or tokens. *)
Inductive source_piece := Blank (s : str) | Token (s : str).

Definition piece_str (p : source_piece) : str := match p with Blank s => s | Token s => s end.
Definition source_text (ps : list source_piece) : str := concat (map piece_str ps).

(** What the lexer says about such a file. *)
Definition lexed_piece (p : source_piece) : lexed :=
  match p with Blank s => Lexed true (length s) | Token s => Lexed false (length s) end.

(** The pieces are not empty, and each is text. *)
Definition well_lexed (ps : list source_piece) : Prop :=
  Forall (fun p => piece_str p <> [] /\ is_utf8 (piece_str p)) ps.

(** The token after this place is [t]. *)
Inductive next_is (t : str) : list source_piece -> Prop :=
| next_here ps : next_is t (Token t :: ps)
| next_blank s ps : next_is t ps -> next_is t (Blank s :: ps).

(** Only comments and white space. *)
Definition no_token (ps : list source_piece) : Prop := Forall (fun p => exists s, p = Blank s) ps.

(** The place after a text: lines are ended by line feeds, columns are counted in bytes. *)
Definition line_after (before : str) : nat := 1 + length (filter (fun c => c = nl) before).
Definition column_after (before : str) (col : nat) : Prop :=
  exists x l, before = x ++ l /\ nl ∉ l /\ (x = [] \/ exists x', x = x' ++ [nl]) /\ col = 1 + length l.

(** A token, what stands before it, what after it. *)
Definition occurs (ps : list source_piece) (before : list source_piece) (t : str)
    (after : list source_piece) : Prop :=
  ps = before ++ Token t :: after.

(** [unsafe] needs permission unless it belongs to [extern]; [extern] unless it belongs to
    [extern crate] or is the end of something in brackets. *)
Definition unsafe_use (t : str) (after : list source_piece) : Prop :=
  t = lit "unsafe" /\ ~ next_is (lit "extern") after.
Definition extern_use (t : str) (after : list source_piece) : Prop :=
  t = lit "extern" /\ ~ next_is (lit "crate") after /\ ~ next_is (lit "]") after /\
  ~ next_is (lit ")") after.

(** The places of all uses, in order. *)
Inductive places (use : str -> list source_piece -> Prop) :
    list source_piece -> list source_piece -> list location -> Prop :=
| places_end before : places use before [] []
| places_use before t after line col ls :
    use t after -> line = line_after (source_text before) -> column_after (source_text before) col ->
    places use (before ++ [Token t]) after ls ->
    places use before (Token t :: after) ((line, col) :: ls)
| places_no before p after ls :
    (forall t, p = Token t -> ~ use t after) ->
    places use (before ++ [p]) after ls -> places use before (p :: after) ls.

(** The number of tokens. *)
Inductive token_count : list source_piece -> nat -> Prop :=
| count_none : token_count [] 0
| count_blank s ps n : token_count ps n -> token_count (Blank s :: ps) n
| count_token s ps n : token_count ps n -> token_count (Token s :: ps) (S n).

(** The last token of the file is [word], and the number of tokens is even. *)
Definition missed_end (word : str) (ps : list source_piece) : Prop :=
  exists before after n, ps = before ++ Token word :: after /\ no_token after /\
    token_count ps n /\ Nat.Even n.
