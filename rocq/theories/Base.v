(** Strings as byte lists and the few Rust [str] operations used everywhere.
    Rust [&str], [String], [Path], [OsStr] are all represented by the list of
    their (UTF-8) bytes. *)
From Coq Require Export Ascii String.
From stdpp Require Export prelude list strings gmap sorting.
Global Open Scope string_scope.
Global Open Scope list_scope.

Notation str := (list ascii).

(** A string literal. *)
Definition lit (x : string) : str := list_ascii_of_string x.

Definition ch (n : nat) : ascii := ascii_of_nat n.

Definition nl : ascii := ascii_of_nat 10.

(** [str::starts_with] with a string pattern. *)
Fixpoint starts_with (p s : str) : bool :=
  match p, s with
  | [], _ => true
  | a :: p', b :: s' => if Ascii.eqb a b then starts_with p' s' else false
  | _ :: _, [] => false
  end.

(** [str::strip_prefix]. *)
Fixpoint strip_prefix (p s : str) : option str :=
  match p, s with
  | [], _ => Some s
  | a :: p', b :: s' => if Ascii.eqb a b then strip_prefix p' s' else None
  | _ :: _, [] => None
  end.

(** [str::split(char)]: always at least one piece. *)
Fixpoint split_char (c : ascii) (s : str) : list str :=
  match s with
  | [] => [[]]
  | a :: s' =>
      if Ascii.eqb a c then [] :: split_char c s'
      else match split_char c s' with
           | p :: ps => (a :: p) :: ps
           | [] => [[a]]
           end
  end.

(** [slice::join]. *)
Fixpoint join (sep : str) (l : list str) : str :=
  match l with
  | [] => []
  | [x] => x
  | x :: l' => x ++ sep ++ join sep l'
  end.

(** [str::split_once(char)]. *)
Fixpoint split_once (c : ascii) (s : str) : option (str * str) :=
  match s with
  | [] => None
  | a :: s' =>
      if Ascii.eqb a c then Some ([], s')
      else match split_once c s' with
           | Some (x, y) => Some (a :: x, y)
           | None => None
           end
  end.

(** Whether a byte occurs in the string. *)
Fixpoint has_char (c : ascii) (s : str) : bool :=
  match s with
  | [] => false
  | a :: s' => if Ascii.eqb a c then true else has_char c s'
  end.

Definition str_eqb (a b : str) : bool := bool_decide (a = b).

Definition mem_str (x : str) (l : list str) : bool := bool_decide (x ∈ l).
