(** Linkers read further arguments from response files. *)
From Verif Require Import Base TextModel DepsModel.

(** How a linker reads its arguments: [@file] stands for the arguments in the file, here one per line and without
    quoting, if the file can be read (gcc, clang and the linkers themselves; not part of /repo). *)
Inductive expands (read : str -> option str) : list str -> list str -> Prop :=
| expands_nil : expands read [] []
| expands_file f text args more :
    read f = Some text -> expands read args more -> expands read (("@"%char :: f) :: args) (split_char nl text ++ more)
| expands_missing f args more :
    read f = None -> expands read args more -> expands read (("@"%char :: f) :: args) (("@"%char :: f) :: more)
| expands_plain a args more :
    head a <> Some "@"%char -> expands read args more -> expands read (a :: args) (a :: more).
