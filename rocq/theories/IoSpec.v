(** Messages and files. *)
From Coq Require Import NArith.
From Verif Require Import Base TextSpec TextModel DepsModel IoModel.

(** ** Messages *)

(** A way to write values as text from which they can be read again. Texts are shorter than the
    address space. *)
Definition codec {V} (to_string : V -> str) (from_str : str -> option V) : Prop :=
  forall v, from_str (to_string v) = Some v /\ is_utf8 (to_string v) /\
    (N.of_nat (length (to_string v)) < 2 ^ 64)%N.

(** Reading one value after the other. *)
Inductive reads {V} (from_str : str -> option V) : str -> list V -> str -> Prop :=
| reads_nothing s : reads from_str s [] s
| reads_one s v s1 vs s2 :
    read_from_stream from_str s = Some (v, s1) -> reads from_str s1 vs s2 -> reads from_str s (v :: vs) s2.

(** ** Files *)

(** No file has two names, and each name leads to a file. *)
Definition tidy (f : fs) : Prop :=
  (forall p q i, fs_names f !! p = Some i -> fs_names f !! q = Some i -> p = q) /\
  (forall p i, fs_names f !! p = Some i -> is_Some (fs_data f !! i)).

(** The temporary name for a path: the part after the last dot of the last component, if that
    has a dot after its first character, is replaced, or else added. *)
Inductive temporary : str -> str -> Prop :=
| temporary_replaced dir stem ext :
    (dir = [] \/ exists d, dir = d ++ lit "/") ->
    stem <> [] -> "/"%char ∉ stem -> "/"%char ∉ ext -> "."%char ∉ ext -> stem ++ lit "." ++ ext <> lit ".." ->
    temporary (dir ++ stem ++ lit "." ++ ext) (dir ++ stem ++ lit ".tmp")
| temporary_added dir name :
    (dir = [] \/ exists d, dir = d ++ lit "/") ->
    name <> [] -> "/"%char ∉ name -> name <> lit "." -> (forall a b, a <> [] -> name <> a ++ lit "." ++ b) ->
    temporary (dir ++ name) (dir ++ name ++ lit ".tmp").

(** The jobs have temporary names, different from each other and from all destinations. *)
Definition separate (jobs : list (str * list str)) : Prop :=
  exists tmps, Forall2 (fun j tmp => temporary j.1 tmp) jobs tmps /\ NoDup tmps /\
    forall tmp j, tmp ∈ tmps -> j ∈ jobs -> tmp <> j.1.

(** The path is not the temporary name of a job. *)
Definition not_temporary (jobs : list (str * list str)) (path : str) : Prop :=
  forall j, j ∈ jobs -> ~ temporary j.1 path.

(** The job with this number has been done. *)
Definition finished (ws : list writer) (n : nat) : Prop :=
  exists w, ws !! n = Some w /\ w_progress w = Finished.
