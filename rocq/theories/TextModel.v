(** UTF-8 text: validity, character boundaries, slicing and lines, as in the Rust
    standard library (not part of /repo; used by code cited where it is used). *)
From Verif Require Import Base.

Definition between (lo hi : N) (c : ascii) : bool :=
  N.leb lo (N_of_ascii c) && N.leb (N_of_ascii c) hi.

Definition is_ascii (c : ascii) : bool := N.ltb (N_of_ascii c) 128.
Definition is_cont (c : ascii) : bool := between 128 191 c.

(** The second byte of a sequence of three or four bytes that starts with [a]. *)
Definition second_ok (a b : ascii) : bool :=
  let n := N_of_ascii a in
  if N.eqb n 224 then between 160 191 b
  else if N.eqb n 237 then between 128 159 b
  else if N.eqb n 240 then between 144 191 b
  else if N.eqb n 244 then between 128 143 b
  else is_cont b.

(** [str::from_utf8] succeeds. *)
Fixpoint utf8_valid (s : str) : bool :=
  match s with
  | [] => true
  | a :: s1 =>
      if is_ascii a then utf8_valid s1 else
      match s1 with
      | [] => false
      | b :: s2 =>
          if between 194 223 a then is_cont b && utf8_valid s2 else
          match s2 with
          | [] => false
          | c :: s3 =>
              if between 224 239 a then second_ok a b && is_cont c && utf8_valid s3 else
              match s3 with
              | [] => false
              | d :: s4 =>
                  between 240 244 a && second_ok a b && is_cont c && is_cont d && utf8_valid s4
              end
          end
      end
  end.

(** [str::is_char_boundary]. *)
Definition boundary (s : str) (n : nat) : bool :=
  if Nat.eqb n 0 then true
  else match s !! n with
       | Some c => negb (is_cont c)
       | None => Nat.eqb n (length s)
       end.

(** [&s[..n]], [&s[n..]], [s.split_at(n)]; [None] is the panic. *)
Definition slice_to (s : str) (n : nat) : option str :=
  if boundary s n then Some (take n s) else None.
Definition slice_from (s : str) (n : nat) : option str :=
  if boundary s n then Some (drop n s) else None.

(** [str::strip_suffix(char)] for an ASCII character. *)
Definition strip_suffix_char (c : ascii) (s : str) : option str :=
  match last s with
  | Some d => if Ascii.eqb d c then Some (removelast s) else None
  | None => None
  end.

Definition cr : ascii := ascii_of_nat 13.

(** [str::lines]: split after each line feed, which is removed together with one
    carriage return before it; an empty piece at the end is not a line. *)
Fixpoint str_lines (s : str) : list str :=
  match s with
  | [] => []
  | a :: s' =>
      if Ascii.eqb a nl then [] :: str_lines s'
      else match s' with
           | b :: s'' =>
               if Ascii.eqb a cr && Ascii.eqb b nl then [] :: str_lines s''
               else match str_lines s' with
                    | [] => [[a]]
                    | l :: ls => (a :: l) :: ls
                    end
           | [] => [[a]]
           end
  end.
