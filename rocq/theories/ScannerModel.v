(** Looking for [unsafe] and [extern] in source files.
    Source: /repo/src/unsafe_checker.rs, /repo/src/extern_checker.rs.
    The two files share all code but [check_tokens] and the word looked for at the end of
    the file, which are parameters here. *)
From Verif Require Import Base TextModel.

(** A token of the lexer [ra_ap_rustc_lexer], which is not modelled: whether it is a comment
    or white space ([skip_condition], unsafe_checker.rs:28-37) and its length. *)
Record lexed := Lexed { lx_skip : bool; lx_len : nat }.

(** [next_token] (unsafe_checker.rs:102-120, extern_checker.rs:102-120). *)
Fixpoint next_token (iter : list lexed) (skipped : nat) : option lexed * nat * list lexed :=
  match iter with
  | [] => (None, skipped, [])
  | t :: iter => if lx_skip t then next_token iter (skipped + lx_len t) else (Some t, skipped, iter)
  end.

(** [&source[a..b]]; [None] is the panic. *)
Definition slice (source : str) (a b : nat) : option str :=
  if Nat.leb a b && boundary source a && boundary source b then Some (take (b - a) (drop a source))
  else None.

(** A line and a column ([SourceLocation] without the file name). *)
Definition location : Type := nat * nat.

(** [add_location] (unsafe_checker.rs:122-136, extern_checker.rs:122-136). [None] is a panic:
    the slice, or the subtraction. The conversions to 32 bits lose nothing in files under
    four gigabytes, as the lexer assumes. *)
Definition add_location (source : str) (locations : list location) (token_end token_len : nat)
    : option (list location) :=
  match slice_to source token_end with
  | None => None
  | Some text =>
      let lines := str_lines text in
      let line := Nat.max 1 (length lines) in
      match last lines with
      | Some l =>
          if Nat.leb token_len (length l)
          then Some (locations ++ [(line, length l - token_len + 1)])
          else None
      | None => Some (locations ++ [(line, 1)])
      end
  end.

(** [check_tokens] (unsafe_checker.rs:98-100) and (extern_checker.rs:98-100). *)
Definition unsafe_tokens (first second : str) : bool :=
  str_eqb first (lit "unsafe") && negb (str_eqb second (lit "extern")).
Definition extern_tokens (first second : str) : bool :=
  str_eqb first (lit "extern") && negb (mem_str second [lit "crate"; lit "]"; lit ")"]).

(** The loop of [scan_string] (unsafe_checker.rs:24-96, extern_checker.rs:24-96); [n] bounds
    the number of rounds. *)
Fixpoint scan_loop (word : str) (check : str -> str -> bool) (source : str) (n : nat)
    (iter : list lexed) (start : nat) (prev : str) (prev_end prev_len : nat)
    (locations : list location) : option (list location) :=
  match n with
  | 0 => Some locations
  | S n =>
      match next_token iter 0 with
      | (None, _, _) => Some locations
      | (Some token, skipped, iter) =>
          let len := lx_len token in
          let start := start + skipped in
          let end_ := start + len in
          match slice source start end_ with
          | None => None
          | Some text =>
              let checked :=
                match prev with
                | [] => Some locations
                | _ => if check prev text then add_location source locations prev_end prev_len
                       else Some locations
                end in
              match checked with
              | None => None
              | Some locations =>
                  match next_token iter 0 with
                  | (Some next, skipped, iter) =>
                      let start := start + len + skipped in
                      let next_len := lx_len next in
                      let next_end := start + next_len in
                      match slice source start next_end with
                      | None => None
                      | Some next_text =>
                          match (if check text next_text then add_location source locations end_ len
                                 else Some locations) with
                          | None => None
                          | Some locations =>
                              scan_loop word check source n iter next_end next_text next_end
                                next_len locations
                          end
                      end
                  | (None, _, iter) =>
                      match (if str_eqb text word then add_location source locations end_ len
                             else Some locations) with
                      | None => None
                      | Some locations =>
                          scan_loop word check source n iter end_ text end_ len locations
                      end
                  end
              end
          end
      end
  end.

Definition scan_string (word : str) (check : str -> str -> bool) (source : str)
    (tokens : list lexed) : option (list location) :=
  scan_loop word check source (S (length tokens)) tokens 0 [] 0 0 [].

(** [scan_path] (unsafe_checker.rs:13-22, extern_checker.rs:13-22), given the bytes of the
    file and the lexer. *)
Definition scan_bytes (word : str) (check : str -> str -> bool) (lexer : str -> list lexed)
    (bytes : str) : option (list location) :=
  if utf8_valid bytes then scan_string word check bytes (lexer bytes) else Some [].

Definition scan_unsafe := scan_bytes (lit "unsafe") unsafe_tokens.
Definition scan_extern := scan_bytes (lit "extern") extern_tokens.
