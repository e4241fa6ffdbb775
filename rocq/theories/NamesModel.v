(** Finding the names in a symbol or debug name.
    Source: /repo/src/names.rs, /repo/src/symbol.rs. *)
From Verif Require Import Base TextModel DemangleModel.

(** [NameToken] (names.rs:221-225). *)
Inductive name_token :=
| NPart (s : str)
| NEnd
| NError (esc : str).

(** [NamesIteratorState] (names.rs:359-374). A position of the underlying iterator is the
    list of tokens that it will still yield. *)
Inductive names_state :=
| NInactive
| NOutput
| NPrefix
| NSkip (gt_depth : Z) (return_point : list dtoken).

(** [NamesIteratorPos] (names.rs:111-117). The address of a text is the number of tokens
    after it. *)
Record names_pos := NamesPos {
  np_rest : list dtoken;
  np_state : names_state;
  np_depth : Z;
  np_final : option (str * nat);
  np_ended : bool
}.

(** [str::parse::<i64>] succeeds. *)
Definition parses_i64 (s : str) : bool :=
  let digits (limit : N) (ds : str) : bool :=
    match ds with
    | [] => false
    | _ => forallb is_digit ds &&
           N.leb (fold_left (fun v d => v * 10 + digit_value d)%N ds 0%N) limit
    end in
  match s with
  | c :: ds =>
      if Ascii.eqb c "-"%char then digits 9223372036854775808%N ds
      else if Ascii.eqb c "+"%char then digits 9223372036854775807%N ds
      else digits 9223372036854775807%N s
  | [] => false
  end.

Definition is_hexdigit (c : ascii) : bool := is_digit c || between 97 102 c || between 65 70 c.

(** The text looks like a hash (names.rs:263-265). *)
Definition is_hash (s : str) : bool :=
  Nat.eqb (length s) 17 &&
  match s with c :: r => Ascii.eqb c "h"%char && forallb is_hexdigit r | [] => false end.

(** The effect of a character on the number of open braces (names.rs:289-290) and, while
    skipping, on the number of open angle brackets (291-300). *)
Definition brace_change (ch : N) : Z := if N.eqb ch 123 then 1 else if N.eqb ch 125 then -1 else 0.
Definition angle_change (ch : N) : Z := if N.eqb ch 60 then 1 else if N.eqb ch 62 then -1 else 0.

(** [NamesIteratorPos::next] (names.rs:232-339). The counters do not overflow. *)
Fixpoint names_next (rest : list dtoken) (st : names_state) (depth : Z)
    (final : option (str * nat)) : option name_token * names_pos :=
  match rest with
  | [] =>
      match st with
      | NOutput => (Some NEnd, NamesPos [] NInactive depth final false)
      | _ => (None, NamesPos [] st depth final true)
      end
  | TText text :: rest1 =>
      if str_eqb text (lit "mut") then names_next rest1 st depth final
      else if Z.ltb 0 depth then names_next rest1 st depth final
      else if parses_i64 text then names_next rest1 st depth final
      else
        let ordinary :=
          if match final with
             | Some (t, at_) => str_eqb t text && Nat.eqb at_ (length rest1)
             | None => false
             end
          then names_next rest1 st depth final
          else if is_hash text && match rest1 with [] => true | _ => false end
          then names_next rest1 st depth final
          else match st with
               | NInactive => (Some (NPart text), NamesPos rest1 NOutput depth final false)
               | NSkip _ _ => names_next rest1 st depth final
               | _ => (Some (NPart text), NamesPos rest1 st depth final false)
               end in
        if str_eqb text (lit "as") then
          match rest1 with
          | TChar ch :: rest2 =>
              if N.eqb ch 32 then names_next rest2 NPrefix depth final else ordinary
          | _ => ordinary
          end
        else ordinary
  | TChar ch :: rest1 =>
      let st := match st with NPrefix => NSkip 1 rest1 | _ => st end in
      let depth := (depth + brace_change ch)%Z in
      let st := match st with
                | NSkip gt rp => NSkip (gt + angle_change ch)%Z rp
                | _ => st
                end in
      match st with
      | NOutput => (Some NEnd, NamesPos rest1 NInactive depth final false)
      | NSkip gt rp =>
          if Z.eqb gt 0 then
            match rest1 with
            | TText text :: rest2 =>
                (Some (NPart text), NamesPos rp NOutput depth (Some (text, length rest2)) false)
            | _ => (Some NEnd, NamesPos rp NInactive depth None false)
            end
          else names_next rest1 st depth final
      | _ => names_next rest1 st depth final
      end
  | TEscape esc :: rest1 => (Some (NError esc), NamesPos rest1 st depth final false)
  end.

Definition pos_next (p : names_pos) : option name_token * names_pos :=
  names_next (np_rest p) (np_state p) (np_depth p) (np_final p).

(** [NamesIterator::new] (names.rs:120-131). *)
Definition names_new (tokens : list dtoken) : names_pos := NamesPos tokens NInactive 0 None false.

(** What [next_name] and the iterator over the parts of a name hand out (names.rs:138-219),
    collected by a caller that reads everything: finished names, then the parts of the
    last, unfinished name (mostly none), and whether the end was an error. At most [n]
    calls of [next]. *)
Inductive found :=
| Found (names : list (list str)) (unfinished : list str) (error : option str)
| OutOfCalls.

Fixpoint find_names (n : nat) (p : names_pos) : found :=
  match n with
  | 0 => OutOfCalls
  | S n =>
      match pos_next p with
      | (None, _) => Found [] [] None
      | (Some (NError esc), _) => Found [] [] (Some esc)
      | (Some NEnd, p') =>
          match find_names n p' with
          | Found names unfinished error => Found ([] :: names) unfinished error
          | OutOfCalls => OutOfCalls
          end
      | (Some (NPart s), p') =>
          match find_names n p' with
          | Found (name :: names) unfinished error => Found ((s :: name) :: names) unfinished error
          | Found [] unfinished error => Found [] (s :: unfinished) error
          | OutOfCalls => OutOfCalls
          end
      end
  end.

Definition names_of (tokens : list dtoken) : found :=
  find_names (2 * length tokens + 2) (names_new tokens).

(** ** Symbols *)

(** The first [n] calls of [next] on the iterator over a symbol. [None] is a panic. *)
Fixpoint first_tokens (n : nat) (d : demangler) : option (list (option dtoken)) :=
  match n with
  | 0 => Some []
  | S n =>
      match demangle_next d with
      | SYield t d' => match first_tokens n d' with Some l => Some (Some t :: l) | None => None end
      | SStop d' => match first_tokens n d' with Some l => Some (None :: l) | None => None end
      | _ => None
      end
  end.

(** [Symbol::crate_name] (symbol.rs:62-71). *)
Definition crate_name (bytes : str) : option (option str) :=
  if utf8_valid bytes then
    match first_tokens 1 (demangle_new bytes) with
    | Some [Some (TText t)] => Some (Some t)
    | Some _ => Some None
    | None => None
    end
  else Some None.

(** [Symbol::module_name] (symbol.rs:51-60). *)
Definition module_name (bytes : str) : option (option str) :=
  if utf8_valid bytes then
    match first_tokens 2 (demangle_new bytes) with
    | Some [Some (TText _); Some (TText t)] => Some (Some t)
    | Some _ => Some None
    | None => None
    end
  else Some None.

(** [Symbol::is_look_through] (symbol.rs:78-86); reading stops at the first difference. *)
Fixpoint look_through (ps : list str) (d : demangler) : option bool :=
  match ps with
  | [] => Some true
  | p :: ps =>
      match demangle_next d with
      | SYield (TText t) d' => if str_eqb t p then look_through ps d' else Some false
      | SYield _ _ | SStop _ => Some false
      | _ => None
      end
  end.

Definition is_look_through (bytes : str) : option bool :=
  if utf8_valid bytes then look_through [lit "core"; lit "ops"; lit "function"] (demangle_new bytes)
  else Some false.
