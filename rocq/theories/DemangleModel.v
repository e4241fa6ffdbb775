(** Splitting symbol names and debug names into tokens.
    Source: /repo/src/demangle.rs. *)
From Verif Require Import Base TextModel.

(** [DemangleToken] (demangle.rs:12-17). A character is its code point. *)
Inductive dtoken :=
| TText (s : str)
| TChar (c : N)
| TEscape (s : str).

Global Instance dtoken_eq_dec : EqDecision dtoken.
Proof. solve_decision. Defined.

(** The result of a parsing function that returns an [Option] and may panic. Running out
    of fuel is kept apart; it does not happen with the fuel that is used. *)
Inductive parsed (A : Type) :=
| PSome (a : A)
| PNone
| PPanic
| PFuel.
Arguments PSome {A} a.
Arguments PNone {A}.
Arguments PPanic {A}.
Arguments PFuel {A}.

Definition pbind {A B} (m : parsed A) (f : A -> parsed B) : parsed B :=
  match m with
  | PSome a => f a
  | PNone => PNone
  | PPanic => PPanic
  | PFuel => PFuel
  end.

(** A slice that may panic. *)
Definition psliced (o : option str) : parsed str :=
  match o with Some s => PSome s | None => PPanic end.

(** [str::find] of an ASCII character, [bytes().position]. *)
Fixpoint find_pos (f : ascii -> bool) (s : str) : option nat :=
  match s with
  | [] => None
  | a :: s' => if f a then Some 0 else match find_pos f s' with Some n => Some (S n) | None => None end
  end.

Definition is_digit (c : ascii) : bool := between 48 57 c.
Definition is_upper (c : ascii) : bool := between 65 90 c.
Definition is_lower (c : ascii) : bool := between 97 122 c.

(** [is_base62_digit] (demangle.rs:85-87) *)
Definition is_base62_digit (c : ascii) : bool := is_digit c || is_upper c || is_lower c.

Definition digit_value (c : ascii) : N := (N_of_ascii c - 48)%N.

Definition u64_max : N := 18446744073709551615.
Definition u32_max : N := 4294967295.

(** The loop of [parse_decimal] (demangle.rs:90-99): the value and the number of digits;
    [None] if it overflows. *)
Fixpoint decimal_loop (value : N) (len : nat) (s : str) : option (N * nat) :=
  match s with
  | [] => Some (value, len)
  | b :: s' =>
      if is_digit b then
        let value := (value * 10 + digit_value b)%N in
        if N.leb value u64_max then decimal_loop value (S len) s' else None
      else Some (value, len)
  end.

(** [parse_decimal] (demangle.rs:89-105) *)
Definition parse_decimal (data : str) : parsed (N * str) :=
  match decimal_loop 0 0 data with
  | None => PNone
  | Some (value, len) =>
      if Nat.eqb len 0 then PNone
      else pbind (psliced (slice_from data len)) (fun rest => PSome (value, rest))
  end.

(** [parse_disambiguator] (demangle.rs:107-117) *)
Definition parse_disambiguator (data : str) : parsed str :=
  match strip_prefix (lit "s") data with
  | Some rest =>
      match find_pos (Ascii.eqb "_"%char) rest with
      | Some e => psliced (slice_from rest (e + 1))
      | None => PNone
      end
  | None => PSome data
  end.

(** [parse_undisambiguated_identifier] (demangle.rs:119-135) *)
Definition parse_undisambiguated_identifier (data : str) : parsed (str * str) :=
  let rest := match strip_prefix (lit "u") data with Some r => r | None => data end in
  pbind (parse_decimal rest) (fun '(len, rest) =>
  let rest := match strip_prefix (lit "_") rest with Some r => r | None => rest end in
  if N.leb len (N.of_nat (length rest)) then
    let n := N.to_nat len in
    match slice_to rest n, slice_from rest n with
    | Some ident, Some rest => PSome (ident, rest)
    | _, _ => PPanic
    end
  else PNone).

(** [parse_identifier] (demangle.rs:137-142) *)
Definition parse_identifier (data : str) : parsed (str * str) :=
  pbind (parse_disambiguator data) parse_undisambiguated_identifier.

(** One of some bytes. *)
Definition is_tag (c : ascii) (tags : list ascii) : bool := existsb (Ascii.eqb c) tags.

(** [skip_v0_type] (demangle.rs:366-440) and its two loops (394-406, 411-423). *)
Fixpoint skip_type (fuel : nat) (data : str) : parsed str :=
  match fuel with
  | 0 => PFuel
  | S fuel =>
      match data with
      | [] => PNone
      | tag :: _ =>
          pbind (psliced (slice_from data 1)) (fun rest =>
          if is_tag tag ["C"%char] then
            pbind (parse_identifier rest) (fun '(_, r) => PSome r)
          else if is_tag tag ["N"%char; "p"%char; "R"%char; "Q"%char; "A"%char; "S"%char] then
            skip_type fuel rest
          else if is_tag tag ["T"%char] then skip_until_end fuel rest
          else if is_tag tag ["I"%char] then
            match skip_type fuel rest with
            | PSome current => skip_until_end fuel current
            | other => other
            end
          else if is_tag tag ["e"%char; "u"%char; "i"%char; "f"%char; "b"%char; "c"%char; "z"%char; "v"%char]
          then PSome rest
          else if is_base62_digit tag then
            pbind (parse_identifier data) (fun '(_, r) => PSome r)
          else PSome rest)
      end
  end
with skip_until_end (fuel : nat) (current : str) : parsed str :=
  match fuel with
  | 0 => PFuel
  | S fuel =>
      match current with
      | [] => PNone
      | c :: _ =>
          if Ascii.eqb c "E"%char then psliced (slice_from current 1)
          else
            match skip_type fuel current with
            | PSome new_rest => skip_until_end fuel new_rest
            | other => other
            end
      end
  end.

Definition skip_v0_type (data : str) : parsed str := skip_type (2 * length data + 2) data.

(** What a call of [next] does. *)
Inductive stepped (S : Type) :=
| SYield (t : dtoken) (s : S)
| SStop (s : S)
| SPanic
| SFuel.
Arguments SYield {S} t s.
Arguments SStop {S} s.
Arguments SPanic {S}.
Arguments SFuel {S}.

(** Yield the identifier that starts a text; stop with state [old] if there is none. *)
Definition yield_identifier (old data : str) : stepped str :=
  match parse_identifier data with
  | PSome (ident, rest) => SYield (TText ident) rest
  | PNone => SStop old
  | PPanic => SPanic
  | PFuel => SFuel
  end.

(** [DemangleIterator::next] for v0 symbols (demangle.rs:149-311). [char] code points:
    60 <, 62 >, 42 *, 38 &, 91 [, 40 (, 44 comma. *)
Fixpoint v0_next (fuel : nat) (remaining : str) : stepped str :=
  match fuel with
  | 0 => SFuel
  | S fuel =>
      match remaining with
      | [] => SStop remaining
      | tag :: _ =>
          match slice_from remaining 1 with
          | None => SPanic
          | Some rest =>
              if is_tag tag ["C"%char] then yield_identifier remaining rest
              else if is_tag tag ["N"%char] then
                match rest with
                | [] => v0_next fuel rest
                | next_tag :: _ =>
                    if is_tag next_tag ["t"%char; "v"%char] then
                      match slice_from rest 1 with
                      | None => SPanic
                      | Some rest1 => v0_next fuel rest1
                      end
                    else if is_tag next_tag ["C"%char; "S"%char] then v0_next fuel rest
                    else
                      match parse_identifier rest with
                      | PSome (ident, new_rest) => SYield (TText ident) new_rest
                      | PNone => v0_next fuel rest
                      | PPanic => SPanic
                      | PFuel => SFuel
                      end
                end
              else if is_tag tag ["v"%char; "t"%char; "m"%char] then v0_next fuel rest
              else if is_tag tag ["M"%char] then
                match skip_v0_type rest with
                | PSome new_rest => v0_next fuel new_rest
                | PNone => v0_next fuel rest
                | PPanic => SPanic
                | PFuel => SFuel
                end
              else if is_tag tag ["X"%char] then
                match parse_disambiguator rest with
                | PSome new_rest => v0_next fuel new_rest
                | PNone => v0_next fuel rest
                | PPanic => SPanic
                | PFuel => SFuel
                end
              else if is_tag tag ["Y"%char] then v0_next fuel rest
              else if is_tag tag ["B"%char] then
                match find_pos (Ascii.eqb "_"%char) rest with
                | Some pos =>
                    match slice_from rest (pos + 1) with
                    | None => SPanic
                    | Some new_rest => v0_next fuel new_rest
                    end
                | None => v0_next fuel rest
                end
              else if is_tag tag ["I"%char] then SYield (TChar 60) rest
              else if is_tag tag ["E"%char] then SYield (TChar 62) rest
              else if is_tag tag ["p"%char] then SYield (TChar 42) rest
              else if is_tag tag ["R"%char; "Q"%char] then SYield (TChar 38) rest
              else if is_tag tag ["A"%char] then SYield (TChar 91) rest
              else if is_tag tag ["S"%char] then v0_next fuel rest
              else if is_tag tag ["T"%char] then SYield (TChar 40) rest
              else if is_tag tag ["e"%char] then SYield (TText (lit "()")) rest
              else if is_tag tag ["u"%char] then SYield (TText (lit "u")) rest
              else if is_tag tag ["i"%char] then SYield (TText (lit "i")) rest
              else if is_tag tag ["_"%char] then SYield (TChar 44) rest
              else if is_base62_digit tag then yield_identifier remaining remaining
              else v0_next fuel rest
          end
      end
  end.

(** ** Legacy symbols *)

Definition hex_value (c : ascii) : option N :=
  if is_digit c then Some (N_of_ascii c - 48)%N
  else if between 97 102 c then Some (N_of_ascii c - 87)%N
  else if between 65 70 c then Some (N_of_ascii c - 55)%N
  else None.

Fixpoint hex_loop (value : N) (s : str) : option N :=
  match s with
  | [] => Some value
  | c :: s' =>
      match hex_value c with
      | Some d => let v := (value * 16 + d)%N in if N.leb v u32_max then hex_loop v s' else None
      | None => None
      end
  end.

(** [u32::from_str_radix(_, 16)]: digits after an optional plus sign. *)
Definition parse_hex (s : str) : option N :=
  let digits := match strip_prefix (lit "+") s with Some r => r | None => s end in
  match digits with [] => None | _ => hex_loop 0 digits end.

(** [char::from_u32] *)
Definition char_from_u32 (n : N) : option N :=
  if (N.leb n 55295 || (N.leb 57344 n && N.leb n 1114111)) then Some n else None.

(** [symbol] (demangle.rs:65-82) *)
Definition symbol (esc : str) : option N :=
  if str_eqb esc (lit "LT") then Some 60%N
  else if str_eqb esc (lit "GT") then Some 62%N
  else if str_eqb esc (lit "LP") then Some 40%N
  else if str_eqb esc (lit "RP") then Some 41%N
  else if str_eqb esc (lit "C") then Some 44%N
  else if str_eqb esc (lit "BP") then Some 42%N
  else if str_eqb esc (lit "RF") then Some 38%N
  else match strip_prefix (lit "u") esc with
       | Some hex => match parse_hex hex with Some n => char_from_u32 n | None => None end
       | None => None
       end.

(** demangle.rs:318-320 *)
Fixpoint strip_dots (s : str) : str :=
  match s with
  | c :: s' => if Ascii.eqb c "."%char then strip_dots s' else s
  | [] => []
  end.

(** [str::parse::<usize>] of a run of digits, on a 64 bit machine. *)
Definition parse_usize (s : str) : option N :=
  match s with
  | [] => None
  | _ => match decimal_loop 0 0 s with
         | Some (v, len) => if Nat.eqb len (length s) then Some v else None
         | None => None
         end
  end.

Record legacy := LegacyState { lg_outer : str; lg_inner : option str }.

(** One token of a part with escapes (demangle.rs:317-337). *)
Definition inner_next (outer data : str) : stepped legacy :=
  let data := strip_dots data in
  let text :=
    let e := match find_pos (fun b => Ascii.eqb b "."%char || Ascii.eqb b "$"%char) data with
             | Some e => e | None => length data end in
    match slice_to data e, slice_from data e with
    | Some text, Some rest => SYield (TText text) (LegacyState outer (Some rest))
    | _, _ => SPanic
    end in
  match strip_prefix (lit "$") data with
  | Some rest =>
      match find_pos (Ascii.eqb "$"%char) rest with
      | Some e =>
          match slice_from rest (e + 1), slice_to rest e with
          | Some data, Some esc =>
              SYield (match symbol esc with Some ch => TChar ch | None => TEscape esc end)
                (LegacyState outer (Some data))
          | _, _ => SPanic
          end
      | None => text
      end
  | None => text
  end.

(** The part of [next] that starts a new part (demangle.rs:338-358); [again] is the
    recursive call. *)
Definition outer_next (again : legacy -> stepped legacy) (outer : str) : stepped legacy :=
  let stop := SStop (LegacyState outer None) in
  match outer with
  | [] => stop
  | _ =>
      match find_pos (fun b => negb (is_digit b)) outer with
      | None => stop
      | Some num_digits =>
          match slice_to outer num_digits, slice_from outer num_digits with
          | Some length_str, Some rest =>
              match parse_usize length_str with
              | None => stop
              | Some len =>
                  if N.ltb (N.of_nat (length rest)) len then stop
                  else
                    let n := N.to_nat len in
                    match slice_to rest n, slice_from rest n with
                    | Some part, Some rest =>
                        match strip_prefix (lit "_") part with
                        | Some inner => again (LegacyState rest (Some inner))
                        | None =>
                            if has_char "$"%char part then again (LegacyState rest (Some part))
                            else SYield (TText part) (LegacyState rest None)
                        end
                    | _, _ => SPanic
                    end
              end
          | _, _ => SPanic
          end
      end
  end.

(** [DemangleIterator::next] for legacy symbols (demangle.rs:312-359). *)
Fixpoint legacy_next (fuel : nat) (s : legacy) : stepped legacy :=
  match fuel with
  | 0 => SFuel
  | S fuel =>
      match lg_inner s with
      | Some (c :: data) => inner_next (lg_outer s) (c :: data)
      | _ => outer_next (legacy_next fuel) (lg_outer s)
      end
  end.

(** ** The iterator *)

(** [DemangleIterator] (demangle.rs:20-29) and [new] (39-54). *)
Inductive demangler :=
| DV0 (remaining : str)
| DLegacy (s : legacy)
| DEmpty.

Definition demangle_new (data : str) : demangler :=
  match strip_prefix (lit "_R") data with
  | Some rest => DV0 rest
  | None =>
      match strip_prefix (lit "_ZN") data with
      | Some rest =>
          match strip_suffix_char "E"%char rest with
          | Some rest => DLegacy (LegacyState rest None)
          | None => DEmpty
          end
      | None => DEmpty
      end
  end.

Definition smap {S T} (f : S -> T) (r : stepped S) : stepped T :=
  match r with
  | SYield t s => SYield t (f s)
  | SStop s => SStop (f s)
  | SPanic => SPanic
  | SFuel => SFuel
  end.

Definition demangle_next (d : demangler) : stepped demangler :=
  match d with
  | DV0 remaining => smap DV0 (v0_next (S (length remaining)) remaining)
  | DLegacy s => smap DLegacy (legacy_next (length (lg_outer s) + 2) s)
  | DEmpty => SStop DEmpty
  end.

(** [NonMangledIterator] (demangle.rs:32-35). *)
Record nonmangled := NonMangled { nm_namespace : list str; nm_data : str }.

(** [IS_PART_SEPARATOR] (demangle.rs:443-460) *)
Definition is_part_separator (c : ascii) : bool :=
  is_tag c ["<"; ">"; "["; "]"; "("; ")"; "{"; "}"; ";"; "&"; "*"; ":"; ","; " "]%char.

Fixpoint strip_colons (s : str) : str :=
  match s with
  | c :: s' => if Ascii.eqb c ":"%char then strip_colons s' else s
  | [] => []
  end.

Definition low_bits (c : ascii) (m : N) : N := N.land (N_of_ascii c) m.

(** The first character of a text: its code point and its number of bytes. *)
Definition first_char (s : str) : option (N * nat) :=
  match s with
  | [] => None
  | a :: s1 =>
      if is_ascii a then Some (N_of_ascii a, 1)
      else if between 194 223 a then
        match s1 with
        | b :: _ => Some (low_bits a 31 * 64 + low_bits b 63, 2%nat)%N
        | _ => None
        end
      else if between 224 239 a then
        match s1 with
        | b :: c :: _ => Some (low_bits a 15 * 4096 + low_bits b 63 * 64 + low_bits c 63, 3%nat)%N
        | _ => None
        end
      else
        match s1 with
        | b :: c :: d :: _ =>
            Some (low_bits a 7 * 262144 + low_bits b 63 * 4096 + low_bits c 63 * 64
                  + low_bits d 63, 4%nat)%N
        | _ => None
        end
  end.

(** [NonMangledIterator::next] (demangle.rs:465-498). The first position of a separator or
    of a multi-byte character is the first position of a separator byte or of a byte that
    is not ASCII. *)
Definition nonmangled_next (s : nonmangled) : stepped nonmangled :=
  match nm_namespace s with
  | token :: ns => SYield (TText token) (NonMangled ns (nm_data s))
  | [] =>
      let data := strip_colons (nm_data s) in
      match data with
      | [] => SStop (NonMangled [] data)
      | _ =>
          let e := match find_pos (fun b => negb (is_ascii b) || is_part_separator b) data with
                   | Some e => e | None => length data end in
          if Nat.eqb e 0 then
            match first_char data with
            | Some (ch, n) =>
                match slice_from data n with
                | Some rest => SYield (TChar ch) (NonMangled [] rest)
                | None => SPanic
                end
            | None => SPanic
            end
          else
            match slice_to data e, slice_from data e with
            | Some text, Some rest => SYield (TText text) (NonMangled [] rest)
            | _, _ => SPanic
            end
      end
  end.

(** ** Running an iterator *)

Inductive collected :=
| Finished (tokens : list dtoken)
| Panicked
| Unfinished.

(** All tokens, calling [next] at most [n] times. *)
Fixpoint collect {S} (next : S -> stepped S) (n : nat) (s : S) : collected :=
  match n with
  | 0 => Unfinished
  | Datatypes.S n =>
      match next s with
      | SYield t s' =>
          match collect next n s' with
          | Finished ts => Finished (t :: ts)
          | other => other
          end
      | SStop _ => Finished []
      | SPanic => Panicked
      | SFuel => Unfinished
      end
  end.
