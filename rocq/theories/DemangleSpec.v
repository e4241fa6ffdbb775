(** How symbols are mangled: numbers, legacy symbols, v0 paths. *)
From Verif Require Import Base TextModel DemangleModel.

(** An iterator yields exactly these tokens and then stops. *)
Definition produces {S} (next : S -> stepped S) (s : S) (ts : list dtoken) : Prop :=
  exists n, collect next n s = Finished ts.

(** The tokens of a symbol name. *)
Definition demangled (sym : str) (ts : list dtoken) : Prop :=
  produces demangle_next (demangle_new sym) ts.

Definition ascii_text (s : str) : Prop := Forall (fun c => is_ascii c = true) s.

Definition digit (c : ascii) : Prop := (48 <= N_of_ascii c <= 57)%N.

(** [ds] is a decimal representation of [n]. *)
Definition decimal (n : nat) (ds : str) : Prop :=
  ds <> [] /\ Forall digit ds /\
  fold_left (fun v d => v * 10 + (N_of_ascii d - 48))%N ds 0%N = N.of_nat n.

(** A text starts with a length and a part of that length. The machine has 64 bits. *)
Definition part_at (s ds p rest : str) : Prop :=
  s = ds ++ p ++ rest /\ decimal (length p) ds /\
  (exists c t, p ++ rest = c :: t /\ ~ digit c) /\
  (N.of_nat (length p) <= u64_max)%N.

(** All parts of the inside of a legacy symbol, up to where it stops being well formed. *)
Inductive parts_of : str -> list str -> Prop :=
| parts_nil s : (forall ds p rest, ~ part_at s ds p rest) -> parts_of s []
| parts_cons s ds p rest ps :
    part_at s ds p rest -> parts_of rest ps -> parts_of s (p :: ps).

Definition dollars (p : str) : nat := length (filter (fun c => c = "$"%char) p).

(** Every escape in the part is closed. *)
Definition closed_escapes (p : str) : Prop := Nat.Even (dollars p).

(** ** Legacy mangling *)

(** [ds] is a hexadecimal representation of [n] with small letters. *)
Definition hex_digit (c : ascii) (v : N) : Prop :=
  (digit c /\ v = N_of_ascii c - 48)%N \/
  ((97 <= N_of_ascii c <= 102) /\ v = N_of_ascii c - 87)%N.

Inductive hexadecimal : N -> str -> Prop :=
| hex_one c v : hex_digit c v -> hexadecimal v [c]
| hex_more n ds c v : hexadecimal n ds -> hex_digit c v -> hexadecimal (16 * n + v)%N (ds ++ [c]).

(** A Unicode scalar value. *)
Definition scalar (n : N) : Prop := (n < 55296 \/ 57344 <= n < 1114112)%N.

(** [esc] stands for the character [c] between dollar signs. *)
Inductive escape : N -> str -> Prop :=
| escape_lt : escape 60 (lit "LT")
| escape_gt : escape 62 (lit "GT")
| escape_lp : escape 40 (lit "LP")
| escape_rp : escape 41 (lit "RP")
| escape_comma : escape 44 (lit "C")
| escape_star : escape 42 (lit "BP")
| escape_amp : escape 38 (lit "RF")
| escape_hex n ds : scalar n -> hexadecimal n ds -> escape n (lit "u" ++ ds).

(** What a part with escapes consists of. *)
Inductive piece := Word (w : str) | Special (c : N) | Separator.

Definition word (w : str) : Prop :=
  w <> [] /\ ascii_text w /\ "."%char ∉ w /\ "$"%char ∉ w.

(** The text of a sequence of pieces: no two words in a row, no separator at the end. *)
Inductive pieces_text : list piece -> str -> Prop :=
| pieces_end : pieces_text [] []
| pieces_last w : word w -> pieces_text [Word w] w
| pieces_word w q ps t :
    word w -> (forall w', q <> Word w') -> pieces_text (q :: ps) t ->
    pieces_text (Word w :: q :: ps) (w ++ t)
| pieces_special c esc ps t :
    escape c esc -> pieces_text ps t ->
    pieces_text (Special c :: ps) (lit "$" ++ esc ++ lit "$" ++ t)
| pieces_separator q ps t :
    pieces_text (q :: ps) t -> pieces_text (Separator :: q :: ps) (lit "." ++ t).

(** A component of a path: an identifier, or something that needs escapes. *)
Inductive component := Ident (w : str) | Escaped (ps : list piece).

Definition letter (c : ascii) : Prop :=
  (65 <= N_of_ascii c <= 90 \/ 97 <= N_of_ascii c <= 122)%N.

(** The text could start an identifier. *)
Definition starts_identifier (s : str) : Prop :=
  exists c t, s = c :: t /\ (letter c \/ c = "_"%char).

(** The text of a component. An underscore is put before a text with escapes that cannot
    start an identifier. *)
Inductive component_text : component -> str -> Prop :=
| text_ident w :
    ascii_text w -> starts_identifier w -> "$"%char ∉ w -> component_text (Ident w) w
| text_escaped ps t :
    pieces_text ps t -> starts_identifier t -> "$"%char ∈ t -> component_text (Escaped ps) t
| text_escaped_underscore ps t :
    pieces_text ps t -> t <> [] -> ~ starts_identifier t ->
    component_text (Escaped ps) (lit "_" ++ t).

(** The component itself starts with an underscore. *)
Definition leading_underscore (c : component) : Prop :=
  match c with
  | Ident w => lit "_" `prefix_of` w
  | Escaped (Word w :: _) => lit "_" `prefix_of` w
  | Escaped _ => False
  end.

(** The mangling of a path: each component with its length in front. *)
Inductive legacy_path : list component -> str -> Prop :=
| path_end : legacy_path [] []
| path_cons c cs ds t s :
    component_text c t -> decimal (length t) ds -> (N.of_nat (length t) <= u64_max)%N ->
    legacy_path cs s -> legacy_path (c :: cs) (ds ++ t ++ s).

(** What is written in a component. *)
Definition piece_tokens (p : piece) : list dtoken :=
  match p with Word w => [TText w] | Special c => [TChar c] | Separator => [] end.
Definition component_tokens (c : component) : list dtoken :=
  match c with Ident w => [TText w] | Escaped ps => concat (map piece_tokens ps) end.

(** ** v0 mangling of paths *)

Definition base62 (c : ascii) : Prop :=
  (48 <= N_of_ascii c <= 57 \/ 65 <= N_of_ascii c <= 90 \/ 97 <= N_of_ascii c <= 122)%N.

(** An optional disambiguator. *)
Inductive disambiguator : str -> Prop :=
| no_disambiguator : disambiguator []
| some_disambiguator ds : Forall base62 ds -> disambiguator (lit "s" ++ ds ++ lit "_").

Definition no_digit_first (s : str) : Prop := exists c t, s = c :: t /\ ~ digit c.

(** An identifier with its length; if its text starts with a digit or an underscore there
    is an underscore in between; a [u] in front marks Punycode, where [puny] allows it. *)
Inductive v0_identifier (puny : bool) : str -> str -> Prop :=
| v0_ident d u ds sep w :
    disambiguator d -> u = [] \/ puny = true /\ u = lit "u" ->
    decimal (length w) ds -> (N.of_nat (length w) <= u64_max)%N -> ascii_text w ->
    (no_digit_first w /\ ~ lit "_" `prefix_of` w /\ sep = [] \/
     w <> [] /\ ~ (no_digit_first w /\ ~ lit "_" `prefix_of` w) /\ sep = lit "_") ->
    v0_identifier puny w (d ++ u ++ ds ++ sep ++ w).

(** A crate, or an item in a path: types [t], values [v], macros [m]. *)
Inductive v0_path (puny : bool) : list str -> str -> Prop :=
| v0_crate w t : v0_identifier puny w t -> v0_path puny [w] (lit "C" ++ t)
| v0_nested ns ws w p t :
    ns = lit "t" \/ ns = lit "v" \/ ns = lit "m" ->
    v0_path puny ws p -> v0_identifier puny w t ->
    v0_path puny (ws ++ [w]) (lit "N" ++ ns ++ p ++ t).

(** ** Names in debug information *)

(** The UTF-8 encoding of a character. *)
Definition utf8_encode (n : N) : list N := (
  if N.ltb n 128 then [n]
  else if N.ltb n 2048 then [192 + n / 64; 128 + n mod 64]
  else if N.ltb n 65536 then [224 + n / 4096; 128 + n / 64 mod 64; 128 + n mod 64]
  else [240 + n / 262144; 128 + n / 4096 mod 64; 128 + n / 64 mod 64; 128 + n mod 64])%N.

Definition char_bytes (n : N) (bs : str) : Prop := scalar n /\ map N_of_ascii bs = utf8_encode n.

(** Characters that end a text, besides all characters outside ASCII. *)
Definition separator (c : ascii) : Prop := c ∈ lit "<>[](){};&*:, ".

Definition ends_text (s : str) : Prop :=
  match s with [] => True | c :: _ => separator c \/ is_ascii c = false end.

Inductive debug_tokens : str -> list dtoken -> Prop :=
| debug_end : debug_tokens [] []
| debug_colon s ts : debug_tokens s ts -> debug_tokens (lit ":" ++ s) ts
| debug_separator c s ts :
    separator c -> c <> ":"%char -> debug_tokens s ts ->
    debug_tokens (c :: s) (TChar (N_of_ascii c) :: ts)
| debug_multibyte n bs s ts :
    (128 <= n)%N -> char_bytes n bs -> debug_tokens s ts ->
    debug_tokens (bs ++ s) (TChar n :: ts)
| debug_text w s ts :
    w <> [] -> ascii_text w -> Forall (fun c => ~ separator c) w -> ends_text s ->
    debug_tokens s ts -> debug_tokens (w ++ s) (TText w :: ts).
