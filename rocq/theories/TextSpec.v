(** What UTF-8 is (The Unicode Standard, table 3-6). *)
From Verif Require Import Base.

(** Code points of characters: all but the surrogates. *)
Definition scalar (n : N) : Prop := (n < 0x110000)%N /\ ~ (0xD800 <= n <= 0xDFFF)%N.

(** The bytes of a character. *)
Definition encoded (n : N) : str :=
  map ascii_of_N
    (if decide (n < 0x80)%N then [n]
     else if decide (n < 0x800)%N then [0xC0 + n / 64; 0x80 + n mod 64]
     else if decide (n < 0x10000)%N then [0xE0 + n / 4096; 0x80 + (n / 64) mod 64; 0x80 + n mod 64]
     else [0xF0 + n / 262144; 0x80 + (n / 4096) mod 64; 0x80 + (n / 64) mod 64; 0x80 + n mod 64])%N.

(** The bytes are a text. *)
Definition is_utf8 (s : str) : Prop := exists cs, Forall scalar cs /\ s = concat (map encoded cs).
