(** What the names in a sequence of tokens are. *)
From Verif Require Import Base TextModel TextSpec DemangleModel DemangleSpec NamesModel BuildScriptSpec.

(** A 64 bit signed number. *)
Definition number (s : str) : Prop :=
  exists sign ds n, s = sign ++ ds /\ ds <> [] /\ Forall digit ds /\
    n = fold_left (fun v d => v * 10 + (N_of_ascii d - 48))%N ds 0%N /\
    ((sign = [] \/ sign = lit "+") /\ (n < 2 ^ 63)%N \/ sign = lit "-" /\ (n <= 2 ^ 63)%N).

(** An [h] and sixteen hexadecimal digits. *)
Definition hash (s : str) : Prop :=
  exists ds, s = lit "h" ++ ds /\ length ds = 16 /\
    Forall (fun c => digit c \/ (97 <= N_of_ascii c <= 102 \/ 65 <= N_of_ascii c <= 70)%N) ds.

(** Texts that count, with [d] braces open. *)
Definition significant (d : Z) (t : str) : Prop := t <> lit "mut" /\ (d <= 0)%Z /\ ~ number t.

(** The texts of a run that count. *)
Definition counting (d : Z) : list str -> list str -> Prop :=
  gathered (fun t k => significant d t /\ k = t).

(** A hash at the very end does not count. *)
Definition drops_hash (texts texts' : list str) : Prop :=
  (exists h, texts = texts' ++ [h] /\ hash h) \/
  (texts = texts' /\ forall x h, texts = x ++ [h] -> ~ hash h).

(** A run of texts is a name unless it is empty. *)
Definition name_if_any (ks : list str) : list (list str) :=
  match ks with [] => [] | _ => [ks] end.

Definition braces (ts : list dtoken) : Z :=
  fold_right (fun t z => match t with
                         | TChar 123 => (z + 1)%Z   (* { *)
                         | TChar 125 => (z - 1)%Z   (* } *)
                         | _ => z end) 0%Z ts.

Definition angles (ts : list dtoken) : Z :=
  fold_right (fun t z => match t with
                         | TChar 60 => (z + 1)%Z    (* < *)
                         | TChar 62 => (z - 1)%Z    (* > *)
                         | _ => z end) 0%Z ts.

(** The word [as] followed by a space. *)
Definition as_words : list dtoken := [TText (lit "as"); TChar 32].

Definition no_as (ts : list dtoken) : Prop := forall x y, ts <> x ++ as_words ++ y.
Definition no_escapes (ts : list dtoken) : Prop := forall e, TEscape e ∉ ts.

(** What may stand between a trait's path and the [>] that ends the qualified path:
    nothing, or generic arguments. *)
Definition arguments (i : list dtoken) : Prop :=
  (forall s t, i <> TText s :: t) /\ no_as i /\ no_escapes i /\
  angles i = 0%Z /\ (forall x y, i = x ++ y -> 0 <= angles x)%Z /\
  braces i = 0%Z /\ (forall t, i <> TChar 123 :: t /\ i <> TChar 125 :: t).

(** The arguments are read after the name of the item. Their first character only ends the
    trait's path. *)
Definition after_trait (i post : list dtoken) : list dtoken :=
  match i with [] => post | _ :: i' => i' ++ TChar 62 :: post end.

(** [names_in cur d ts ns]: with [d] braces open and [cur] the texts of the name that is
    being read, the names are [ns].
    - texts form a name up to the next character or the end;
    - [as B args> c post]: the path of the trait and the item [c] are a name, to which the
      texts that come next belong too;
    - [as B args> post] where no text follows: only the path of the trait. *)
Inductive names_in : list str -> Z -> list dtoken -> list (list str) -> Prop :=
| in_last cur d texts texts' ks :
    drops_hash texts texts' -> counting d texts' ks ->
    names_in cur d (map TText texts) (name_if_any (cur ++ ks))
| in_char cur d texts ks c rest ns :
    counting d texts ks -> (d <= 0 -> no_as (map TText texts ++ [TChar c]))%Z ->
    names_in [] (d + braces [TChar c])%Z rest ns ->
    names_in cur d (map TText texts ++ TChar c :: rest) (name_if_any (cur ++ ks) ++ ns)
| in_as d bs ks i c post ns :
    (d <= 0)%Z -> counting d bs ks -> arguments i -> no_as (map TText bs ++ i) ->
    c <> lit "as" ->
    names_in (ks ++ [c]) d (after_trait i post) ns ->
    names_in [] d (as_words ++ map TText bs ++ i ++ TChar 62 :: TText c :: post) ns
| in_as_bare d bs ks i post ns :
    (d <= 0)%Z -> counting d bs ks -> arguments i -> no_as (map TText bs ++ i) ->
    (forall s t, post <> TText s :: t) ->
    names_in [] d (after_trait i post) ns ->
    names_in [] d (as_words ++ map TText bs ++ i ++ TChar 62 :: post) (ks :: ns).

(** All names of a sequence of tokens. *)
Definition names_are (ts : list dtoken) (ns : list (list str)) : Prop :=
  names_of ts = Found ns [] None.

(** The tokens of a symbol begin with these. *)
Inductive begins : demangler -> list dtoken -> Prop :=
| begins_any d : begins d []
| begins_with d t d' ts : demangle_next d = SYield t d' -> begins d' ts -> begins d (t :: ts).

(** The crate, and the module in it, that a symbol belongs to: its first two texts. *)
Definition crate_is (sym crate : str) : Prop := is_utf8 sym /\ begins (demangle_new sym) [TText crate].
Definition module_is (sym module : str) : Prop :=
  is_utf8 sym /\ exists crate, begins (demangle_new sym) [TText crate; TText module].

(** Something in [core::ops::function]. *)
Definition function_shim (sym : str) : Prop :=
  is_utf8 sym /\ begins (demangle_new sym) [TText (lit "core"); TText (lit "ops"); TText (lit "function")].
