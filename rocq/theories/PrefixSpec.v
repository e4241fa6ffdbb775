(** What the offered changes of an API's definition should do. *)
From Verif Require Import Base ApiMapModel ApiMapSpec ConfigModel ProblemModel CollectModel CollectSpec
  EditorSpec.

(** The names in a symbol or debug name. *)
Definition names_read (x : sym_or_debug) (names : list (list str)) (unfinished : list str) : Prop :=
  match x with
  | FromSymbol s => names_of_symbol s names unfinished
  | FromDebug d => names_of_debug d names unfinished
  end.

(** [name] is one of the names in a symbol or debug name. *)
Definition has_name (x : sym_or_debug) (name : list str) : Prop :=
  exists names unfinished,
    names_read x names unfinished /\
    (name ∈ names \/ name = unfinished).

Definition unreadable (x : sym_or_debug) : Prop := forall names unfinished, ~ names_read x names unfinished.

(** Each of these has a name below the path [p]. *)
Definition shared (l : list sym_or_debug) (p : list str) : Prop :=
  l <> [] /\ p <> [] /\ forall x, x ∈ l -> exists name, has_name x name /\ p `prefix_of` name.

(** In alphabetical order, by bytes. *)
Definition alphabetical (l : list str) : Prop :=
  forall i j x y, l !! i = Some x -> l !! j = Some y -> i < j -> x = y \/ bytes_lt x y.

(** The APIs of a name under a configuration. *)
Definition in_api (c : config) (name : list str) (api : str) : Prop := owned (rc_apis (cf_raw c)) name api.

(** A path of the API's list of exclusions covers the name. *)
Definition excluded_in (c : config) (api : str) (name : list str) : Prop :=
  exists x p, rc_apis (cf_raw c) !! api = Some x /\ p ∈ ac_exclude x /\ covers p name.
