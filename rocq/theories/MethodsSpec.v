(** v0 symbols of methods, from the grammar of v0 symbols: the path of a method is [Nv], the path of the
    implementation, and the name of the method. The path of an implementation is [M] or, for traits, [X], then a
    number unless it is the first in its module, the path of the module, the type, and for traits their path.
    What follows the path of the module is left open here. *)
From Verif Require Import Base DemangleModel DemangleSpec.

Definition method_symbol (number module rest : str) : str := lit "_RNvM" ++ number ++ module ++ rest.
Definition trait_method_symbol (number module rest : str) : str := lit "_RNvX" ++ number ++ module ++ rest.

(** A number is there. *)
Definition numbered (number : str) : Prop := disambiguator number /\ number <> [].
