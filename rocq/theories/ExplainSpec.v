(** How a package is called in texts for users. *)
From Verif Require Import Base TextModel ProblemModel.

(** By its name if no other package has it, else with the version. *)
Definition called (version_text : list nat -> str) (unique : pkg_id -> bool) (p : pkg_id) (text : str) : Prop :=
  unique p = true /\ text = pi_name p \/
  unique p = false /\ text = pi_name p ++ lit "[" ++ version_text (pi_version p) ++ lit "]".
