(** What a reader of the log may rely on. *)
From Verif Require Import Base ApiMapModel ConfigModel ProblemModel StoreModel StoreSpec AuditModel.

(** The lines say that [p] was settled, with all its usages. *)
Definition settled_in (lines : list log_line) (p : problem) : Prop :=
  exists q, Resolved q ∈ lines /\ same_problem p q /\ forall u, u ∈ usages_in p -> u ∈ usages_in q.

(** [p] was reported in these lines, or put in the place of another problem by one of the operations: so the question for
    a sandbox takes the place of the missing configuration. *)
Definition brought_up (lines : list log_line) (ops : list store_op) (p : problem) : Prop :=
  Reported p ∈ lines \/ exists id ps, SReplace id ps ∈ ops /\ p ∈ ps.

(** The log has nothing about [q] having come up. *)
Definition never_reported (lines : list log_line) (q : problem) : Prop :=
  forall p, Reported p ∈ lines -> ~ same_problem p q.
