(** Totals and their order. *)
From Verif Require Import Base.

(** How long a category took in all. *)
Fixpoint spent (k : str) (rs : list (N * N * str)) : N :=
  match rs with
  | [] => 0
  | (start, now, k') :: rs => ((if decide (k = k') then now - start else 0) + spent k rs)%N
  end.

(** [k1] was reported for the first time before [k2] was. *)
Definition reported_before (k1 k2 : str) (rs : list (N * N * str)) : Prop :=
  exists pre start now post, rs = pre ++ (start, now, k1) :: post /\ k2 ∉ map snd pre.

Definition in_order (ks : list str) (rs : list (N * N * str)) : Prop :=
  forall l1 k1 l2 k2 l3, ks = l1 ++ k1 :: l2 ++ k2 :: l3 -> reported_before k1 k2 rs.
