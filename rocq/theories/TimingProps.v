(** Timings. *)
From stdpp Require Import gmap.
From Verif Require Import Base TimingModel TimingSpec TimingProofs.

(** C280: with --print-timing there is one line for each category that was reported, with the sum of all that was reported for it, in
    the order in which the categories were reported for the first time. Without it nothing is recorded. *)
Theorem C280_printed (rs : list (N * N * str)) :
  exists ks, timing_lines (timing_run true rs) = Some (map (fun k => (k, spent k rs)) ks) /\
    NoDup ks /\ in_order ks rs /\ forall k, k ∈ ks <-> k ∈ map snd rs.
Proof. apply timing_printed. Qed.
Print Assumptions C280_printed.

Theorem C280_silent (rs : list (N * N * str)) : timing_lines (timing_run false rs) = Some [].
Proof. apply timing_silent. Qed.
Print Assumptions C280_silent.

Example C280_ex :
  timing_lines (timing_run true [(0%N, 3%N, lit "b"); (3%N, 4%N, lit "a"); (4%N, 9%N, lit "b")]) = Some [(lit "b", 8%N); (lit "a", 1%N)].
Proof. vm_compute. reflexivity. Qed.
