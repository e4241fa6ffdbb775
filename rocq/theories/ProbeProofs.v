From Verif Require Import Base TextModel TextSpec Utf8Proofs ConfigModel SubprocessModel FrontModel FrontSpec FrontProofs
  ProbeModel ProbeSpec.

Lemma success_spec (o : proc_output) : success o = true <-> po_code o = Some 0%Z.
Proof. unfold success. apply bool_decide_eq_true. Qed.

Lemma has_bwrap_spec bwrap : has_bwrap bwrap = true <-> worked bwrap.
Proof.
  unfold has_bwrap, worked, printed. destruct bwrap as [[code out err]|].
  - rewrite success_spec. cbn [po_code]. split; [intros ->; by eexists _, _|]. intros (o & e & [= -> _ _]). done.
  - split; [done|]. by intros (o & e & H).
Qed.

Lemma trim_spec s m : trim s = m <-> trims_to s m.
Proof. split; [intros <-; apply trims_to_trim|apply trims_to_eq]. Qed.
