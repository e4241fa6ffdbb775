(** Facts about boxes over the screen. *)
From Coq Require Import NArith.
From Verif Require Import Base PopupModel PopupSpec.

Lemma longest_le (l : list str) (n : nat) : Forall (fun s : str => length s <= n) l <-> longest l <= n.
Proof.
  unfold longest. induction l as [|s l IH]; cbn; [split; [lia|constructor]|].
  rewrite Forall_cons, IH. lia.
Qed.

Lemma as_u16_small (n : nat) : (N.of_nat n < 65536)%N -> as_u16 n = n.
Proof. intros H. unfold as_u16. rewrite N.mod_small by done. lia. Qed.

Lemma as_u16_le (n : nat) : as_u16 n <= n.
Proof. unfold as_u16. pose proof (N.mod_le (N.of_nat n) 65536). lia. Qed.

Lemma concat_alone (wrap : nat -> str -> list str) (w : nat) (lines : list str) :
  breaks_lines wrap -> 0 < w -> Forall (fun s : str => length s <= w) lines ->
  concat (map (wrap w) lines) = lines.
Proof.
  intros Hw Hp. induction 1 as [|s l Hs _ IH]; [done|]. cbn. rewrite IH.
  destruct (Hw w s Hp) as (_ & _ & ->); done.
Qed.

Lemma broken_chars (line : str) (rows : list str) (c : ascii) (r : str) :
  broken line rows -> r ∈ rows -> c ∈ r -> c ∈ line.
Proof.
  induction 1 as [r'|r' rest rows H IH|r' rest rows H IH]; intros Hr Hc.
  - apply elem_of_list_singleton in Hr. by subst.
  - apply elem_of_app. apply elem_of_cons in Hr as [->|Hr]; [by left|right; auto].
  - apply elem_of_app. apply elem_of_cons in Hr as [->|Hr]; [by left|right]. apply elem_of_list_further. auto.
Qed.

Lemma broken_two (line : str) (rows : list str) (w : nat) :
  broken line rows -> Forall (fun r : str => length r <= w) rows -> w < length line -> 2 <= length rows.
Proof.
  destruct 1 as [r|r rest rows H|r rest rows H]; intros Hf Hl; cbn.
  - apply Forall_cons in Hf as [? _]. lia.
  - destruct H; cbn; lia.
  - destruct H; cbn; lia.
Qed.
