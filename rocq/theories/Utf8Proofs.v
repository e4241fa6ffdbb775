(** The model of [str::from_utf8] accepts exactly what is UTF-8. *)
From Verif Require Import Base TextModel TextSpec.

Lemma byte_of (n : N) : (n < 256)%N -> N_of_ascii (ascii_of_N n) = n.
Proof. intros H. by apply N_ascii_embedding. Qed.

Lemma of_byte (c : ascii) : ascii_of_N (N_of_ascii c) = c.
Proof. apply ascii_N_embedding. Qed.

Lemma byte_small (c : ascii) : (N_of_ascii c < 256)%N.
Proof. apply N_ascii_bounded. Qed.

Lemma between_spec (lo hi : N) (c : ascii) : between lo hi c = true <-> (lo <= N_of_ascii c <= hi)%N.
Proof. unfold between. by rewrite andb_true_iff, !N.leb_le. Qed.

Lemma is_ascii_spec (c : ascii) : is_ascii c = true <-> (N_of_ascii c < 128)%N.
Proof. unfold is_ascii. by rewrite N.ltb_lt. Qed.

Lemma second_ok_spec (a b : ascii) :
  second_ok a b = true <->
  (128 <= N_of_ascii b <= 191)%N /\
  (N_of_ascii a = 224 -> 160 <= N_of_ascii b)%N /\ (N_of_ascii a = 237 -> N_of_ascii b <= 159)%N /\
  (N_of_ascii a = 240 -> 144 <= N_of_ascii b)%N /\ (N_of_ascii a = 244 -> N_of_ascii b <= 143)%N.
Proof.
  unfold second_ok, is_cont.
  destruct (N.eqb_spec (N_of_ascii a) 224); [rewrite between_spec; lia|].
  destruct (N.eqb_spec (N_of_ascii a) 237); [rewrite between_spec; lia|].
  destruct (N.eqb_spec (N_of_ascii a) 240); [rewrite between_spec; lia|].
  destruct (N.eqb_spec (N_of_ascii a) 244); [rewrite between_spec; lia|].
  rewrite between_spec; lia.
Qed.

(** The four shapes of a character. *)
Definition shape (l : str) : Prop :=
  match map N_of_ascii l with
  | [a] => (a < 128)%N
  | [a; b] => (194 <= a <= 223)%N /\ (128 <= b <= 191)%N
  | [a; b; c] =>
      (224 <= a <= 239)%N /\ (128 <= b <= 191)%N /\ (a = 224 -> 160 <= b)%N /\ (a = 237 -> b <= 159)%N /\
      (128 <= c <= 191)%N
  | [a; b; c; d] =>
      (240 <= a <= 244)%N /\ (128 <= b <= 191)%N /\ (a = 240 -> 144 <= b)%N /\ (a = 244 -> b <= 143)%N /\
      (128 <= c <= 191)%N /\ (128 <= d <= 191)%N
  | _ => False
  end.

Ltac euclid := zify; Z.to_euclidean_division_equations; lia.

Lemma encoded_shape (n : N) : scalar n -> shape (encoded n).
Proof.
  intros [H1 H2]. unfold encoded, shape. repeat case_decide; cbn [map]; rewrite !byte_of by euclid; euclid.
Qed.

Lemma shape_encoded (l : str) : shape l -> exists n, scalar n /\ l = encoded n.
Proof.
  unfold shape. intros H.
  destruct l as [|a [|b [|c [|d [|? ?]]]]]; cbn [map] in H; try done;
    pose proof (of_byte a) as Ea; set (x := N_of_ascii a) in *.
  - exists x. split; [unfold scalar; lia|]. unfold encoded. rewrite decide_True by done. cbn [map]. by rewrite Ea.
  - pose proof (of_byte b) as Eb. set (y := N_of_ascii b) in *. exists ((x - 192) * 64 + (y - 128))%N.
    split; [unfold scalar; lia|]. unfold encoded. rewrite decide_False, decide_True by lia. cbn [map].
    rewrite <- Ea, <- Eb. f_equal; [|f_equal]; f_equal; euclid.
  - pose proof (of_byte b) as Eb. set (y := N_of_ascii b) in *. pose proof (of_byte c) as Ec. set (z := N_of_ascii c) in *.
    exists ((x - 224) * 4096 + (y - 128) * 64 + (z - 128))%N.
    split; [unfold scalar; lia|]. unfold encoded. rewrite decide_False, decide_False, decide_True by lia. cbn [map].
    rewrite <- Ea, <- Eb, <- Ec. f_equal; [|f_equal; [|f_equal]]; f_equal; euclid.
  - pose proof (of_byte b) as Eb. set (y := N_of_ascii b) in *. pose proof (of_byte c) as Ec. set (z := N_of_ascii c) in *.
    pose proof (of_byte d) as Ed. set (w := N_of_ascii d) in *.
    exists ((x - 240) * 262144 + (y - 128) * 4096 + (z - 128) * 64 + (w - 128))%N.
    split; [unfold scalar; lia|]. unfold encoded. rewrite decide_False, decide_False, decide_False by lia. cbn [map].
    rewrite <- Ea, <- Eb, <- Ec, <- Ed. f_equal; [|f_equal; [|f_equal; [|f_equal]]]; f_equal; euclid.
Qed.

Lemma valid_shape (l s : str) : shape l -> utf8_valid (l ++ s) = utf8_valid s.
Proof.
  unfold shape. intros H. assert (Hna : forall a, ~ (N_of_ascii a < 128)%N -> is_ascii a = false).
  { intros a Ha. apply not_true_is_false. by rewrite is_ascii_spec. }
  assert (Hnb : forall lo hi a, ~ (lo <= N_of_ascii a <= hi)%N -> between lo hi a = false).
  { intros lo hi a Ha. apply not_true_is_false. by rewrite between_spec. }
  assert (Hyb : forall lo hi a, (lo <= N_of_ascii a <= hi)%N -> between lo hi a = true) by (intros; by apply between_spec).
  destruct l as [|a [|b [|c [|d [|? ?]]]]]; cbn [map] in H; try done; cbn [app utf8_valid].
  - by rewrite (proj2 (is_ascii_spec a) H).
  - rewrite Hna, Hyb by lia. unfold is_cont. by rewrite Hyb by lia.
  - rewrite Hna, Hnb, Hyb by lia. unfold is_cont. rewrite (Hyb 128%N 191%N c) by lia.
    rewrite (proj2 (second_ok_spec a b)) by lia. done.
  - rewrite Hna, (Hnb 194%N), (Hnb 224%N), (Hyb 240%N) by lia. unfold is_cont. rewrite (Hyb 128%N 191%N c), (Hyb 128%N 191%N d) by lia.
    rewrite (proj2 (second_ok_spec a b)) by lia. done.
Qed.

Lemma valid_cut (s : str) (H : utf8_valid s = true) : s = [] \/ exists l s', shape l /\ s = l ++ s' /\ utf8_valid s' = true.
Proof.
  destruct s as [|a s1]; [by left|]. right. cbn [utf8_valid] in H.
  destruct (is_ascii a) eqn:Ea.
  { apply is_ascii_spec in Ea. by exists [a], s1. }
  assert (~ (N_of_ascii a < 128)%N) as Ha by (rewrite <- is_ascii_spec; by rewrite Ea).
  destruct s1 as [|b s2]; [done|]. destruct (between 194 223 a) eqn:E1.
  { apply andb_true_iff in H as [Hb H]. apply between_spec in E1, Hb. by exists [a; b], s2. }
  destruct s2 as [|c s3]; [done|]. destruct (between 224 239 a) eqn:E2.
  { apply andb_true_iff in H as [[Hb Hc]%andb_true_iff H]. apply between_spec in E2, Hc. apply second_ok_spec in Hb.
    exists [a; b; c], s3. split; [|done]. unfold shape. cbn [map]. lia. }
  destruct s3 as [|d s4]; [done|].
  repeat (apply andb_true_iff in H as [H ?]). exists [a; b; c; d], s4. split; [|done].
  repeat match goal with
  | H : between _ _ _ = true |- _ => apply between_spec in H
  | H : is_cont _ = true |- _ => apply between_spec in H
  | H : second_ok _ _ = true |- _ => apply second_ok_spec in H
  end. apply N.leb_le in H. match goal with H : N.leb _ _ = true |- _ => apply N.leb_le in H end.
  unfold shape. cbn [map]. lia.
Qed.

Lemma utf8_valid_spec (s : str) : utf8_valid s = true <-> is_utf8 s.
Proof.
  split.
  - remember (length s) as n eqn:En. revert s En. induction (lt_wf n) as [n _ IH]. intros s -> H.
    destruct (valid_cut s H) as [->|(l & s' & Hl & -> & Hs)]; [by exists []|].
    destruct (shape_encoded l Hl) as (c & Hc & ->).
    assert (0 < length (encoded c)).
    { apply encoded_shape in Hc. unfold shape in Hc. destruct (encoded c); [done|cbn; lia]. }
    destruct (IH (length s')) with (s := s') as (cs & Hcs & ->); [rewrite app_length; lia|done|done|].
    exists (c :: cs). split; [by constructor|done].
  - intros (cs & H & ->). induction H as [|c cs Hc _ IH]; [done|]. cbn [map concat].
    rewrite valid_shape by (by apply encoded_shape). exact IH.
Qed.

Lemma utf8_invalid_spec (s : str) : utf8_valid s = false <-> ~ is_utf8 s.
Proof. rewrite <- utf8_valid_spec. by destruct (utf8_valid s). Qed.
