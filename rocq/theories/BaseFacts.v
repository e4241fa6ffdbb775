(** Lemmas about Base.v. *)
From Verif Require Import Base.

Lemma ascii_eqb_spec a b : Ascii.eqb a b = true <-> a = b.
Proof. apply Ascii.eqb_eq. Qed.

Lemma ascii_eqb_false a b : Ascii.eqb a b = false <-> a <> b.
Proof. apply Ascii.eqb_neq. Qed.

Lemma starts_with_spec p s : starts_with p s = true <-> p `prefix_of` s.
Proof.
  revert s. induction p as [|a p IH]; intros s; cbn.
  - split; auto using prefix_nil.
  - destruct s as [|b s].
    + split; [done|]. intros H. by apply prefix_nil_not in H.
    + destruct (Ascii.eqb a b) eqn:E.
      * apply ascii_eqb_spec in E as ->. rewrite IH. split.
        -- apply prefix_cons.
        -- apply prefix_cons_inv_2.
      * apply ascii_eqb_false in E. split; [done|].
        intros H. by apply prefix_cons_inv_1 in H.
Qed.

Lemma strip_prefix_spec p s r : strip_prefix p s = Some r <-> s = p ++ r.
Proof.
  revert s. induction p as [|a p IH]; intros s; cbn.
  - split; congruence.
  - destruct s as [|b s]; [split; done|].
    destruct (Ascii.eqb a b) eqn:E.
    + apply ascii_eqb_spec in E as ->. rewrite IH. split; congruence.
    + apply ascii_eqb_false in E. split; [done|congruence].
Qed.

Lemma strip_prefix_app p r : strip_prefix p (p ++ r) = Some r.
Proof. by apply strip_prefix_spec. Qed.

Lemma strip_prefix_None p s : strip_prefix p s = None <-> starts_with p s = false.
Proof.
  destruct (strip_prefix p s) as [r|] eqn:E.
  - apply strip_prefix_spec in E as ->. split; [done|].
    intros H. assert (starts_with p (p ++ r) = true) as H2.
    { apply starts_with_spec. by exists r. }
    congruence.
  - split; [|done]. intros _.
    destruct (starts_with p s) eqn:E2; [|done].
    apply starts_with_spec in E2 as [k ->].
    by rewrite strip_prefix_app in E.
Qed.

Lemma split_char_nonempty c s : split_char c s <> [].
Proof.
  destruct s as [|a s]; cbn; [done|].
  destruct (Ascii.eqb a c); [done|]. destruct (split_char c s); done.
Qed.

Lemma join_split_char c s : join [c] (split_char c s) = s.
Proof.
  induction s as [|a s IH]; cbn; [done|].
  destruct (Ascii.eqb a c) eqn:E.
  - apply ascii_eqb_spec in E as ->.
    destruct (split_char c s) eqn:E2; [by apply split_char_nonempty in E2|].
    cbn in *. by rewrite IH.
  - destruct (split_char c s) as [|p ps] eqn:E2; [by apply split_char_nonempty in E2|].
    destruct ps; cbn in *; by rewrite IH.
Qed.

Lemma split_char_no c s p : p ∈ split_char c s -> c ∉ p.
Proof.
  revert p. induction s as [|a s IH]; cbn; intros p.
  - rewrite elem_of_list_singleton. intros ->. apply not_elem_of_nil.
  - destruct (Ascii.eqb a c) eqn:E.
    + rewrite elem_of_cons. intros [->|H]; [apply not_elem_of_nil|auto].
    + apply ascii_eqb_false in E.
      destruct (split_char c s) as [|q qs] eqn:E2.
      { by apply split_char_nonempty in E2. }
      rewrite elem_of_cons. intros [->|H].
      * rewrite not_elem_of_cons. split; [congruence|].
        apply IH. left.
      * apply IH. by right.
Qed.

Lemma split_char_none c s : c ∉ s -> split_char c s = [s].
Proof.
  induction s as [|a s IH]; cbn; [done|].
  rewrite not_elem_of_cons. intros [H1 H2].
  destruct (Ascii.eqb a c) eqn:E.
  - apply ascii_eqb_spec in E. congruence.
  - by rewrite IH.
Qed.

Lemma split_char_app c x y :
  c ∉ x -> split_char c (x ++ c :: y) = x :: split_char c y.
Proof.
  induction x as [|a x IH]; cbn; intros H.
  - by rewrite Ascii.eqb_refl.
  - apply not_elem_of_cons in H as [H1 H2].
    destruct (Ascii.eqb a c) eqn:E.
    + apply ascii_eqb_spec in E. congruence.
    + by rewrite IH.
Qed.

Lemma split_join c l :
  l <> [] -> (forall x, x ∈ l -> c ∉ x) -> split_char c (join [c] l) = l.
Proof.
  induction l as [|x l IH]; [done|]. intros _ H.
  destruct l as [|y l].
  - cbn. apply split_char_none. apply H. left.
  - change (split_char c (x ++ c :: join [c] (y :: l)) = x :: y :: l).
    rewrite (split_char_app c x) by (apply H; left).
    f_equal. apply IH; [done|]. intros z Hz. apply H. by right.
Qed.

Lemma has_char_spec c s : has_char c s = true <-> c ∈ s.
Proof.
  induction s as [|a s IH]; cbn.
  - split; [done|]. by intros H%elem_of_nil.
  - rewrite elem_of_cons. destruct (Ascii.eqb a c) eqn:E.
    + apply ascii_eqb_spec in E. split; auto.
    + apply ascii_eqb_false in E. rewrite IH. naive_solver.
Qed.

Lemma split_once_spec c s x y :
  split_once c s = Some (x, y) <-> s = x ++ c :: y /\ c ∉ x.
Proof.
  revert x y. induction s as [|a s IH]; cbn; intros x y.
  - split; [done|]. intros [H _]. by destruct x.
  - destruct (Ascii.eqb a c) eqn:E.
    + apply ascii_eqb_spec in E as ->. split.
      * intros [= <- <-]. split; [done|apply not_elem_of_nil].
      * intros [H Hn]. destruct x as [|b x]; cbn in *; [congruence|].
        injection H as -> _. by destruct Hn; left.
    + apply ascii_eqb_false in E.
      destruct (split_once c s) as [[x' y']|] eqn:E2.
      * split.
        -- intros [= <- <-]. destruct (proj1 (IH x' y') eq_refl) as [-> Hn].
           split; [done|]. rewrite not_elem_of_cons. split; [congruence|done].
        -- intros [H Hn]. destruct x as [|b x]; cbn in *; [congruence|].
           injection H as <- H. apply not_elem_of_cons in Hn as [_ Hn].
           assert (IH3 := proj2 (IH x y) (conj H Hn)).
           congruence.
      * split; [done|]. intros [H Hn].
        destruct x as [|b x]; cbn in *; [congruence|].
        injection H as <- H. apply not_elem_of_cons in Hn as [_ Hn].
        assert (IH3 := proj2 (IH x y) (conj H Hn)).
        congruence.
Qed.

Lemma split_once_None c s : split_once c s = None <-> c ∉ s.
Proof.
  induction s as [|a s IH]; cbn.
  - split; [intros _; apply not_elem_of_nil|done].
  - rewrite not_elem_of_cons. destruct (Ascii.eqb a c) eqn:E.
    + apply ascii_eqb_spec in E. split; [done|]. intros []. congruence.
    + apply ascii_eqb_false in E. destruct (split_once c s) as [[]|].
      * destruct IH as [_ IH]. split; [done|]. intros [_ H]. by apply IH in H.
      * split; [|done]. intros _. split; [congruence|]. by apply IH.
Qed.

Lemma str_eqb_spec a b : str_eqb a b = true <-> a = b.
Proof. unfold str_eqb. apply bool_decide_eq_true. Qed.

Lemma mem_str_spec x l : mem_str x l = true <-> x ∈ l.
Proof. unfold mem_str. apply bool_decide_eq_true. Qed.
