From Verif Require Import Base BaseFacts TextModel.

Lemma between_spec lo hi c :
  between lo hi c = true <-> (lo <= N_of_ascii c)%N /\ (N_of_ascii c <= hi)%N.
Proof. unfold between. rewrite andb_true_iff, N.leb_le, N.leb_le. done. Qed.

Lemma ascii_not_cont c : is_ascii c = true -> is_cont c = false.
Proof.
  unfold is_ascii, is_cont. rewrite N.ltb_lt. intros H.
  destruct (between 128 191 c) eqn:E; [|done]. apply between_spec in E. lia.
Qed.

Lemma second_cont a b : second_ok a b = true -> is_cont b = true.
Proof.
  unfold second_ok, is_cont. repeat case_match; rewrite ?between_spec; intros; try lia.
Qed.

(** The bytes of one character. *)
Definition uchar (u : str) : Prop :=
  (exists a, u = [a] /\ is_ascii a = true) \/
  (exists a bs, u = a :: bs /\ bs <> [] /\ is_ascii a = false /\ is_cont a = false /\
     Forall (fun b => is_cont b = true) bs).

Lemma lead_not_cont a lo hi : (192 <= lo)%N -> between lo hi a = true -> is_cont a = false.
Proof.
  intros Hlo [H1 H2]%between_spec. unfold is_cont.
  destruct (between 128 191 a) eqn:E; [|done]. apply between_spec in E. lia.
Qed.

Lemma utf8_valid_cons s :
  utf8_valid s = true ->
  s = [] \/ exists u s', s = u ++ s' /\ uchar u /\ utf8_valid s' = true /\
    forall t, utf8_valid (u ++ t) = utf8_valid t.
Proof.
  destruct s as [|a s1]; [by left|]. intros H. right. cbn [utf8_valid] in H.
  destruct (is_ascii a) eqn:Ea.
  { exists [a], s1. split; [done|]. split; [left; eauto|]. split; [done|]. intros t. cbn.
    by rewrite Ea. }
  destruct s1 as [|b s2]; [done|]. destruct (between 194 223 a) eqn:E2.
  { apply andb_true_iff in H as [Hb H]. exists [a; b], s2. split; [done|]. split.
    - right. exists a, [b]. split_and!; try done; [by eapply lead_not_cont; [|exact E2]|].
      by constructor.
    - split; [done|]. intros t. cbn. by rewrite Ea, E2, Hb. }
  destruct s2 as [|c s3]; [done|]. destruct (between 224 239 a) eqn:E3.
  { apply andb_true_iff in H as [[Hb Hc]%andb_true_iff H]. exists [a; b; c], s3.
    split; [done|]. split.
    - right. exists a, [b; c]. split_and!; try done; [by eapply lead_not_cont; [|exact E3]|].
      repeat constructor; [by eapply second_cont|done].
    - split; [done|]. intros t. cbn. by rewrite Ea, E2, E3, Hb, Hc. }
  destruct s3 as [|d s4]; [done|].
  apply andb_true_iff in H as [[[[E4 Hb]%andb_true_iff Hc]%andb_true_iff Hd]%andb_true_iff H].
  exists [a; b; c; d], s4. split; [done|]. split.
  - right. exists a, [b; c; d]. split_and!; try done; [by eapply lead_not_cont; [|exact E4]|].
    repeat constructor; [by eapply second_cont|done..].
  - split; [done|]. intros t. cbn. by rewrite Ea, E2, E3, E4, Hb, Hc, Hd.
Qed.

Lemma uchar_length u : uchar u -> 0 < length u.
Proof. intros [(a & -> & _)|(a & bs & -> & _)]; cbn; lia. Qed.

(** Induction over the characters of a valid text. *)
Lemma utf8_ind (P : str -> Prop) :
  P [] ->
  (forall u s, uchar u -> utf8_valid s = true -> (forall t, utf8_valid (u ++ t) = utf8_valid t) ->
     P s -> P (u ++ s)) ->
  forall s, utf8_valid s = true -> P s.
Proof.
  intros H0 HS s. remember (length s) as n eqn:Hn. assert (Hle : length s <= n) by lia.
  clear Hn. revert s Hle. induction n as [|n IH]; intros s Hle Hv.
  - by destruct s; [|cbn in Hle; lia].
  - destruct (utf8_valid_cons s Hv) as [->|(u & s' & -> & Hu & Hv' & Ht)]; [done|].
    apply HS; try done. apply IH; [|done]. apply uchar_length in Hu.
    rewrite app_length in Hle. lia.
Qed.

Lemma utf8_valid_app x y : utf8_valid x = true -> utf8_valid (x ++ y) = utf8_valid y.
Proof.
  revert x. apply (utf8_ind (fun x => utf8_valid (x ++ y) = utf8_valid y)); [done|].
  intros u s _ _ Ht IH. by rewrite <- app_assoc, Ht.
Qed.

Lemma utf8_first a s : utf8_valid (a :: s) = true -> is_cont a = false.
Proof.
  intros [?|(u & s' & Heq & Hu & _)]%utf8_valid_cons; [done|].
  destruct Hu as [(b & -> & Hb)|(b & bs & -> & _ & _ & Hb & _)]; cbn in Heq; injection Heq as -> _.
  - by apply ascii_not_cont.
  - done.
Qed.

Lemma uchar_ascii u a : uchar u -> a ∈ u -> is_ascii a = true -> u = [a].
Proof.
  intros [(b & -> & Hb)|(b & bs & -> & _ & Hb & _ & Hall)] Hin Ha.
  - by apply elem_of_list_singleton in Hin as ->.
  - apply elem_of_cons in Hin as [->|Hin]; [congruence|].
    pose proof (proj1 (Forall_forall _ _) Hall a Hin) as Hc. cbn in Hc.
    apply ascii_not_cont in Ha. congruence.
Qed.

Lemma utf8_split x a y :
  is_ascii a = true -> utf8_valid (x ++ a :: y) = true ->
  utf8_valid x = true /\ utf8_valid y = true.
Proof.
  intros Ha Hv. remember (x ++ a :: y) as s eqn:Hs. revert x Hs. revert s Hv.
  apply (utf8_ind (fun s => forall x, s = x ++ a :: y -> utf8_valid x = true /\ utf8_valid y = true)).
  - intros [|? ?]; done.
  - intros u s Hu Hv Ht IH x Heq.
    destruct (app_eq_inv _ _ _ _ Heq) as [(k & Hk & Hy)|(k & -> & Hk)].
    + destruct k as [|b k].
      * rewrite app_nil_r in Hk. subst x. cbn in Hy. subst s. split.
        -- rewrite <- (app_nil_r u), Ht. done.
        -- cbn in Hv. by rewrite Ha in Hv.
      * cbn in Hy. injection Hy as <- Hy.
        assert (Hua : u = [a]).
        { apply uchar_ascii; [done| |done]. rewrite Hk. apply elem_of_app. right. left. }
        rewrite Hua in Hk. destruct x as [|c x].
        -- cbn in Hk. injection Hk as Hk. subst k. cbn in Hy. subst y. done.
        -- cbn in Hk. injection Hk as _ Hk. by destruct x.
    + destruct (IH k Hk) as [Hk1 Hk2]. split; [|done]. by rewrite Ht.
Qed.

Lemma utf8_ascii1 a : is_ascii a = true -> utf8_valid [a] = true.
Proof. intros H. cbn. by rewrite H. Qed.

Lemma utf8_snoc x a : is_ascii a = true -> utf8_valid x = true -> utf8_valid (x ++ [a]) = true.
Proof. intros Ha Hx. rewrite utf8_valid_app by done. by apply utf8_ascii1. Qed.

(** Cutting a valid text after an ASCII character is at a character boundary. *)
Lemma boundary_after x a y :
  is_ascii a = true -> utf8_valid (x ++ a :: y) = true -> boundary (x ++ a :: y) (S (length x)) = true.
Proof.
  intros Ha Hv. destruct (utf8_split _ _ _ Ha Hv) as [_ Hy]. unfold boundary. cbn.
  rewrite lookup_app_r by lia. replace (S (length x) - length x) with 1 by lia. cbn.
  destruct y as [|c y]; cbn.
  - rewrite app_length. cbn. replace (length x + 1) with (S (length x)) by lia. apply Nat.eqb_refl.
  - by rewrite (utf8_first _ _ Hy).
Qed.

(** Cutting before an ASCII character needs no assumption on the rest. *)
Lemma boundary_before x a y : is_ascii a = true -> boundary (x ++ a :: y) (length x) = true.
Proof.
  intros Ha. unfold boundary. destruct (length x) eqn:E; [done|]. cbn. rewrite <- E.
  rewrite list_lookup_middle by done. by rewrite ascii_not_cont.
Qed.

Lemma slice_to_app x y : boundary (x ++ y) (length x) = true -> slice_to (x ++ y) (length x) = Some x.
Proof. intros H. unfold slice_to. rewrite H. by rewrite take_app. Qed.

Lemma slice_to_some s n p : slice_to s n = Some p -> p = take n s.
Proof. unfold slice_to. case_match; congruence. Qed.

(** ** Lines *)

Lemma str_lines_lf l t :
  nl ∉ l -> last l <> Some cr -> str_lines (l ++ nl :: t) = l :: str_lines t.
Proof.
  induction l as [|a l IH]; intros Hnl Hlast.
  - cbn [app]. cbn [str_lines]. by rewrite Ascii.eqb_refl.
  - apply not_elem_of_cons in Hnl as [Ha Hnl].
    assert (Han : Ascii.eqb a nl = false) by (apply Ascii.eqb_neq; congruence).
    destruct l as [|b l].
    + cbn [app str_lines]. rewrite Han, Ascii.eqb_refl.
      assert (Hac : Ascii.eqb a cr = false).
      { apply Ascii.eqb_neq. intros ->. done. }
      by rewrite Hac.
    + assert (Hbn : Ascii.eqb b nl = false).
      { apply Ascii.eqb_neq. intros ->. apply Hnl. left. }
      specialize (IH Hnl Hlast).
      change ((a :: b :: l) ++ nl :: t) with (a :: (b :: l) ++ nl :: t).
      cbn [str_lines]. rewrite Han. cbn [app]. rewrite Hbn, andb_false_r.
      change (b :: l ++ nl :: t) with ((b :: l) ++ nl :: t). by rewrite IH.
Qed.

Lemma str_lines_crlf l t :
  nl ∉ l -> str_lines (l ++ cr :: nl :: t) = l :: str_lines t.
Proof.
  induction l as [|a l IH]; intros Hnl; [done|].
  apply not_elem_of_cons in Hnl as [Ha Hnl].
  assert (Han : Ascii.eqb a nl = false) by (apply Ascii.eqb_neq; congruence).
  specialize (IH Hnl).
  change ((a :: l) ++ cr :: nl :: t) with (a :: l ++ cr :: nl :: t).
  cbn [str_lines]. rewrite Han, IH. destruct l as [|b l]; cbn [app].
  - by rewrite andb_false_r.
  - assert (Hbn : Ascii.eqb b nl = false).
    { apply Ascii.eqb_neq. intros ->. apply Hnl. left. }
    by rewrite Hbn, andb_false_r.
Qed.

Lemma str_lines_end l : l <> [] -> nl ∉ l -> str_lines l = [l].
Proof.
  induction l as [|a l IH]; intros Hne Hnl; [done|].
  apply not_elem_of_cons in Hnl as [Ha Hnl].
  assert (Han : Ascii.eqb a nl = false) by (apply Ascii.eqb_neq; congruence).
  cbn [str_lines]. rewrite Han. destruct l as [|b l]; [done|].
  assert (Hbn : Ascii.eqb b nl = false).
  { apply Ascii.eqb_neq. intros ->. apply Hnl. left. }
  rewrite Hbn, andb_false_r. by rewrite IH.
Qed.
