From Verif Require Import Base BaseFacts TextModel TextFacts DemangleModel DemangleSpec DemangleProofs
  TextSpec Utf8Proofs NamesModel NamesSpec BuildScriptSpec BuildScriptProofs.

(** ** Termination *)

Definition measure (rest : list dtoken) (st : names_state) : nat :=
  2 * length rest + match st with NOutput => 1 | _ => 0 end.

Definition not_skip (st : names_state) : Prop := match st with NSkip _ _ => False | _ => True end.

Lemma names_next_shrinks rest st d f k :
  length rest <= k -> (match st with NSkip _ rp => length rp <= k | _ => True end) ->
  match names_next rest st d f with
  | (None, _) => True
  | (Some (NError _), _) => True
  | (Some _, p) => not_skip (np_state p) /\
      (measure (np_rest p) (np_state p) <= 2 * k + 1) /\
      (not_skip st -> measure (np_rest p) (np_state p) < measure rest st)
  end.
Proof.
  remember (length rest) as m eqn:Hm. revert rest st d f k Hm.
  induction m as [m IH] using lt_wf_ind; intros rest st d f k -> Hk Hst.
  destruct rest as [|[text|ch|esc] rest1]; cbn [names_next].
  - destruct st; try done. cbn. split; [done|]. lia.
  - cbn [length] in *.
    assert (Hrec : forall st', (match st' with NSkip _ rp => length rp <= k | _ => True end) ->
      (not_skip st -> not_skip st' /\ measure rest1 st' <= measure rest1 st) ->
      match names_next rest1 st' d f with
      | (None, _) => True
      | (Some (NError _), _) => True
      | (Some _, p) => not_skip (np_state p) /\ (measure (np_rest p) (np_state p) <= 2 * k + 1) /\
          (not_skip st -> measure (np_rest p) (np_state p) < measure (TText text :: rest1) st)
      end).
    { intros st' Hst' Hns. pose proof (IH (length rest1) ltac:(lia) rest1 st' d f k eq_refl ltac:(lia) Hst') as H.
      destruct (names_next rest1 st' d f) as [[[s| |e]|] p]; try done.
      all: destruct H as (H1 & H2 & H3); split; [done|]; split; [done|];
        intros Hn; destruct (Hns Hn) as [Hn' Hle]; specialize (H3 Hn'); unfold measure in *; cbn [length]; lia. }
    destruct (str_eqb text (lit "mut")); [by apply Hrec|].
    destruct (Z.ltb 0 d); [by apply Hrec|].
    destruct (parses_i64 text); [by apply Hrec|]. cbv zeta.
    assert (Hord : match
      (if match f with Some (t, at_) => str_eqb t text && Nat.eqb at_ (length rest1) | None => false end
       then names_next rest1 st d f
       else if is_hash text && match rest1 with [] => true | _ => false end
       then names_next rest1 st d f
       else match st with
            | NInactive => (Some (NPart text), NamesPos rest1 NOutput d f false)
            | NSkip _ _ => names_next rest1 st d f
            | _ => (Some (NPart text), NamesPos rest1 st d f false)
            end) with
      | (None, _) => True
      | (Some (NError _), _) => True
      | (Some _, p) => not_skip (np_state p) /\ (measure (np_rest p) (np_state p) <= 2 * k + 1) /\
          (not_skip st -> measure (np_rest p) (np_state p) < measure (TText text :: rest1) st)
      end).
    { destruct (match f with Some (t, at_) => _ | None => false end); [by apply Hrec|].
      destruct (is_hash text && _); [by apply Hrec|].
      destruct st as [| | |g rp]; [| | |by apply Hrec].
      all: unfold measure; cbn [np_state np_rest not_skip length]; split; [done|]; split; lia. }
    destruct (str_eqb text (lit "as")); [|exact Hord].
    destruct rest1 as [|[t2|ch|e2] rest2]; try exact Hord.
    destruct (N.eqb ch 32); [|exact Hord].
    pose proof (IH (length rest2) ltac:(cbn; lia) rest2 NPrefix d f k eq_refl ltac:(cbn in Hk; lia) I) as H.
    destruct (names_next rest2 NPrefix d f) as [[[s| |e]|] p]; try done.
    all: destruct H as (H1 & H2 & H3); split; [done|]; split; [done|]; intros _; specialize (H3 I);
      unfold measure in *; cbn [length]; lia.
  - cbn [length] in *. cbv zeta.
    set (st1 := match st with NPrefix => NSkip 1 rest1 | _ => st end).
    set (st2 := match st1 with NSkip gt rp => NSkip (gt + angle_change ch) rp | _ => st1 end).
    assert (Hst2 : match st2 with NSkip _ rp => length rp <= k /\ (not_skip st -> length rp <= length rest1)
                   | _ => st2 = st end).
    { unfold st2, st1. destruct st as [| | |g rp]; cbn; try done. split; [lia|done]. }
    destruct st2 as [| | |gt rp] eqn:E2.
    + subst st. pose proof (IH (length rest1) ltac:(lia) rest1 NInactive (d + brace_change ch)%Z f k eq_refl ltac:(lia) I) as H.
      destruct (names_next _ _ _ _) as [[[s| |e]|] p]; try done.
      all: destruct H as (H1 & H2 & H3); split; [done|]; split; [done|]; intros _; specialize (H3 I);
        unfold measure in *; cbn [length]; lia.
    + subst st. unfold measure. cbn. split; [done|]. lia.
    + subst st. unfold st2, st1 in E2. done.
    + destruct Hst2 as [Hrp Hrp2]. destruct (Z.eqb gt 0).
      * destruct rest1 as [|[t2|c2|e2] rest2]; unfold measure; cbn [np_state np_rest not_skip length] in *;
          (split; [done|]; split; [lia|]; intros Hn; specialize (Hrp2 Hn)); destruct st; try done; lia.
      * pose proof (IH (length rest1) ltac:(lia) rest1 (NSkip gt rp) (d + brace_change ch)%Z f k eq_refl ltac:(lia) Hrp) as H.
        pose proof (fun Hn => IH (length rest1) ltac:(lia) rest1 (NSkip gt rp) (d + brace_change ch)%Z f (length rest1) eq_refl ltac:(lia) (Hrp2 Hn)) as H'.
        destruct (names_next _ _ _ _) as [[[s| |e]|] p]; try done.
        all: destruct H as (H1 & H2 & _); split; [done|]; split; [done|]; intros Hn;
          destruct (H' Hn) as (_ & H3 & _); unfold measure at 2; cbn [length]; lia.
  - done.
Qed.

Lemma find_names_ends n p :
  not_skip (np_state p) -> measure (np_rest p) (np_state p) < n -> find_names n p <> OutOfCalls.
Proof.
  revert p. induction n as [|n IH]; intros p Hp Hn; [lia|]. cbn [find_names]. unfold pos_next.
  pose proof (names_next_shrinks (np_rest p) (np_state p) (np_depth p) (np_final p) (length (np_rest p)) ltac:(lia)) as H.
  assert (Hst : match np_state p with NSkip _ rp => length rp <= length (np_rest p) | _ => True end).
  { by destruct (np_state p). }
  specialize (H Hst).
  destruct (names_next _ _ _ _) as [[[s| |e]|] p']; try done.
  - destruct H as (H1 & _ & H3). specialize (H3 Hp). specialize (IH p' H1 ltac:(lia)).
    destruct (find_names n p') as [[|nm nms] u er|]; done.
  - destruct H as (H1 & _ & H3). specialize (H3 Hp). specialize (IH p' H1 ltac:(lia)).
    by destruct (find_names n p').
Qed.

Lemma names_of_ends ts : names_of ts <> OutOfCalls.
Proof. apply find_names_ends; [done|]. unfold measure. cbn. lia. Qed.

Lemma find_names_more n m p :
  find_names n p <> OutOfCalls -> n <= m -> find_names m p = find_names n p.
Proof.
  revert m p. induction n as [|n IH]; intros m p H Hm; [done|]. destruct m as [|m]; [lia|].
  cbn [find_names] in *. destruct (pos_next p) as [[[s| |e]|] p']; try done.
  - destruct (find_names n p') as [nms u er|] eqn:E; [|done]. rewrite (IH m p') by (lia || congruence).
    by rewrite E.
  - destruct (find_names n p') as [nms u er|] eqn:E; [|done]. rewrite (IH m p') by (lia || congruence).
    by rewrite E.
Qed.

(** What will be found from a position. *)
Definition finds (p : names_pos) (ns : list (list str)) (u : list str) (e : option str) : Prop :=
  exists n, find_names n p = Found ns u e.

Lemma finds_names_of ts ns u e : finds (names_new ts) ns u e -> names_of ts = Found ns u e.
Proof.
  intros [n Hn]. pose proof (names_of_ends ts) as He. unfold names_of in *.
  set (k := 2 * length ts + 2) in *.
  rewrite <- (find_names_more k (k `max` n) (names_new ts)) by (done || lia).
  rewrite (find_names_more n (k `max` n) (names_new ts)) by (lia || congruence). done.
Qed.

Lemma finds_part p s p' name ns u e :
  pos_next p = (Some (NPart s), p') -> finds p' (name :: ns) u e -> finds p ((s :: name) :: ns) u e.
Proof. intros H [n Hn]. exists (S n). cbn [find_names]. by rewrite H, Hn. Qed.

Lemma finds_end p p' ns u e :
  pos_next p = (Some NEnd, p') -> finds p' ns u e -> finds p ([] :: ns) u e.
Proof. intros H [n Hn]. exists (S n). cbn [find_names]. by rewrite H, Hn. Qed.

Lemma finds_stop p p' : pos_next p = (None, p') -> finds p [] [] None.
Proof. intros H. exists 1. cbn [find_names]. by rewrite H. Qed.

Lemma finds_same p p' ns u e : pos_next p = pos_next p' -> finds p' ns u e -> finds p ns u e.
Proof. intros H [[|n] Hn]; [done|]. exists (S n). cbn [find_names] in *. by rewrite H. Qed.

(** ** Every part is a text *)

Definition texts_of (ts : list dtoken) : list str := omap (fun t => match t with TText s => Some s | _ => None end) ts.

Lemma texts_of_spec s ts : s ∈ texts_of ts <-> TText s ∈ ts.
Proof.
  unfold texts_of. rewrite elem_of_list_omap. split.
  - intros ([t|c|e] & Hin & [= ->]). done.
  - intros H. by exists (TText s).
Qed.

Definition from (all : list dtoken) (st : names_state) : Prop :=
  match st with NSkip _ rp => rp ⊆ all | _ => True end.

Lemma names_next_from all rest st d f :
  rest ⊆ all -> from all st ->
  match names_next rest st d f with
  | (r, p) => np_rest p ⊆ all /\ from all (np_state p) /\ match r with Some (NPart s) => TText s ∈ all | _ => True end
  end.
Proof.
  remember (length rest) as m eqn:Hm. revert rest st d f Hm.
  induction m as [m IH] using lt_wf_ind; intros rest st d f -> Hsub Hst.
  destruct rest as [|[text|ch|esc] rest1]; cbn [names_next].
  - destruct st; cbn; done.
  - assert (Hin : TText text ∈ all) by (apply Hsub; left).
    assert (Hsub1 : rest1 ⊆ all) by (intros x Hx; apply Hsub; by right).
    assert (Hrec : match names_next rest1 st d f with
      | (r, p) => np_rest p ⊆ all /\ from all (np_state p) /\ match r with Some (NPart s) => TText s ∈ all | _ => True end
      end) by (by apply (IH (length rest1)); [cbn; lia| | |]).
    destruct (str_eqb text (lit "mut")); [exact Hrec|].
    destruct (Z.ltb 0 d); [exact Hrec|].
    destruct (parses_i64 text); [exact Hrec|]. cbv zeta.
    set (ordinary := if match f with Some (t, at_) => _ | None => false end then _ else _).
    assert (Hord : match ordinary with
      | (r, p) => np_rest p ⊆ all /\ from all (np_state p) /\ match r with Some (NPart s) => TText s ∈ all | _ => True end
      end).
    { unfold ordinary. destruct (match f with Some (t, at_) => _ | None => false end); [exact Hrec|].
      destruct (is_hash text && _); [exact Hrec|].
      destruct st as [| | |g rp]; [done|done|done|exact Hrec]. }
    destruct (str_eqb text (lit "as")); [|exact Hord].
    destruct rest1 as [|[t2|ch|e2] rest2]; try exact Hord.
    destruct (N.eqb ch 32); [|exact Hord].
    apply (IH (length rest2)); [cbn; lia|done| |done]. intros x Hx. apply Hsub1. by right.
  - assert (Hsub1 : rest1 ⊆ all) by (intros x Hx; apply Hsub; by right). cbv zeta.
    set (st1 := match st with NPrefix => NSkip 1 rest1 | _ => st end).
    assert (H1 : from all st1) by (unfold st1; by destruct st). clearbody st1.
    set (st2 := match st1 with NSkip gt rp => NSkip (gt + angle_change ch) rp | _ => st1 end).
    assert (H2 : from all st2) by (unfold st2; by destruct st1). clearbody st2.
    destruct st2 as [| | |gt rp].
    + by apply (IH (length rest1)); [cbn; lia| | |].
    + done.
    + by apply (IH (length rest1)); [cbn; lia| | |].
    + destruct (Z.eqb gt 0); [|by apply (IH (length rest1)); [cbn; lia| | |]].
      destruct rest1 as [|[t2|c2|e2] rest2]; try done.
      cbn. split; [done|]. split; [done|]. apply Hsub1. left.
  - cbn. split; [intros x Hx; apply Hsub; by right|done].
Qed.

Lemma find_names_from all n p ns u e :
  np_rest p ⊆ all -> from all (np_state p) -> find_names n p = Found ns u e ->
  (forall name s, name ∈ ns -> s ∈ name -> TText s ∈ all) /\ (forall s, s ∈ u -> TText s ∈ all).
Proof.
  revert p ns u e. induction n as [|n IH]; intros p ns u e Hp Hst H; [done|]. cbn [find_names] in H.
  pose proof (names_next_from all (np_rest p) (np_state p) (np_depth p) (np_final p) Hp Hst) as Hn.
  unfold pos_next in H. destruct (names_next _ _ _ _) as [r p']. destruct Hn as (H1 & H2 & H3).
  assert (Hnil : forall s : str, s ∈ @nil str -> TText s ∈ all) by (intros s Hs; by apply not_elem_of_nil in Hs).
  assert (Hnil2 : forall (name : list str) s, name ∈ @nil (list str) -> s ∈ name -> TText s ∈ all)
    by (intros nm s Hs; by apply not_elem_of_nil in Hs).
  destruct r as [[s| |er]|].
  - destruct (find_names n p') as [ns' u' e'|] eqn:E; [|done]. destruct (IH p' ns' u' e' H1 H2 E) as [I1 I2].
    destruct ns' as [|nm nms]; injection H as <- <- <-.
    + split; [done|]. intros x [->|Hx]%elem_of_cons; [done|by apply I2].
    + split; [|done]. intros name x [->|Hin]%elem_of_cons Hx.
      * apply elem_of_cons in Hx as [->|Hx]; [done|]. apply (I1 nm); [left|done].
      * apply (I1 name); [by right|done].
  - destruct (find_names n p') as [ns' u' e'|] eqn:E; [|done]. destruct (IH p' ns' u' e' H1 H2 E) as [I1 I2].
    injection H as <- <- <-. split; [|done]. intros name x [->|Hin]%elem_of_cons Hx.
    + by apply not_elem_of_nil in Hx.
    + by apply (I1 name).
  - injection H as <- <- <-. done.
  - injection H as <- <- <-. done.
Qed.

(** ** Numbers and hashes *)

Lemma digits_forall (ds : str) : forallb is_digit ds = true <-> Forall digit ds.
Proof.
  rewrite forallb_forall, Forall_forall. split; intros H x Hx; [apply is_digit_spec|apply is_digit_spec];
    apply H; by apply elem_of_list_In.
Qed.

Lemma digits_value (ds : str) v :
  Forall digit ds ->
  fold_left (fun v d => v * 10 + digit_value d)%N ds v =
  fold_left (fun v d => v * 10 + (N_of_ascii d - 48))%N ds v.
Proof. revert v. induction ds as [|c ds IH]; intros v H; [done|]. apply Forall_cons in H as [_ H]. cbn [fold_left]. by rewrite IH. Qed.

Definition in_range (limit : N) (ds : str) : Prop :=
  ds <> [] /\ Forall digit ds /\
  (fold_left (fun v d => v * 10 + (N_of_ascii d - 48))%N ds 0%N <= limit)%N.

Lemma digits_spec limit (ds : str) :
  match ds with
  | [] => false
  | _ => forallb is_digit ds &&
         N.leb (fold_left (fun v d => v * 10 + digit_value d)%N ds 0%N) limit
  end = true <-> in_range limit ds.
Proof.
  unfold in_range. destruct ds as [|c ds]; [by split; [|intros [? _]]|].
  rewrite andb_true_iff, digits_forall, N.leb_le. split.
  - intros [H1 H2]. rewrite digits_value in H2 by done. done.
  - intros (_ & H1 & H2). rewrite digits_value by done. done.
Qed.

Lemma parses_i64_spec s : parses_i64 s = true <-> number s.
Proof.
  unfold parses_i64, number. destruct s as [|c ds].
  { split; [done|]. intros (sg & ds & n & H & Hd & _). by destruct sg, ds. }
  destruct (Ascii.eqb c "-"%char) eqn:Em.
  { apply Ascii.eqb_eq in Em as ->. rewrite digits_spec. split.
    - intros (H1 & H2 & H3). exists (lit "-"), ds, (fold_left (fun v d => v * 10 + (N_of_ascii d - 48))%N ds 0%N).
      split; [done|]. split; [done|]. split; [done|]. split; [done|]. right. split; [done|]. exact H3.
    - intros (sg & ds' & n & H & Hd & Hf & -> & [[[->| ->] Hn]|[-> Hn]]).
      + cbn in H. subst ds'. apply Forall_cons in Hf as [Hf _]. exfalso. destruct Hf as [Hf _]. by apply Hf.
      + done.
      + injection H as ->. done. }
  destruct (Ascii.eqb c "+"%char) eqn:Ep.
  { apply Ascii.eqb_eq in Ep as ->. rewrite digits_spec. split.
    - intros (H1 & H2 & H3). exists (lit "+"), ds, (fold_left (fun v d => v * 10 + (N_of_ascii d - 48))%N ds 0%N).
      split; [done|]. split; [done|]. split; [done|]. split; [done|]. left. split; [by right|]. 
      change (2 ^ 63)%N with 9223372036854775808%N. lia.
    - intros (sg & ds' & n & H & Hd & Hf & -> & [[[->| ->] Hn]|[-> Hn]]).
      + cbn in H. subst ds'. apply Forall_cons in Hf as [Hf _]. exfalso. destruct Hf as [Hf _]. by apply Hf.
      + injection H as ->. split; [done|]. split; [done|]. change (2 ^ 63)%N with 9223372036854775808%N in Hn. lia.
      + done. }
  rewrite (digits_spec _ (c :: ds)). split.
  - intros (H1 & H2 & H3). exists [], (c :: ds), (fold_left (fun v d => v * 10 + (N_of_ascii d - 48))%N (c :: ds) 0%N).
    split; [done|]. split; [done|]. split; [done|]. split; [done|]. left. split; [by left|].
    change (2 ^ 63)%N with 9223372036854775808%N. lia.
  - intros (sg & ds' & n & H & Hd & Hf & -> & [[[->| ->] Hn]|[-> Hn]]).
    + cbn in H. subst ds'. split; [done|]. split; [done|]. change (2 ^ 63)%N with 9223372036854775808%N in Hn. lia.
    + injection H as -> _. done.
    + injection H as -> _. done.
Qed.

Lemma is_hash_spec s : is_hash s = true <-> hash s.
Proof.
  unfold is_hash, hash. rewrite andb_true_iff, Nat.eqb_eq. destruct s as [|c r].
  { split; [by intros [? _]|]. by intros (ds & H & _). }
  rewrite andb_true_iff, Ascii.eqb_eq, forallb_forall. split.
  - intros (Hl & -> & Hr). exists r. split; [done|]. split; [cbn in Hl; lia|]. apply Forall_forall.
    intros x Hx%elem_of_list_In. specialize (Hr x Hx). unfold is_hexdigit in Hr.
    apply orb_prop in Hr as [Hr|Hr]; [apply orb_prop in Hr as [Hr|Hr]|].
    + left. by apply is_digit_spec.
    + right. apply between_spec in Hr. lia.
    + right. apply between_spec in Hr. lia.
  - intros (ds & H & Hl & Hf). injection H as -> ->. split; [cbn; lia|]. split; [done|].
    intros x Hx%elem_of_list_In. rewrite Forall_forall in Hf. specialize (Hf x Hx). unfold is_hexdigit.
    destruct Hf as [Hf|[Hf|Hf]].
    + by rewrite (proj2 (is_digit_spec x) Hf).
    + rewrite (proj2 (between_spec 97 102 x)) by lia. by rewrite orb_true_r.
    + rewrite (proj2 (between_spec 65 70 x)) by lia. by rewrite !orb_true_r.
Qed.

(** ** Single steps *)

Lemma str_eqb_false a b : str_eqb a b = false <-> a <> b.
Proof. split; intros H; [intros <-; by rewrite (proj2 (str_eqb_spec a a)) in H|]. destruct (str_eqb a b) eqn:E; [|done]. by apply str_eqb_spec in E. Qed.


(** The address remembered from an earlier qualified path lies behind. *)
Definition stale (f : option (str * nat)) (rest : list dtoken) : Prop :=
  match f with Some (_, a) => length rest <= a | None => True end.

Lemma stale_tail f t rest : stale f (t :: rest) -> stale f rest.
Proof. destruct f as [[s a]|]; cbn; [lia|done]. Qed.

Lemma stale_none f s t rest :
  stale f (t :: rest) ->
  match f with Some (u, a) => str_eqb u s && Nat.eqb a (length rest) | None => false end = false.
Proof.
  destruct f as [[u a]|]; cbn; [|done]. intros H. apply andb_false_iff. right. apply Nat.eqb_neq. lia.
Qed.

Definition as_here (t : str) (rest : list dtoken) : Prop := t = lit "as" /\ exists r, rest = TChar 32 :: r.

(** A text that does not start a qualified path. *)
Lemma text_step t rest st d f :
  (significant d t -> ~ as_here t rest) ->
  names_next (TText t :: rest) st d f =
  if str_eqb t (lit "mut") then names_next rest st d f
  else if Z.ltb 0 d then names_next rest st d f
  else if parses_i64 t then names_next rest st d f
  else if match f with
          | Some (u, at_) => str_eqb u t && Nat.eqb at_ (length rest)
          | None => false
          end
  then names_next rest st d f
  else if is_hash t && match rest with [] => true | _ => false end
  then names_next rest st d f
  else match st with
       | NInactive => (Some (NPart t), NamesPos rest NOutput d f false)
       | NSkip _ _ => names_next rest st d f
       | _ => (Some (NPart t), NamesPos rest st d f false)
       end.
Proof.
  intros Has. cbn [names_next].
  destruct (str_eqb t (lit "mut")) eqn:Em; [done|]. destruct (Z.ltb 0 d) eqn:Ed; [done|].
  destruct (parses_i64 t) eqn:En; [done|]. cbv zeta.
  assert (Hs : significant d t).
  { split; [by apply str_eqb_false|]. split; [by apply Z.ltb_ge|]. intros H%parses_i64_spec. congruence. }
  specialize (Has Hs). destruct (str_eqb t (lit "as")) eqn:Ea; [|done]. apply str_eqb_spec in Ea as ->.
  destruct rest as [|[u|c|e] rest2]; try done. destruct (N.eqb c 32) eqn:Ec; [|done].
  apply N.eqb_eq in Ec as ->. destruct Has. split; [done|]. by eexists.
Qed.

Lemma significant_tests d t :
  significant d t -> str_eqb t (lit "mut") = false /\ Z.ltb 0 d = false /\ parses_i64 t = false.
Proof.
  intros (H1 & H2 & H3). split; [by apply str_eqb_false|]. split; [by apply Z.ltb_ge|].
  destruct (parses_i64 t) eqn:E; [|done]. by apply parses_i64_spec in E.
Qed.

Lemma not_significant_step t rest st d f :
  ~ significant d t -> names_next (TText t :: rest) st d f = names_next rest st d f.
Proof.
  intros Hs. rewrite text_step by done.
  destruct (str_eqb t (lit "mut")) eqn:Em; [done|]. destruct (Z.ltb 0 d) eqn:Ed; [done|].
  destruct (parses_i64 t) eqn:En; [done|]. destruct Hs. split; [by apply str_eqb_false|].
  split; [by apply Z.ltb_ge|]. intros H%parses_i64_spec. congruence.
Qed.

(** A run of texts, before something else. *)
Definition as_end (d : Z) (texts : list str) (rest : list dtoken) : Prop :=
  (d <= 0)%Z -> forall x r, texts = x ++ [lit "as"] -> rest <> TChar 32 :: r.

Lemma as_end_tail d t texts rest : as_end d (t :: texts) rest -> as_end d texts rest.
Proof. intros H Hd x r ->. by apply (H Hd (t :: x) r). Qed.

Lemma as_end_here d t texts rest :
  as_end d (t :: texts) rest -> significant d t -> ~ as_here t (map TText texts ++ rest).
Proof.
  intros H (_ & Hd & _) [-> [r Hr]]. destruct texts as [|u texts]; [|done]. cbn in Hr.
  by apply (H Hd [] r).
Qed.

Definition end_ok (texts : list str) (rest : list dtoken) : Prop :=
  rest <> [] \/ forall x h, texts = x ++ [h] -> ~ hash h.

Lemma end_ok_tail t texts rest : end_ok (t :: texts) rest -> end_ok texts rest.
Proof. intros [H|H]; [by left|]. right. intros x h ->. by apply (H (t :: x)). Qed.

Lemma end_ok_here t texts rest :
  end_ok (t :: texts) rest ->
  is_hash t && match map TText texts ++ rest with [] => true | _ => false end = false.
Proof.
  intros H. destruct (is_hash t) eqn:E; [|done]. cbn [andb]. destruct texts as [|u texts]; [|done].
  destruct rest as [|r rest]; [|done]. apply is_hash_spec in E. destruct H as [H|H]; [done|]. by destruct (H [] t).
Qed.

Definition emitting (st : names_state) : Prop := match st with NOutput | NPrefix => True | _ => False end.

Lemma run_active texts ks rest st d e name ns u er :
  emitting st -> end_ok texts rest -> as_end d texts rest -> counting d texts ks ->
  finds (NamesPos rest st d None e) (name :: ns) u er ->
  finds (NamesPos (map TText texts ++ rest) st d None e) ((ks ++ name) :: ns) u er.
Proof.
  intros Hst Hr Has Hc. revert Hr Has e. induction Hc as [|t k ts ks [Hs ->] Hc IH|t ts ks Hn Hc IH]; intros Hr Has e H; [done| |].
  - cbn [map app]. pose proof (significant_tests d t Hs) as (T1 & T2 & T3).
    apply (finds_part _ t (NamesPos (map TText ts ++ rest) st d None false)).
    + unfold pos_next. cbn [np_rest np_state np_depth np_final].
      rewrite text_step by (intros _; by eapply as_end_here). rewrite T1, T2, T3.
      rewrite (end_ok_here t ts rest Hr).
      by destruct st.
    + apply IH; [by eapply end_ok_tail|by eapply as_end_tail|]. destruct H as [[|n] H]; [done|]. by exists (S n).
  - cbn [map app]. apply (finds_same _ (NamesPos (map TText ts ++ rest) st d None e)).
    + unfold pos_next. cbn [np_rest np_state np_depth np_final]. apply not_significant_step.
      intros Hs. by apply (Hn t).
    + apply IH; [by eapply end_ok_tail|by eapply as_end_tail|done].
Qed.

Lemma finds_ended rest st d f e e' ns u er :
  finds (NamesPos rest st d f e) ns u er -> finds (NamesPos rest st d f e') ns u er.
Proof. by apply finds_same. Qed.

Lemma run_inactive texts k ks rest d e name ns u er :
  end_ok texts rest -> as_end d texts rest -> counting d texts (k :: ks) ->
  finds (NamesPos rest NOutput d None e) (name :: ns) u er ->
  finds (NamesPos (map TText texts ++ rest) NInactive d None e) ((k :: ks ++ name) :: ns) u er.
Proof.
  intros Hr Has Hc. remember (k :: ks) as kks eqn:Ek. revert Ek Hr Has e.
  induction Hc as [|t k' ts ks' [Hs ->] Hc IH|t ts ks' Hn Hc IH]; intros Ek Hr Has e H; [done| |].
  - injection Ek as -> ->. cbn [map app]. pose proof (significant_tests d k Hs) as (T1 & T2 & T3).
    apply (finds_part _ k (NamesPos (map TText ts ++ rest) NOutput d None false)).
    + unfold pos_next. cbn [np_rest np_state np_depth np_final].
      rewrite text_step by (intros _; by eapply as_end_here). rewrite T1, T2, T3.
      rewrite (end_ok_here k ts rest Hr).
      done.
    + apply run_active; [done|by eapply end_ok_tail|by eapply as_end_tail|done|by eapply finds_ended].
  - cbn [map app]. apply (finds_same _ (NamesPos (map TText ts ++ rest) NInactive d None e)).
    + unfold pos_next. cbn [np_rest np_state np_depth np_final]. apply not_significant_step.
      intros Hs. by apply (Hn t).
    + apply IH; [done|by eapply end_ok_tail|by eapply as_end_tail|done].
Qed.

Lemma run_nothing texts rest st d f e ns u er :
  counting d texts [] ->
  finds (NamesPos rest st d f e) ns u er -> finds (NamesPos (map TText texts ++ rest) st d f e) ns u er.
Proof.
  intros Hc. remember [] as ks eqn:Ek. revert Ek. induction Hc as [|t k ts ks Hs Hc IH|t ts ks Hn Hc IH]; intros Ek H; [done|done|].
  cbn [map app]. apply (finds_same _ (NamesPos (map TText ts ++ rest) st d f e)).
  - unfold pos_next. cbn [np_rest np_state np_depth np_final]. apply not_significant_step.
    intros Hs. by apply (Hn t).
  - by apply IH.
Qed.

(** ** The last run *)

Lemma hash_not_as h rest : hash h -> ~ as_here h rest.
Proof. intros (ds & -> & _) [[=] _]. Qed.

Lemma last_hash h st d e ns u er :
  hash h -> finds (NamesPos [] st d None e) ns u er -> finds (NamesPos [TText h] st d None e) ns u er.
Proof.
  intros Hh. apply finds_same. unfold pos_next. cbn [np_rest np_state np_depth np_final].
  rewrite text_step by (intros _; by apply hash_not_as). rewrite (proj2 (is_hash_spec h) Hh). cbn [andb].
  by destruct (str_eqb h (lit "mut")), (Z.ltb 0 d), (parses_i64 h).
Qed.

(** The last run, while a name is being read. *)
Lemma last_active texts texts' ks d e :
  drops_hash texts texts' -> counting d texts' ks ->
  finds (NamesPos (map TText texts) NOutput d None e) [ks] [] None.
Proof.
  intros Hd Hc.
  assert (Hend : forall e, finds (NamesPos [] NOutput d None e) [[]] [] None).
  { intros e0. eapply finds_end; [done|]. by eapply finds_stop. }
  destruct Hd as [(h & -> & Hh)|[-> Hh]].
  - rewrite map_app. cbn [map]. rewrite <- (app_nil_r ks). apply run_active; [done|by left|by intros ? ? ? ?|done|].
    by apply last_hash.
  - rewrite <- (app_nil_r (map TText texts')), <- (app_nil_r ks).
    apply run_active; [done|by right|by intros ? ? ? ?|done|done].
Qed.

Lemma last_inactive texts texts' ks d e :
  drops_hash texts texts' -> counting d texts' ks ->
  finds (NamesPos (map TText texts) NInactive d None e) (name_if_any ks) [] None.
Proof.
  intros Hd Hc.
  assert (Hend : forall e, finds (NamesPos [] NOutput d None e) [[]] [] None).
  { intros e0. eapply finds_end; [done|]. by eapply finds_stop. }
  assert (Hend2 : forall e, finds (NamesPos [] NInactive d None e) [] [] None).
  { intros e0. by eapply finds_stop. }
  destruct Hd as [(h & -> & Hh)|[-> Hh]].
  - rewrite map_app. cbn [map]. destruct ks as [|k ks]; cbn [name_if_any].
    + apply run_nothing; [done|]. by apply last_hash.
    + replace (k :: ks) with (k :: ks ++ []) by by rewrite app_nil_r.
      apply run_inactive; [by left|by intros ? ? ? ?|done|]. by apply last_hash.
  - rewrite <- (app_nil_r (map TText texts')). destruct ks as [|k ks]; cbn [name_if_any].
    + by apply run_nothing.
    + replace (k :: ks) with (k :: ks ++ []) by by rewrite app_nil_r.
      apply run_inactive; [by right|by intros ? ? ? ?|done|done].
Qed.

(** ** Characters *)

Lemma brace_change_spec c : brace_change c = braces [TChar c].
Proof.
  unfold brace_change, braces. cbn [fold_right].
  destruct (N.eqb_spec c 123) as [->|H1]; [done|]. destruct (N.eqb_spec c 125) as [->|H2]; [done|].
  repeat (destruct c as [|c]; try done).
  do 7 (destruct c as [c|c|]; try done).
Qed.

Lemma angle_change_spec c : angle_change c = angles [TChar c].
Proof.
  unfold angle_change, angles. cbn [fold_right].
  destruct (N.eqb_spec c 60) as [->|H1]; [done|]. destruct (N.eqb_spec c 62) as [->|H2]; [done|].
  repeat (destruct c as [|c]; try done).
  do 6 (destruct c as [c|c|]; try done).
Qed.

Lemma braces_cons t ts : braces (t :: ts) = (braces [t] + braces ts)%Z.
Proof. unfold braces. cbn [fold_right]. destruct t as [s|c|e]; try lia. repeat (case_match; try lia). Qed.

Lemma angles_cons t ts : angles (t :: ts) = (angles [t] + angles ts)%Z.
Proof. unfold angles. cbn [fold_right]. destruct t as [s|c|e]; try lia. repeat (case_match; try lia). Qed.

Lemma angles_text s : angles [TText s] = 0%Z. Proof. done. Qed.
Lemma braces_text s : braces [TText s] = 0%Z. Proof. done. Qed.

Lemma char_inactive c rest d e ns u er :
  finds (NamesPos rest NInactive (d + braces [TChar c])%Z None e) ns u er ->
  finds (NamesPos (TChar c :: rest) NInactive d None e) ns u er.
Proof. apply finds_same. unfold pos_next. cbn [np_rest np_state np_depth np_final names_next]. by rewrite brace_change_spec. Qed.

Lemma char_output c rest d e ns u er :
  finds (NamesPos rest NInactive (d + braces [TChar c])%Z None false) ns u er ->
  finds (NamesPos (TChar c :: rest) NOutput d None e) ([] :: ns) u er.
Proof. eapply finds_end. unfold pos_next. cbn [np_rest np_state np_depth np_final names_next]. by rewrite brace_change_spec. Qed.

(** ** Skipping the arguments of a trait *)

Lemma no_as_tail t ts : no_as (t :: ts) -> no_as ts.
Proof. intros H x y ->. by apply (H (t :: x) y). Qed.

Lemma no_as_head s ts : no_as (TText s :: ts) -> ~ as_here s ts.
Proof. intros H [-> [r ->]]. by apply (H [] r). Qed.

Lemma skip_all i post gt rp d f :
  no_as i -> no_escapes i -> (forall x y, i = x ++ y -> 0 < gt + angles x)%Z ->
  names_next (i ++ TChar 62 :: post) (NSkip gt rp) d f =
  names_next (TChar 62 :: post) (NSkip (gt + angles i) rp) (d + braces i) f.
Proof.
  revert gt d. induction i as [|t i IH]; intros gt d Ha He Hp.
  { cbn [app]. unfold angles, braces. cbn [fold_right]. by rewrite !Z.add_0_r. }
  assert (Hp' : (forall x y, i = x ++ y -> 0 < (gt + angles [t]) + angles x)%Z).
  { intros x y ->. specialize (Hp (t :: x) y eq_refl). rewrite angles_cons in Hp. lia. }
  assert (He' : no_escapes i) by (intros e H; apply (He e); by right).
  pose proof (no_as_tail t i Ha) as Ha'.
  rewrite (angles_cons t i), (braces_cons t i), !Z.add_assoc, <- (IH (gt + angles [t])%Z (d + braces [t])%Z Ha' He' Hp').
  destruct t as [s|c|e]; [| |destruct (He e); left].
  - rewrite angles_text, braces_text, !Z.add_0_r. cbn [app]. rewrite text_step.
    + repeat case_match; done.
    + intros _ [-> [r Hr]]. destruct i as [|t i]; [done|]. injection Hr as -> Hr.
      apply (no_as_head _ _ Ha). split; [done|]. by exists i.
  - cbn [app names_next]. rewrite angle_change_spec, brace_change_spec.
    replace (Z.eqb (gt + angles [TChar c]) 0) with false; [done|]. symmetry. apply Z.eqb_neq.
    specialize (Hp [TChar c] i eq_refl). lia.
Qed.

(** From the trait's path over the arguments to the closing bracket. *)
Lemma prefix_skip i post d f :
  arguments i ->
  exists gtrp : list dtoken,
    gtrp = after_trait i post /\
  names_next (i ++ TChar 62 :: post) NPrefix d f =
  match post with
  | TText c :: post' =>
      (Some (NPart c), NamesPos (match i with [] => post | _ :: i' => i' ++ TChar 62 :: post end) NOutput d
         (Some (c, length post')) false)
  | _ => (Some NEnd, NamesPos gtrp NInactive d None false)
  end.
Proof.
  intros (Ht & Ha & He & Hz & Hp & Hb & Hb1). eexists. split; [done|]. destruct i as [|t i]; cbn [after_trait].
  { cbn [app names_next]. change (brace_change 62) with 0%Z. change (angle_change 62) with (-1)%Z. rewrite Z.add_0_r. cbn.
    by destruct post as [|[c|c|c] post]. }
  destruct t as [s|c|e]; [by destruct (Ht s i)| |destruct (He e); left].
  pose proof (Hp [TChar c] i eq_refl) as Hc.
  assert (Hbc : braces [TChar c] = 0%Z).
  { rewrite <- brace_change_spec. unfold brace_change. destruct (Hb1 i) as [B1 B2].
    destruct (N.eqb_spec c 123) as [->|_]; [done|]. by destruct (N.eqb_spec c 125) as [->|_]. }
  assert (Hbi : braces i = 0%Z) by (rewrite braces_cons, Hbc in Hb; lia).
  cbn [app names_next]. rewrite angle_change_spec, brace_change_spec, Hbc, Z.add_0_r.
  replace (Z.eqb (1 + angles [TChar c]) 0) with false by (symmetry; apply Z.eqb_neq; lia).
  rewrite skip_all.
  - rewrite Hbi, Z.add_0_r. rewrite (angles_cons (TChar c) i) in Hz. cbn [names_next].
    change (brace_change 62) with 0%Z. change (angle_change 62) with (-1)%Z. rewrite Z.add_0_r.
    replace (1 + angles [TChar c] + angles i + -1)%Z with 0%Z by lia. cbn [Z.eqb].
    by destruct post as [|[c'|c'|c'] post].
  - by eapply no_as_tail.
  - intros e H. apply (He e). by right.
  - intros x y ->. specialize (Hp (TChar c :: x) y eq_refl). rewrite angles_cons in Hp. lia.
Qed.

(** ** A remembered address that does not matter any more *)

(** Positions that behave alike: the same, or the first still has the item of a qualified
    path ahead that the second does not have. *)
Inductive alike : names_pos -> names_pos -> Prop :=
| alike_refl p : alike p p
| alike_same rest st d f f' e e' :
    stale f rest -> stale f' rest -> alike (NamesPos rest st d f e) (NamesPos rest st d f' e')
| alike_item c post st d f' e e' :
    c <> lit "as" -> stale f' post ->
    alike (NamesPos (TText c :: post) st d (Some (c, length post)) e) (NamesPos post st d f' e')
| alike_hidden i c post st d f' e e' :
    match st with NInactive | NOutput => True | _ => False end ->
    no_as i -> no_escapes i -> c <> lit "as" -> stale f' (i ++ TChar 62 :: post) ->
    alike (NamesPos (i ++ TChar 62 :: TText c :: post) st d (Some (c, length post)) e)
          (NamesPos (i ++ TChar 62 :: post) st d f' e').

Definition alike_results (r r' : option name_token * names_pos) : Prop :=
  r.1 = r'.1 /\ alike r.2 r'.2.

Lemma next_same rest st d f f' :
  stale f rest -> stale f' rest ->
  alike_results (names_next rest st d f) (names_next rest st d f').
Proof.
  intros Hf Hf'. remember (length rest) as m eqn:Hm. revert rest st d Hm Hf Hf'.
  induction m as [m IH] using lt_wf_ind; intros rest st d -> Hf Hf'.
  destruct rest as [|[text|ch|esc] rest1]; cbn [names_next].
  - destruct st; split; try done; by constructor.
  - pose proof (stale_tail _ _ _ Hf) as Hf1. pose proof (stale_tail _ _ _ Hf') as Hf1'.
    assert (Hrec : alike_results (names_next rest1 st d f) (names_next rest1 st d f')).
    { apply (IH (length rest1)); [cbn; lia|done|done|done]. }
    destruct (str_eqb text (lit "mut")); [exact Hrec|].
    destruct (Z.ltb 0 d); [exact Hrec|].
    destruct (parses_i64 text); [exact Hrec|]. cbv zeta.
    rewrite (stale_none f text _ rest1 Hf), (stale_none f' text _ rest1 Hf').
    assert (Hord : alike_results
      (if is_hash text && match rest1 with [] => true | _ => false end then names_next rest1 st d f
       else match st with
            | NInactive => (Some (NPart text), NamesPos rest1 NOutput d f false)
            | NSkip _ _ => names_next rest1 st d f
            | _ => (Some (NPart text), NamesPos rest1 st d f false)
            end)
      (if is_hash text && match rest1 with [] => true | _ => false end then names_next rest1 st d f'
       else match st with
            | NInactive => (Some (NPart text), NamesPos rest1 NOutput d f' false)
            | NSkip _ _ => names_next rest1 st d f'
            | _ => (Some (NPart text), NamesPos rest1 st d f' false)
            end)).
    { destruct (is_hash text && _); [exact Hrec|].
      destruct st as [| | |g rp]; try exact Hrec; split; try done; by constructor. }
    destruct (str_eqb text (lit "as")); [|exact Hord].
    destruct rest1 as [|[t2|ch|e2] rest2]; try exact Hord.
    destruct (N.eqb ch 32); [|exact Hord].
    apply (IH (length rest2)); [cbn; lia|done|by eapply stale_tail|by eapply stale_tail].
  - pose proof (stale_tail _ _ _ Hf) as Hf1. pose proof (stale_tail _ _ _ Hf') as Hf1'. cbv zeta.
    set (st1 := match st with NPrefix => NSkip 1 rest1 | _ => st end). clearbody st1.
    set (st2 := match st1 with NSkip gt rp => NSkip (gt + angle_change ch) rp | _ => st1 end). clearbody st2.
    destruct st2 as [| | |gt rp].
    + apply (IH (length rest1)); [cbn; lia|done|done|done].
    + split; [done|]. by constructor.
    + apply (IH (length rest1)); [cbn; lia|done|done|done].
    + destruct (Z.eqb gt 0); [|apply (IH (length rest1)); [cbn; lia|done|done|done]].
      destruct rest1 as [|[t2|c2|e2] rest2]; split; try done.
      all: constructor.
  - split; [done|]. constructor; by eapply stale_tail.
Qed.

Lemma next_item c post st d f' :
  c <> lit "as" -> stale f' post ->
  alike_results (names_next (TText c :: post) st d (Some (c, length post))) (names_next post st d f').
Proof.
  intros Hc Hf. rewrite text_step by (intros _ [-> _]; done).
  rewrite (proj2 (str_eqb_spec c c) eq_refl), Nat.eqb_refl. cbn [andb].
  assert (H : alike_results (names_next post st d (Some (c, length post))) (names_next post st d f')).
  { apply next_same; [cbn; lia|done]. }
  by destruct (str_eqb c (lit "mut")), (Z.ltb 0 d), (parses_i64 c).
Qed.

Lemma next_hidden i c post st d f' :
  match st with NInactive | NOutput => True | _ => False end ->
  no_as i -> no_escapes i -> c <> lit "as" -> stale f' (i ++ TChar 62 :: post) ->
  alike_results (names_next (i ++ TChar 62 :: TText c :: post) st d (Some (c, length post)))
                (names_next (i ++ TChar 62 :: post) st d f').
Proof.
  revert st d. induction i as [|t i IH]; intros st d Hst Ha He Hc Hf.
  - cbn [app] in *. apply stale_tail in Hf. destruct st; try done; cbn [names_next].
    + by apply next_item.
    + split; [done|]. by constructor.
  - assert (He' : no_escapes i) by (intros e H; apply (He e); by right).
    pose proof (no_as_tail t i Ha) as Ha'. cbn [app] in *. pose proof (stale_tail _ _ _ Hf) as Hf1.
    destruct t as [s|ch|e]; [| |destruct (He e); left].
    + assert (Hrec := IH st d Hst Ha' He' Hc Hf1).
      assert (Hno : forall q, ~ as_here s (i ++ TChar 62 :: q)).
      { intros q [-> [r Hr]]. destruct i as [|t i]; [done|]. injection Hr as -> Hr.
        apply (no_as_head _ _ Ha). split; [done|]. by exists i. }
      rewrite !text_step by (intros _; apply Hno).
      destruct (str_eqb s (lit "mut")); [exact Hrec|].
      destruct (Z.ltb 0 d); [exact Hrec|].
      destruct (parses_i64 s); [exact Hrec|].
      rewrite (stale_none f' s _ _ Hf).
      replace (str_eqb c s && _) with false
        by (symmetry; apply andb_false_iff; right; apply Nat.eqb_neq; rewrite app_length; cbn [length]; lia).
      replace (is_hash s && match i ++ TChar 62 :: TText c :: post with [] => true | _ => false end) with false
        by (symmetry; apply andb_false_iff; right; by destruct i).
      replace (is_hash s && match i ++ TChar 62 :: post with [] => true | _ => false end) with false
        by (symmetry; apply andb_false_iff; right; by destruct i).
      destruct st; try done; split; try done; by constructor.
    + cbn [names_next]. destruct st; try done.
      * by apply IH.
      * split; [done|]. by constructor.
Qed.

Lemma next_alike p q : alike p q -> alike_results (pos_next p) (pos_next q).
Proof.
  intros []; unfold pos_next; cbn [np_rest np_state np_depth np_final].
  - split; [done|constructor].
  - by apply next_same.
  - by apply next_item.
  - by apply next_hidden.
Qed.

Lemma finds_alike p q ns u er : alike p q -> finds q ns u er -> finds p ns u er.
Proof.
  intros Ha [n Hn]. exists n. rewrite <- Hn. clear Hn. revert p q Ha. induction n as [|n IH]; intros p q Ha; [done|].
  cbn [find_names]. destruct (next_alike p q Ha) as [H1 H2]. destruct (pos_next p) as [r p'], (pos_next q) as [r' q'].
  cbn in H1, H2. subst r'. by rewrite (IH p' q' H2).
Qed.

(** ** The names in a sequence of tokens *)

Lemma as_step rest st d f :
  (d <= 0)%Z -> names_next (as_words ++ rest) st d f = names_next rest NPrefix d f.
Proof. intros Hd. cbn. by rewrite (proj2 (Z.ltb_ge 0 d) Hd). Qed.

Lemma names_in_found cur d ts ns :
  names_in cur d ts ns ->
  (cur = [] -> forall e, finds (NamesPos ts NInactive d None e) ns [] None) /\
  (cur <> [] -> exists k ns', ns = (cur ++ k) :: ns' /\
    forall e, finds (NamesPos ts NOutput d None e) (k :: ns') [] None).
Proof.
  induction 1 as [cur d texts texts' ks Hd Hc|cur d texts ks c rest ns Hc Ha H IH|d bs ks i c post ns Hd Hc Hi Ha Hca H IH
                 |d bs ks i post ns Hd Hc Hi Ha Hp H IH].
  - split.
    + intros -> e. by eapply last_inactive.
    + intros Hn. exists ks, []. split; [by destruct cur|]. intros e. by eapply last_active.
  - destruct IH as [IH _]. specialize (IH eq_refl).
    assert (Hae : as_end d texts (TChar c :: rest)).
    { intros Hd x r -> [= -> ->]. apply (Ha Hd (map TText x) []). rewrite map_app, <- app_assoc. done. }
    split.
    + intros -> e. cbn [app]. destruct ks as [|k ks]; cbn [name_if_any app].
      * apply run_nothing; [done|]. by apply char_inactive.
      * replace (k :: ks) with (k :: ks ++ []) by by rewrite app_nil_r.
        apply run_inactive; [by left|done|done|]. by apply char_output.
    + intros Hn. exists ks, ns. split; [by destruct cur|]. intros e.
      rewrite <- (app_nil_r ks). apply run_active; [done|by left|done|done|]. by apply char_output.
  - split; [intros _ e|done]. destruct IH as [_ IH]. destruct IH as (k & ns' & -> & Hk); [by destruct ks|].
    apply (finds_same _ (NamesPos (map TText bs ++ i ++ TChar 62 :: TText c :: post) NPrefix d None e)).
    { unfold pos_next. cbn [np_rest np_state np_depth np_final]. by apply as_step. }
    rewrite <- !app_assoc. apply run_active; [done|left; by destruct i| |done|].
    { intros _ x r -> Hr. destruct i as [|t i]; [done|]. injection Hr as -> _.
      apply (Ha (map TText x) i). by rewrite map_app, <- app_assoc. }
    destruct (prefix_skip i (TText c :: post) d None Hi) as (_ & _ & Hs).
    cbn [app]. eapply finds_part; [unfold pos_next; cbn [np_rest np_state np_depth np_final]; exact Hs|].
    eapply finds_alike; [|apply (Hk false)]. destruct Hi as (Ht & Hna & He & _).
    destruct i as [|t i]; cbn [after_trait].
    + by constructor.
    + constructor; [done|by eapply no_as_tail| |done|done]. intros e' He'. apply (He e'). by right.
  - split; [intros _ e|done]. destruct IH as [IH _]. specialize (IH eq_refl).
    apply (finds_same _ (NamesPos (map TText bs ++ i ++ TChar 62 :: post) NPrefix d None e)).
    { unfold pos_next. cbn [np_rest np_state np_depth np_final]. by apply as_step. }
    rewrite <- (app_nil_r ks). apply run_active; [done|left; by destruct i| |done|].
    { intros _ x r -> Hr. destruct i as [|t i]; [done|]. injection Hr as -> _.
      apply (Ha (map TText x) i). by rewrite map_app, <- app_assoc. }
    destruct (prefix_skip i post d None Hi) as (_ & -> & Hs).
    eapply finds_end; [unfold pos_next; cbn [np_rest np_state np_depth np_final]; rewrite Hs; by destruct post as [|[s|s|s] post]; [|destruct (Hp s post)| |]|].
    apply IH.
Qed.

Lemma names_in_are ts ns : names_in [] 0 ts ns -> names_are ts ns.
Proof. intros H. apply finds_names_of. by apply (proj1 (names_in_found [] 0 ts ns H)). Qed.

(** ** Without qualified paths there always are names *)

Lemma significant_dec d t : {significant d t} + {~ significant d t}.
Proof.
  destruct (decide (t = lit "mut")) as [->|H1]; [right; by intros [? _]|].
  destruct (Z_le_dec d 0) as [H2|H2]; [|right; by intros (_ & ? & _)].
  destruct (parses_i64 t) eqn:E; [right; intros (_ & _ & H); by apply H, parses_i64_spec|].
  left. split; [done|]. split; [done|]. intros H%parses_i64_spec. congruence.
Qed.

Lemma counting_total d texts : exists ks, counting d texts ks.
Proof.
  induction texts as [|t texts [ks IH]]; [exists []; constructor|].
  destruct (significant_dec d t) as [H|H]; [exists (t :: ks)|exists ks]; constructor; try done.
  by intros b [? _].
Qed.

Lemma drops_hash_total texts : exists texts', drops_hash texts texts'.
Proof.
  induction texts as [|h texts _] using rev_ind.
  - exists []. right. split; [done|]. intros x h H. by destruct x.
  - destruct (is_hash h) eqn:E.
    + exists texts. left. exists h. split; [done|]. by apply is_hash_spec.
    + exists (texts ++ [h]). right. split; [done|]. intros x h' H. apply app_inj_tail in H as [_ <-].
      intros H%is_hash_spec. congruence.
Qed.

Lemma texts_then ts :
  no_escapes ts -> (exists texts, ts = map TText texts) \/ (exists texts c rest, ts = map TText texts ++ TChar c :: rest).
Proof.
  induction ts as [|t ts IH]; intros He; [left; by exists []|].
  assert (He' : no_escapes ts) by (intros e H; apply (He e); by right).
  destruct t as [s|c|e]; [| |destruct (He e); left].
  - destruct (IH He') as [[texts ->]|(texts & c & rest & ->)]; [left; by exists (s :: texts)|right].
    by exists (s :: texts), c, rest.
  - right. by exists [], c, ts.
Qed.

Lemma no_as_app_l x y : no_as (x ++ y) -> no_as x.
Proof. intros H a b ->. apply (H a (b ++ y)). by rewrite !app_assoc. Qed.

Lemma no_as_app_r x y : no_as (x ++ y) -> no_as y.
Proof. intros H a b ->. apply (H (x ++ a) b). by rewrite !app_assoc. Qed.

Lemma names_in_total ts cur d : no_as ts -> no_escapes ts -> exists ns, names_in cur d ts ns.
Proof.
  remember (length ts) as m eqn:Hm. revert ts cur d Hm.
  induction m as [m IH] using lt_wf_ind; intros ts cur d -> Ha He.
  destruct (texts_then ts He) as [[texts ->]|(texts & c & rest & ->)].
  - destruct (drops_hash_total texts) as [texts' Hd]. destruct (counting_total d texts') as [ks Hk].
    eexists. by econstructor.
  - destruct (counting_total d texts) as [ks Hk].
    destruct (IH (length rest)) with (ts := rest) (cur := @nil str) (d := (d + braces [TChar c])%Z) as [ns Hns].
    + rewrite app_length. cbn. lia.
    + done.
    + by apply (no_as_app_r (map TText texts ++ [TChar c])); rewrite <- app_assoc.
    + intros e H. apply (He e). apply elem_of_app. right. by right.
    + eexists. econstructor; [done| |done]. intros _. apply (no_as_app_l _ rest). by rewrite <- app_assoc.
Qed.

(** ** No text is lost *)

Lemma app_split {A} (l1 l2 x y : list A) t :
  l1 ++ l2 = x ++ t :: y ->
  (exists z, l1 = x ++ t :: z /\ y = z ++ l2) \/ (exists z, x = l1 ++ z /\ l2 = z ++ t :: y).
Proof.
  revert x. induction l1 as [|a l1 IH]; intros x H; [right; by exists x|]. destruct x as [|b x]; cbn in H.
  - injection H as <- <-. left. by exists l1.
  - injection H as -> H. destruct (IH x H) as [(z & -> & ->)|(z & -> & ->)]; [left|right]; by exists z.
Qed.

Lemma map_split texts x t y :
  map TText texts = x ++ TText t :: y ->
  exists x' y', texts = x' ++ t :: y' /\ x = map TText x' /\ y = map TText y'.
Proof.
  revert x. induction texts as [|s texts IH]; intros x H; [by destruct x|]. destruct x as [|b x]; cbn in H.
  - injection H as -> <-. by exists [], texts.
  - injection H as <- H. destruct (IH x H) as (x' & y' & -> & -> & ->). by exists (s :: x'), y'.
Qed.

Lemma braces_app x y : braces (x ++ y) = (braces x + braces y)%Z.
Proof. induction x as [|t x IH]; [done|]. cbn [app]. rewrite braces_cons, (braces_cons t x), IH. lia. Qed.

Lemma braces_texts texts : braces (map TText texts) = 0%Z.
Proof. induction texts as [|t x IH]; [done|]. cbn [map]. by rewrite braces_cons, IH. Qed.

Lemma counting_in d texts ks t : counting d texts ks -> t ∈ texts -> significant d t -> t ∈ ks.
Proof.
  induction 1 as [|a k ts ks [Hs ->] Hc IH|a ts ks Hn Hc IH]; intros Hin Ht.
  - by apply not_elem_of_nil in Hin.
  - apply elem_of_cons in Hin as [->|Hin]; [left|right; by apply IH].
  - apply elem_of_cons in Hin as [->|Hin]; [by destruct (Hn a)|by apply IH].
Qed.

Lemma names_in_cur cur d ts ns s : names_in cur d ts ns -> s ∈ cur -> exists name, name ∈ ns /\ s ∈ name.
Proof.
  intros H Hs. destruct H as [cur d texts texts' ks Hd Hc|cur d texts ks c rest ns Hc Ha H|d bs ks i c post ns Hd Hc Hi Ha Hca H
                 |d bs ks i post ns Hd Hc Hi Ha Hp H].
  - exists (cur ++ ks). split; [by destruct cur; [apply not_elem_of_nil in Hs|left]|]. apply elem_of_app. by left.
  - exists (cur ++ ks). split; [by destruct cur; [apply not_elem_of_nil in Hs|left]|]. apply elem_of_app. by left.
  - by apply not_elem_of_nil in Hs.
  - by apply not_elem_of_nil in Hs.
Qed.

Lemma name_if_any_in ks (s : str) : s ∈ ks -> exists name, name ∈ name_if_any ks /\ s ∈ name.
Proof. intros H. exists ks. split; [|done]. destruct ks; [by apply not_elem_of_nil in H|left]. Qed.

Lemma names_in_nothing_lost cur d ts ns x t y :
  names_in cur d ts ns -> ts = x ++ TText t :: y ->
  significant (d + braces x)%Z t -> ~ as_here t y -> (hash t -> y <> []) ->
  exists name, name ∈ ns /\ t ∈ name.
Proof.
  intros H. revert x y.
  induction H as [cur d texts texts' ks Hd Hc|cur d texts ks c rest ns Hc Ha H IH|d bs ks i c post ns Hd Hc Hi Ha Hca H IH
                 |d bs ks i post ns Hd Hc Hi Ha Hp H IH]; intros x y E Hs Has Hh.
  - apply map_split in E as (x' & y' & -> & -> & ->). rewrite braces_texts, Z.add_0_r in Hs.
    apply name_if_any_in, elem_of_app. right. apply (counting_in d texts' ks t Hc); [|done].
    destruct Hd as [(h & E & Hhash)|[<- _]].
    + destruct y' as [|y0 y'] using rev_ind.
      * apply app_inj_tail in E as [<- ->]. by destruct (Hh Hhash).
      * rewrite app_comm_cons, app_assoc in E. apply app_inj_tail in E as [<- ->].
        apply elem_of_app. right. left.
    + apply elem_of_app. right. left.
  - apply app_split in E as [(z & E & ->)|(z & -> & E)].
    + apply map_split in E as (x' & y' & -> & -> & ->). rewrite braces_texts, Z.add_0_r in Hs.
      destruct (name_if_any_in (cur ++ ks) t) as (name & H1 & H2).
      { apply elem_of_app. right. apply (counting_in d _ ks t Hc); [|done]. apply elem_of_app. right. left. }
      exists name. split; [|done]. apply elem_of_app. by left.
    + destruct z as [|z0 z]; [done|]. injection E as <- ->.
      rewrite braces_app, braces_texts, (braces_cons (TChar c) z) in Hs.
      destruct (IH z y eq_refl) as (name & H1 & H2); [|done|done|].
      { by replace (d + braces [TChar c] + braces z)%Z with (d + (0 + (braces [TChar c] + braces z)))%Z by lia. }
      exists name. split; [|done]. apply elem_of_app. by right.
  - pose proof Hi as (Ht & Hna & He & _ & _ & Hb & Hb1).
    apply app_split in E as [(z & E & ->)|(x1 & -> & E)].
    { destruct x as [|x0 [|x1 x]]; [injection E as <- <-|by injection E|by destruct x]. destruct Has.
      split; [done|]. by eexists. }
    rewrite braces_app in Hs. change (braces as_words) with 0%Z in Hs.
    apply app_split in E as [(z & E & ->)|(x2 & -> & E)].
    { apply map_split in E as (x' & y' & -> & -> & ->). rewrite braces_texts, !Z.add_0_r in Hs.
      apply (names_in_cur _ _ _ _ t H). apply elem_of_app. left. apply (counting_in d _ ks t Hc); [|done].
      apply elem_of_app. right. left. }
    rewrite braces_app, braces_texts in Hs.
    apply app_split in E as [(z & -> & ->)|(x3 & -> & E)].
    { destruct x2 as [|t0 x2]; [by destruct (Ht t z)|].
      assert (Hb0 : braces [t0] = 0%Z).
      { destruct t0 as [s|c0|e]; [done| |done]. cbn [app] in Hb1. destruct (Hb1 (x2 ++ TText t :: z)) as [B1 B2].
        rewrite <- brace_change_spec. unfold brace_change. destruct (N.eqb_spec c0 123) as [->|_]; [done|].
        by destruct (N.eqb_spec c0 125) as [->|_]. }
      rewrite braces_cons, Hb0 in Hs. cbn [after_trait app] in IH.
      apply (IH x2 (z ++ TChar 62 :: post)).
      - by rewrite <- app_assoc.
      - replace (d + braces x2)%Z with (d + (0 + (0 + (0 + braces x2))))%Z by lia. done.
      - intros [-> [r Hr]]. apply Has. split; [done|]. destruct z as [|z0 z]; [done|]. injection Hr as -> _. by eexists.
      - intros _. by destruct z. }
    rewrite braces_app, Hb in Hs.
    destruct x3 as [|x30 x3]; [done|]. injection E as <- E.
    rewrite braces_cons in Hs. change (braces [TChar 62]) with 0%Z in Hs.
    destruct x3 as [|x31 x3].
    { injection E as -> ->. apply (names_in_cur _ _ _ _ t H). apply elem_of_app. right. left. }
    injection E as <- ->. rewrite braces_cons in Hs. change (braces [TText c]) with 0%Z in Hs.
    destruct i as [|t0 i]; cbn [after_trait] in IH.
    { apply (IH x3 y); [done| |done|done]. by replace (d + braces x3)%Z with (d + (0 + (0 + (0 + (0 + (0 + braces x3))))))%Z by lia. }
    assert (Hb0 : braces [t0] = 0%Z).
    { destruct t0 as [s|c0|e]; [done| |done]. destruct (Hb1 i) as [B1 B2].
      rewrite <- brace_change_spec. unfold brace_change. destruct (N.eqb_spec c0 123) as [->|_]; [done|].
      by destruct (N.eqb_spec c0 125) as [->|_]. }
    apply (IH (i ++ TChar 62 :: x3) y); [by rewrite <- app_assoc| |done|done].
    rewrite braces_app, (braces_cons (TChar 62) x3). change (braces [TChar 62]) with 0%Z.
    rewrite braces_cons, Hb0 in Hb. replace (braces i) with 0%Z by lia.
    by replace (d + (0 + (0 + braces x3)))%Z with (d + (0 + (0 + (0 + (0 + (0 + braces x3))))))%Z by lia.
  - enough (Hin : exists name, (name = ks \/ name ∈ ns) /\ t ∈ name).
    { destruct Hin as (name & [->|Hin] & Hn); [exists ks|exists name]; (split; [|done]); [left|by right]. }
    pose proof Hi as (Ht & Hna & He & _ & _ & Hb & Hb1).
    apply app_split in E as [(z & E & ->)|(x1 & -> & E)].
    { destruct x as [|x0 [|x1 x]]; [injection E as <- <-|by injection E|by destruct x]. destruct Has.
      split; [done|]. by eexists. }
    rewrite braces_app in Hs. change (braces as_words) with 0%Z in Hs.
    apply app_split in E as [(z & E & ->)|(x2 & -> & E)].
    { apply map_split in E as (x' & y' & -> & -> & ->). rewrite braces_texts, !Z.add_0_r in Hs.
      exists ks. split; [by left|]. apply (counting_in d _ ks t Hc); [|done]. apply elem_of_app. right. left. }
    rewrite braces_app, braces_texts in Hs.
    apply app_split in E as [(z & -> & ->)|(x3 & -> & E)].
    { destruct x2 as [|t0 x2]; [by destruct (Ht t z)|].
      assert (Hb0 : braces [t0] = 0%Z).
      { destruct t0 as [s|c0|e]; [done| |done]. cbn [app] in Hb1. destruct (Hb1 (x2 ++ TText t :: z)) as [B1 B2].
        rewrite <- brace_change_spec. unfold brace_change. destruct (N.eqb_spec c0 123) as [->|_]; [done|].
        by destruct (N.eqb_spec c0 125) as [->|_]. }
      rewrite braces_cons, Hb0 in Hs. cbn [after_trait app] in IH.
      destruct (IH x2 (z ++ TChar 62 :: post)) as (name & Hn1 & Hn2); [| | | |exists name; by split; [right|]].
      - by rewrite <- app_assoc.
      - replace (d + braces x2)%Z with (d + (0 + (0 + (0 + braces x2))))%Z by lia. done.
      - intros [-> [r Hr]]. apply Has. split; [done|]. destruct z as [|z0 z]; [done|]. injection Hr as -> _. by eexists.
      - intros _. by destruct z. }
    rewrite braces_app, Hb in Hs.
    destruct x3 as [|x30 x3]; [done|]. injection E as <- E.
    rewrite braces_cons in Hs. change (braces [TChar 62]) with 0%Z in Hs.
    subst post.
    destruct i as [|t0 i]; cbn [after_trait] in IH.
    { destruct (IH x3 y) as (name & Hn1 & Hn2); [done| |done|done|exists name; by split; [right|]]. by replace (d + braces x3)%Z with (d + (0 + (0 + (0 + (0 + braces x3)))))%Z by lia. }
    assert (Hb0 : braces [t0] = 0%Z).
    { destruct t0 as [s|c0|e]; [done| |done]. destruct (Hb1 i) as [B1 B2].
      rewrite <- brace_change_spec. unfold brace_change. destruct (N.eqb_spec c0 123) as [->|_]; [done|].
      by destruct (N.eqb_spec c0 125) as [->|_]. }
    destruct (IH (i ++ TChar 62 :: x3) y) as (name & Hn1 & Hn2); [by rewrite <- app_assoc| |done|done|exists name; by split; [right|]].
    rewrite braces_app, (braces_cons (TChar 62) x3). change (braces [TChar 62]) with 0%Z.
    rewrite braces_cons, Hb0 in Hb. replace (braces i) with 0%Z by lia.
    by replace (d + (0 + (0 + braces x3)))%Z with (d + (0 + (0 + (0 + (0 + braces x3)))))%Z by lia.
Qed.

(** ** Runs of texts *)

Lemma texts_chars_eq (ts1 ts2 : list str) (c1 c2 : N) (r1 r2 : list dtoken) :
  map TText ts1 ++ TChar c1 :: r1 = map TText ts2 ++ TChar c2 :: r2 -> ts1 = ts2 /\ c1 = c2 /\ r1 = r2.
Proof.
  revert ts2. induction ts1 as [|t ts1 IH]; intros [|t2 ts2] H; cbn in H; try done.
  - by injection H as -> ->.
  - injection H as -> H. by destruct (IH ts2 H) as (-> & -> & ->).
Qed.

Lemma counting_fun d texts ks ks' : counting d texts ks -> counting d texts ks' -> ks = ks'.
Proof. apply gathered_fun. by intros a b b' [_ ->] [_ ->]. Qed.

Lemma run_is_name cur d ts ns x r y ks :
  names_in cur d ts ns -> no_as ts -> ts = x ++ map TText r ++ y ->
  (cur = [] /\ x = [] \/ exists x' a, x = x' ++ [TChar a]) ->
  (y = [] /\ (forall r' h, r = r' ++ [h] -> ~ hash h) \/ exists b y', y = TChar b :: y') ->
  counting (d + braces x)%Z r ks -> ks <> [] -> ks ∈ ns.
Proof.
  intros H. revert x. induction H as [cur d texts texts' ks0 Hd Hc|cur d texts ks0 c rest ns Hc Ha H IH|d bs ks0 i c post ns Hd Hc Hi Ha Hca H IH
                 |d bs ks0 i post ns Hd Hc Hi Ha Hp H IH]; intros x Hna E Hx Hy Hk Hne.
  - destruct Hx as [[-> ->]|(x' & a & ->)].
    2:{ exfalso. assert (Hin : TChar a ∈ map TText texts) by (rewrite E; rewrite !elem_of_app; left; right; left).
        apply elem_of_list_fmap in Hin as (? & ? & _). done. }
    destruct Hy as [[-> Hh]|(b & y' & ->)].
    2:{ exfalso. assert (Hin : TChar b ∈ map TText texts) by (rewrite E; rewrite !elem_of_app; right; right; left).
        apply elem_of_list_fmap in Hin as (? & ? & _). done. }
    rewrite app_nil_r in E. cbn [app] in E. assert (Hr : texts = r).
    { clear -E. revert r E. induction texts as [|t ts IH]; intros [|t2 r] E; try done. cbn in E. injection E as -> E. by rewrite (IH r E). }
    subst r. destruct Hd as [(h & -> & Hhash)|[-> _]]; [by destruct (Hh texts' h)|].
    change (braces []) with 0%Z in Hk. rewrite Z.add_0_r in Hk.
    rewrite (counting_fun d texts' ks ks0 Hk Hc) in *. cbn [app]. destruct ks0; [done|left].
  - assert (Hna' : no_as rest) by (apply (no_as_app_r (map TText texts ++ [TChar c])); by rewrite <- app_assoc).
    apply elem_of_app. destruct Hx as [[-> ->]|(x' & a & ->)].
    + left. cbn [app] in *. destruct Hy as [[-> _]|(b & y' & ->)].
      * exfalso. rewrite app_nil_r in E. assert (Hin : TChar c ∈ map TText r) by (rewrite <- E; rewrite elem_of_app; right; left).
        apply elem_of_list_fmap in Hin as (? & ? & _). done.
      * apply texts_chars_eq in E as (-> & _ & _). change (braces []) with 0%Z in Hk. rewrite Z.add_0_r in Hk.
        rewrite (counting_fun _ _ _ _ Hk Hc) in *. destruct ks0; [done|left].
    + right. rewrite <- app_assoc in E. cbn [app] in E.
      apply app_split in E as [(z & E & _)|(z & -> & E)].
      { exfalso. assert (Hin : TChar a ∈ map TText texts) by (rewrite E; rewrite !elem_of_app; right; left).
        apply elem_of_list_fmap in Hin as (? & ? & _). done. }
      destruct z as [|z0 z]; cbn in E; [injection E as -> ->|injection E as <- ->].
      * apply (IH []); [done|done|by left|done| |done]. change (braces []) with 0%Z. rewrite Z.add_0_r.
        by rewrite app_nil_r, braces_app, braces_texts, Z.add_0_l in Hk.
      * apply (IH (z ++ [TChar a])); [done|by rewrite <- app_assoc|right; by eexists _, _|done| |done].
        rewrite !braces_app, braces_texts, braces_cons in Hk. rewrite braces_app.
        by replace (d + braces [TChar c] + (braces z + braces [TChar a]))%Z with
          (d + (0 + (braces [TChar c] + braces z) + braces [TChar a]))%Z by lia.
  - exfalso. by apply (Hna [] (map TText bs ++ i ++ TChar 62 :: TText c :: post)).
  - exfalso. by apply (Hna [] (map TText bs ++ i ++ TChar 62 :: post)).
Qed.

(** ** Symbols *)

Lemma collect_first {S} (next : S -> stepped S) (s : S) t ts :
  produces next s (t :: ts) -> exists s', next s = SYield t s' /\ produces next s' ts.
Proof.
  intros [[|n] H]; [done|]. cbn [collect] in H. destruct (next s) as [t' s'| | |] eqn:E; try done.
  destruct (collect next n s') as [l| |] eqn:E'; try done. injection H as <- <-. exists s'. split; [done|]. by exists n.
Qed.

Lemma collect_none {S} (next : S -> stepped S) (s : S) :
  produces next s [] -> exists s', next s = SStop s'.
Proof.
  intros [[|n] H]; [done|]. cbn [collect] in H. destruct (next s) as [t' s'|s'| |] eqn:E; try done; [|by exists s'].
  by destruct (collect next n s').
Qed.

Lemma crate_name_spec sym ts :
  utf8_valid sym = true -> demangled sym ts ->
  crate_name sym = Some (match ts with TText t :: _ => Some t | _ => None end).
Proof.
  intros Hv H. unfold crate_name. rewrite Hv. cbn [first_tokens]. destruct ts as [|t ts].
  - apply collect_none in H as [s' ->]. done.
  - apply collect_first in H as (s' & -> & _). by destruct t.
Qed.

Lemma module_name_spec sym t ts :
  utf8_valid sym = true -> demangled sym (t :: ts) ->
  module_name sym = Some (match t, ts with TText _, TText m :: _ => Some m | _, _ => None end).
Proof.
  intros Hv H. unfold module_name. rewrite Hv. cbn [first_tokens]. apply collect_first in H as (s' & -> & H).
  destruct ts as [|m ts].
  - apply collect_none in H as [s'' ->]. by destruct t.
  - apply collect_first in H as (s'' & -> & _). by destruct t, m.
Qed.

Lemma look_through_spec ps d ts :
  produces demangle_next d ts ->
  exists b, look_through ps d = Some b /\ (b = true <-> map TText ps `prefix_of` ts).
Proof.
  revert d ts. induction ps as [|p ps IH]; intros d ts H; cbn [look_through].
  { exists true. split; [done|]. split; [intros _; by eexists|done]. }
  destruct ts as [|t ts].
  - apply collect_none in H as [s' ->]. exists false. split; [done|]. split; [done|]. by intros [? ?].
  - apply collect_first in H as (s' & -> & H). destruct t as [s|c|e].
    + destruct (str_eqb s p) eqn:E.
      * apply str_eqb_spec in E as ->. destruct (IH s' ts H) as (b & -> & Hb). exists b. split; [done|]. rewrite Hb. cbn [map].
        split; [apply prefix_cons|apply prefix_cons_inv_2].
      * exists false. split; [done|]. split; [done|]. intros Hp%prefix_cons_inv_1. injection Hp as ->.
        by rewrite (proj2 (str_eqb_spec s s)) in E.
    + exists false. split; [done|]. split; [done|]. by intros Hp%prefix_cons_inv_1.
    + exists false. split; [done|]. split; [done|]. by intros Hp%prefix_cons_inv_1.
Qed.

Lemma crate_name_is (sym c : str) : crate_name sym = Some (Some c) <-> crate_is sym c.
Proof.
  unfold crate_name, crate_is. rewrite <- utf8_valid_spec. destruct (utf8_valid sym); [|split; [done|by intros [? _]]].
  cbn [first_tokens]. split.
  - intros H. split; [done|]. destruct (demangle_next (demangle_new sym)) as [t d'|d'| |] eqn:E; try done.
    destruct t; try done. injection H as ->. by econstructor; [|constructor].
  - intros [_ H]. inversion H as [|d t d' ts E H' E1 E2]; subst. by rewrite E.
Qed.

Lemma first_two (d : demangler) (a b : dtoken) :
  first_tokens 2 d = Some [Some a; Some b] <-> begins d [a; b].
Proof.
  cbn [first_tokens]. split.
  - intros H. destruct (demangle_next d) as [t d'|d'| |] eqn:E; try done;
      destruct (demangle_next d') as [t' d''|d''| |] eqn:E'; try done.
    injection H as -> ->. econstructor; [done|]. by econstructor; [|constructor].
  - intros H. inversion H as [|? ? ? ? E H']; subst. inversion H' as [|? ? ? ? E' _]; subst. by rewrite E, E'.
Qed.

Lemma module_name_is (sym m : str) : module_name sym = Some (Some m) <-> module_is sym m.
Proof.
  unfold module_name, module_is. rewrite <- utf8_valid_spec. destruct (utf8_valid sym); [|split; [done|by intros [? _]]].
  split.
  - intros H. split; [done|]. destruct (first_tokens 2 (demangle_new sym)) as [l|] eqn:E; [|done].
    destruct l as [|[[x|?|?]|] [|[[y|?|?]|] [|? ?]]]; try done. injection H as ->. exists x. by apply first_two.
  - intros (_ & c & H%first_two). by rewrite H.
Qed.

Lemma look_through_begins (ps : list str) : forall d, look_through ps d = Some true <-> begins d (map TText ps).
Proof.
  induction ps as [|p ps IH]; intros d; cbn [look_through map]; [split; [constructor|done]|]. split.
  - intros H. destruct (demangle_next d) as [t d'|d'| |] eqn:E; try done. destruct t as [t|?|?]; try done.
    destruct (str_eqb t p) eqn:Et; [|done]. apply str_eqb_spec in Et as ->. econstructor; [done|]. by apply IH.
  - intros H. inversion H as [|? ? ? ? E H']; subst. rewrite E, (proj2 (str_eqb_spec p p)) by done. by apply IH.
Qed.

Lemma look_through_is (sym : str) : is_look_through sym = Some true <-> function_shim sym.
Proof.
  unfold is_look_through, function_shim. rewrite <- utf8_valid_spec.
  destruct (utf8_valid sym); [|split; [done|by intros [? _]]].
  rewrite (look_through_begins [lit "core"; lit "ops"; lit "function"]). split; [done|by intros [_ ?]].
Qed.
