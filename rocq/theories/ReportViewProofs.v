(** Lists of uses and views of sources. *)
From stdpp Require Import pretty sorting.
From Verif Require Import Base BaseFacts TextModel TextFacts ConfigModel ReportModel ReportSpec BuildScriptProofs EditorMoreProofs.

Lemma StronglySorted_impl_strict {A : Type} (R S : A -> A -> Prop) (l : list A) :
  (forall a b, R a b -> S a b) -> StronglySorted R l -> StronglySorted S l.
Proof.
  intros H. induction 1 as [|x l Hl IH Hx]; constructor; [done|].
  eapply Forall_impl; [exact Hx|]. intros y Hy. by apply H.
Qed.

Lemma StronglySorted_fmap_map {A B : Type} (f : A -> B) (R : B -> B -> Prop) (l : list A) :
  StronglySorted (fun a b => R (f a) (f b)) l -> StronglySorted R (map f l).
Proof.
  induction 1 as [|x l Hl IH Hx]; cbn; constructor; [done|].
  clear Hl IH. induction Hx; cbn; constructor; done.
Qed.

(** ** Lists of uses *)

Lemma place_leb_spec (a b : place) : place_leb a b = true <-> before a b.
Proof.
  unfold place_leb. destruct (decide (pl_file a = pl_file b)) as [Hf|Hf].
  - destruct (N.eqb_spec (pl_line a) (pl_line b)) as [Hl|Hl].
    + destruct (pl_column a) as [x|] eqn:Ex.
      * destruct (pl_column b) as [y|] eqn:Ey.
        -- rewrite N.leb_le. split; [intros H; by eapply before_column|].
           intros H. destruct H as [a b H|a b H H'|a b H H' H''|a b x' y' H H' Hx Hy Hxy]; try congruence.
           ++ rewrite Hf in H. by apply bytes_lt_irrefl in H.
           ++ lia.
        -- split; [done|]. intros H.
           destruct H as [a b H|a b H H'|a b H H' H''|a b x' y' H H' Hx Hy Hxy]; try congruence.
           ++ rewrite Hf in H. by apply bytes_lt_irrefl in H.
           ++ lia.
      * split; [|done]. intros _. by apply before_no_column.
    + rewrite N.leb_le. split; [intros H; apply before_line; [done|lia]|].
      intros H. destruct H as [a b H|a b H H'|a b H H' H''|a b x' y' H H' Hx Hy Hxy]; try done.
      * rewrite Hf in H. by apply bytes_lt_irrefl in H.
      * lia.
  - rewrite str_leb_spec. split; [intros [?|?]; [done|by apply before_file]|].
    intros H. destruct H as [a b H|a b H H'|a b H H' H''|a b x' y' H H' Hx Hy Hxy]; try done. by right.
Qed.

Lemma place_leb_total (a b : place) : place_leb a b = false -> place_leb b a = true.
Proof.
  intros H. rewrite place_leb_spec. apply not_true_iff_false in H. rewrite place_leb_spec in H.
  destruct (decide (pl_file a = pl_file b)) as [Hf|Hf].
  - destruct (N.lt_trichotomy (pl_line a) (pl_line b)) as [Hl|[Hl|Hl]].
    + destruct H. by apply before_line.
    + destruct (pl_column a) as [x|] eqn:Ex; [|destruct H; by apply before_no_column].
      destruct (pl_column b) as [y|] eqn:Ey; [|by apply before_no_column].
      destruct (N.le_gt_cases x y) as [?|?]; [destruct H; by eapply before_column|].
      eapply before_column; [done|done|exact Ey|exact Ex|lia].
    + by apply before_line.
  - destruct (bytes_lt_total _ _ Hf); [destruct H; by apply before_file|by apply before_file].
Qed.

Lemma before_trans (a b c : place) : before a b -> before b c -> before a c.
Proof.
  intros H1 H2. destruct H1 as [a b H|a b H H'|a b H H' H''|a b x y H H' Hx Hy Hxy].
  - apply before_file.
    destruct H2 as [b c K|b c K K'|b c K K' K''|b c x' y' K K' Kx Ky Kxy]; try (by rewrite <- K).
    by eapply bytes_lt_trans.
  - destruct H2 as [b c K|b c K K'|b c K K' K''|b c x' y' K K' Kx Ky Kxy].
    + apply before_file. by rewrite H.
    + apply before_line; [congruence|lia].
    + apply before_line; [congruence|lia].
    + apply before_line; [congruence|lia].
  - destruct H2 as [b c K|b c K K'|b c K K' K''|b c x' y' K K' Kx Ky Kxy].
    + apply before_file. by rewrite H.
    + apply before_line; [congruence|lia].
    + apply before_no_column; congruence.
    + apply before_no_column; congruence.
  - destruct H2 as [b c K|b c K K'|b c K K' K''|b c x' y' K K' Kx Ky Kxy].
    + apply before_file. by rewrite H.
    + apply before_line; [congruence|lia].
    + congruence.
    + eapply before_column; [congruence|congruence|exact Hx|exact Ky|].
      rewrite Hy in Kx. injection Kx as ->. lia.
Qed.

Lemma insert_listed_perm (u : listed_use) (l : list listed_use) : insert_listed u l ≡ₚ u :: l.
Proof.
  induction l as [|v l IH]; cbn; [done|]. destruct (place_leb (ld_place u) (ld_place v)); [done|].
  rewrite IH. by constructor.
Qed.

Lemma sort_listed_perm (l : list listed_use) : foldr insert_listed [] l ≡ₚ l.
Proof. induction l as [|u l IH]; cbn; [done|]. by rewrite insert_listed_perm, IH. Qed.

Lemma insert_listed_sorted (u : listed_use) (l : list listed_use) :
  StronglySorted (fun a b => before (ld_place a) (ld_place b)) l ->
  StronglySorted (fun a b => before (ld_place a) (ld_place b)) (insert_listed u l).
Proof.
  induction l as [|v l IH]; intros H; cbn; [by repeat constructor|].
  apply StronglySorted_inv in H as [H Hv].
  destruct (place_leb (ld_place u) (ld_place v)) eqn:E.
  - apply place_leb_spec in E. constructor; [by constructor|]. constructor; [done|].
    eapply Forall_impl; [exact Hv|]. intros w Hw. cbn in Hw. by eapply before_trans.
  - constructor; [by apply IH|]. rewrite insert_listed_perm. constructor; [|done].
    by apply place_leb_spec, place_leb_total.
Qed.

Lemma sort_listed_sorted (l : list listed_use) :
  StronglySorted (fun a b => before (ld_place a) (ld_place b)) (foldr insert_listed [] l).
Proof. induction l as [|u l IH]; cbn; [constructor|]. by apply insert_listed_sorted. Qed.

(** Entries with equal places keep their order. *)
Lemma insert_listed_stable (u : listed_use) (p : place) (l : list listed_use) :
  filter (fun v => ld_place v = p) (insert_listed u l) = filter (fun v => ld_place v = p) (u :: l).
Proof.
  induction l as [|v l IH]; cbn [insert_listed]; [done|].
  destruct (place_leb (ld_place u) (ld_place v)) eqn:E; [done|].
  rewrite filter_cons, IH, !filter_cons.
  destruct (decide (ld_place v = p)) as [Hv|Hv], (decide (ld_place u = p)) as [Hu|Hu]; try done.
  exfalso. apply not_true_iff_false in E. apply E. apply place_leb_spec. rewrite Hu, Hv.
  destruct (pl_column p) as [c|] eqn:Ec; [eapply before_column|apply before_no_column]; try done.
Qed.

Lemma sort_listed_stable (p : place) (l : list listed_use) :
  filter (fun v => ld_place v = p) (foldr insert_listed [] l) = filter (fun v => ld_place v = p) l.
Proof.
  induction l as [|u l IH]; cbn [foldr]; [done|]. rewrite insert_listed_stable, !filter_cons.
  by rewrite IH.
Qed.

(** ** Sources *)

Lemma as_i32_small (n : Z) : (- 2 ^ 31 <= n < 2 ^ 31)%Z -> as_i32 n = n.
Proof. intros H. unfold as_i32. rewrite Z.mod_small by lia. lia. Qed.

Lemma format_tokens_text (target : option nat) (ts : list str) (offset : nat) :
  concat (map sn_text (format_tokens offset target ts)) = concat ts.
Proof.
  revert offset. induction ts as [|t ts IH]; intros offset; cbn [format_tokens map concat]; [done|].
  by rewrite IH.
Qed.

Lemma format_tokens_none (ts : list str) (offset : nat) : unmarked (format_tokens offset None ts).
Proof. revert offset. induction ts as [|t ts IH]; intros offset; cbn; constructor; [done|apply IH]. Qed.

Lemma format_tokens_past (c : nat) (ts : list str) (offset : nat) :
  c < offset \/ offset + length (concat ts) <= c -> unmarked (format_tokens offset (Some c) ts).
Proof.
  revert offset. induction ts as [|t ts IH]; intros offset H; cbn [format_tokens]; constructor.
  - cbn [sn_marked]. cbn [concat] in H. rewrite app_length in H.
    destruct (Nat.leb_spec offset c); [|done]. destruct (Nat.ltb_spec c (offset + length t)); [lia|done].
  - apply IH. cbn [concat] in H. rewrite app_length in H. lia.
Qed.

Lemma format_tokens_at (c : nat) (ts : list str) (offset : nat) :
  c < length (concat ts) -> marked_at (format_tokens offset (Some (offset + c)) ts) c.
Proof.
  revert offset c. induction ts as [|t ts IH]; intros offset c H; [cbn in H; lia|].
  cbn [format_tokens]. cbn [concat] in H. rewrite app_length in H.
  destruct (Nat.leb_spec offset (offset + c)); [|lia].
  destruct (Nat.ltb_spec (offset + c) (offset + length t)) as [Hc|Hc].
  - exists [], t, (format_tokens (offset + length t) (Some (offset + c)) ts).
    split; [done|]. split; [apply format_tokens_past; lia|]. cbn. lia.
  - destruct (IH (offset + length t) (c - length t)) as (pre & piece & post & H1 & H2 & H3); [lia|].
    replace (offset + length t + (c - length t)) with (offset + c) in H1 by lia. rewrite H1.
    exists (Span t false :: pre), piece, post. split; [done|].
    split; [cbn [app]; constructor; [done|exact H2]|].
    cbn [map concat sn_text]. rewrite app_length. lia.
Qed.

Lemma shown_from_length (lexer : str -> list str) (target : Z) (column : option N) (n : Z) (ls : list str) :
  length (shown_from lexer target column n ls) = length ls.
Proof. revert n. induction ls as [|l ls IH]; intros n; cbn; [done|]. by rewrite IH. Qed.

Lemma shown_from_lookup (lexer : str -> list str) (target : Z) (column : option N) (n : Z) (ls : list str)
    (i : nat) (l : shown_line) :
  shown_from lexer target column n ls !! i = Some l ->
  exists text, ls !! i = Some text /\
    let here := bool_decide (n + Z.of_nat i = target)%Z in
    l = ShownLine here (n + Z.of_nat i) (format_line lexer (if here then column else None) text).
Proof.
  revert n i. induction ls as [|x ls IH]; intros n [|i] H; cbn [shown_from] in H; try done.
  - injection H as <-. exists x. split; [done|]. rewrite Z.add_0_r. done.
  - apply IH in H as (text & Ht & ->). exists text. split; [done|].
    replace (n + 1 + Z.of_nat i)%Z with (n + Z.of_nat (S i))%Z by lia. done.
Qed.

Lemma source_lines_shows (lexer : str -> list str) (source : str) (ls : list str) (p : place) (height : nat) :
  cuts lexer -> BuildScriptSpec.lines_of source ls ->
  (pl_line p + N.of_nat height < 2 ^ 31 - 1)%N ->
  exists shown, source_lines lexer source p height = Some shown /\ shows ls p height shown.
Proof.
  intros Hcut Hls Hsmall. apply lines_of_fun in Hls as ->.
  pose proof (Nat.div_le_upper_bound height 2 height ltac:(lia) ltac:(lia)) as Hhalf.
  unfold source_lines.
  rewrite (as_i32_small (Z.of_nat (height / 2))) by lia.
  rewrite (as_i32_small (Z.of_N (pl_line p))) by lia.
  rewrite (as_i32_small (Z.of_N (pl_line p) - Z.of_nat (height / 2))) by lia.
  rewrite (as_i32_small (Z.of_nat height)) by lia.
  set (start := Z.max (Z.of_N (pl_line p) - Z.of_nat (height / 2)) 1).
  rewrite (as_i32_small (start + Z.of_nat height)) by lia.
  destruct (Z.ltb_spec 0 (start + Z.of_nat height)) as [_|Hneg]; [|lia].
  eexists. split; [reflexivity|].
  set (first := Z.to_nat start).
  assert (Hfirst : Z.of_nat first = start) by lia.
  assert (Hone : 1 <= first) by lia.
  exists first. split; [|split; [|split]].
  - destruct (decide (first = 1)); [by left|right]. split; lia.
  - lia.
  - rewrite shown_from_length, take_length, drop_length. lia.
  - intros i l Hl. apply shown_from_lookup in Hl as (text & Ht & ->).
    cbn [sl_number sl_spans sl_marker].
    assert (Hlt : i < height).
    { destruct (decide (i < height)) as [?|Hge]; [done|]. by rewrite lookup_take_ge in Ht by lia. }
    rewrite lookup_take in Ht by done. rewrite lookup_drop in Ht.
    assert (Htext : span_text (ShownLine (bool_decide (start + Z.of_nat i = Z.of_N (pl_line p))%Z)
              (start + Z.of_nat i)
              (format_line lexer (if bool_decide (start + Z.of_nat i = Z.of_N (pl_line p))%Z
                                  then pl_column p else None) text)) = text).
    { unfold span_text, format_line. cbn [sl_spans]. rewrite format_tokens_text. apply Hcut. }
    rewrite Htext.
    assert (Hhere : (start + Z.of_nat i = Z.of_N (pl_line p))%Z <-> N.of_nat (first + i) = pl_line p) by lia.
    split; [lia|]. split; [by replace (first + i - 1) with (Z.to_nat start - 1 + i) by lia|].
    split; [rewrite bool_decide_eq_true; exact Hhere|].
    unfold format_line. split; [|split].
    + intros Hno. rewrite bool_decide_eq_false_2 by tauto. apply format_tokens_none.
    + intros ->. destruct (bool_decide _); apply format_tokens_none.
    + intros c -> Hyes. rewrite bool_decide_eq_true_2 by tauto. cbn [fmap option_fmap option_map].
      replace (N.to_nat (N.of_nat (c + 1)) - 1) with c by lia. rewrite <- (Hcut text) at 1 3.
      split; intros Hc.
      * apply (format_tokens_at c (lexer text) 0). exact Hc.
      * apply format_tokens_past. right. exact Hc.
Qed.

Lemma shows_target (ls : list str) (p : place) (height : nat) (shown : list shown_line) :
  shows ls p height shown -> 1 <= height -> (1 <= pl_line p)%N -> N.to_nat (pl_line p) <= length ls ->
  exists l, l ∈ shown /\ sl_number l = Z.of_N (pl_line p) /\ sl_marker l = true.
Proof.
  intros (first & H1 & H2 & Hlen & Hat) Hh Hp Hin.
  assert (Hhalf : height / 2 < height) by (apply Nat.div_lt; lia).
  set (i := N.to_nat (pl_line p) - first).
  assert (Hi : i < length shown).
  { rewrite Hlen. destruct H1 as [->|[H1 H1']]; [specialize (H2 eq_refl)|]; lia. }
  destruct (lookup_lt_is_Some_2 shown i Hi) as [l Hl]. exists l.
  split; [by eapply elem_of_list_lookup_2|]. specialize (Hat i l Hl) as (Hn & _ & Hm & _).
  assert (Hfi : N.of_nat (first + i) = pl_line p).
  { destruct H1 as [->|[H1 H1']]; lia. }
  split; [lia|]. by apply Hm.
Qed.
