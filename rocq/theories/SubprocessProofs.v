(** Proofs about the wrappers. *)
From Coq Require Import Sorted.
From Verif Require Import Base BaseFacts TextSpec Utf8Proofs TextModel TextFacts ApiMapModel ConfigModel ConfigSpec ConfigProofs ProblemModel StoreModel
  BuildScriptModel BuildScriptSpec BuildScriptProofs ScannerModel ScannerSpec ScannerProofs DepsModel
  IndexModel IndexSpec SandboxModel SubprocessModel SubprocessSpec.

Lemma eqb_no (a b : str) : a <> b -> str_eqb a b = false.
Proof. intros H. destruct (str_eqb a b) eqn:E; [|done]. by apply str_eqb_spec in E. Qed.

(** ** rustc's arguments *)

Lemma error_format_no (a : str) : ~ lit "--error-format" `prefix_of` a -> starts_with (lit "--error-format") a = false.
Proof. intros H. destruct (starts_with _ a) eqn:E; [|done]. apply starts_with_spec in E. by destruct H. Qed.

Lemma kept_args_other (a : str) (rest : list str) (l : option str) :
  a <> lit "-C" -> ~ lit "--error-format" `prefix_of` a ->
  kept_args (a :: rest) l = (a :: (kept_args rest l).1, (kept_args rest l).2).
Proof.
  intros H1 H2. cbn [kept_args]. rewrite (eqb_no a (lit "-C") H1), (error_format_no a H2).
  by destruct (kept_args rest l).
Qed.

Lemma kept_args_linker (x : str) (rest : list str) (l : option str) :
  kept_args (lit "-C" :: (lit "linker=" ++ x) :: rest) l = kept_args rest (Some x).
Proof.
  cbn [kept_args]. rewrite (proj2 (str_eqb_spec (lit "-C") (lit "-C")) eq_refl).
  by rewrite strip_prefix_app.
Qed.

Lemma debug_no_linker (x : str) : strip_prefix (lit "linker=") (lit "debuginfo=" ++ x) = None.
Proof. done. Qed.
Lemma debug_starts (x : str) : starts_with (lit "debuginfo=") (lit "debuginfo=" ++ x) = true.
Proof. apply starts_with_spec. by exists x. Qed.
Lemma c_format : starts_with (lit "--error-format") (lit "-C") = false.
Proof. by vm_compute. Qed.
Lemma c_eqb : str_eqb (lit "-C") (lit "-C") = true.
Proof. by vm_compute. Qed.

Lemma kept_args_debug (x : str) (rest : list str) (l : option str) :
  kept_args (lit "-C" :: (lit "debuginfo=" ++ x) :: rest) l = kept_args rest l.
Proof. cbn [kept_args]. by rewrite c_eqb, debug_no_linker, debug_starts. Qed.

Lemma kept_args_format (x : str) (rest : list str) (l : option str) :
  kept_args ((lit "--error-format" ++ x) :: rest) l = kept_args rest l.
Proof.
  cbn [kept_args]. assert (E : starts_with (lit "--error-format") (lit "--error-format" ++ x) = true).
  { apply starts_with_spec. by exists x. }
  rewrite E. by assert (E1 : str_eqb (lit "--error-format" ++ x) (lit "-C") = false) by done; rewrite E1.
Qed.

Lemma kept_args_codegen (o : str) (rest : list str) (l : option str) :
  ~ lit "linker=" `prefix_of` o -> ~ lit "debuginfo=" `prefix_of` o -> o <> lit "-C" ->
  ~ lit "--error-format" `prefix_of` o ->
  kept_args (lit "-C" :: o :: rest) l = (lit "-C" :: o :: (kept_args rest l).1, (kept_args rest l).2).
Proof.
  intros H1 H2 H3 H4.
  assert (E : kept_args (lit "-C" :: o :: rest) l
    = (lit "-C" :: (kept_args (o :: rest) l).1, (kept_args (o :: rest) l).2)).
  { change (kept_args (lit "-C" :: o :: rest) l) with
      (let pass := if starts_with (lit "--error-format") (lit "-C") then kept_args (o :: rest) l
        else let '(args, linker) := kept_args (o :: rest) l in (lit "-C" :: args, linker) in
       if str_eqb (lit "-C") (lit "-C") then
         match strip_prefix (lit "linker=") o with
         | Some l' => kept_args rest (Some l')
         | None => if starts_with (lit "debuginfo=") o then kept_args rest l else pass
         end else pass).
    cbv zeta. rewrite c_eqb, c_format.
    destruct (strip_prefix (lit "linker=") o) as [x|] eqn:Ex.
    { apply strip_prefix_spec in Ex. destruct H1. by exists x. }
    destruct (starts_with (lit "debuginfo=") o) eqn:Ed; [by apply starts_with_spec in Ed|].
    by destruct (kept_args (o :: rest) l). }
  rewrite E, (kept_args_other o rest l H3 H4). done.
Qed.

Lemma kept_args_spec (items : list rustc_arg) (l : option str) :
  Forall proper_arg items ->
  passed_on items (kept_args (concat (map arg_text items)) l).1 /\
  ((kept_args (concat (map arg_text items)) l).2 = l /\ (forall x, LinkerArg x ∉ items) \/
   exists x, (kept_args (concat (map arg_text items)) l).2 = Some x /\ linker_asked items x).
Proof.
  intros H. revert l. induction H as [|a items Ha H IH]; intros l.
  { cbn. split; [constructor|]. left. split; [done|]. intros x Hx. by apply not_elem_of_nil in Hx. }
  assert (Hskip : forall r : option str * list str, (forall x, a <> LinkerArg x) ->
    (r.1 = l /\ (forall x, LinkerArg x ∉ items) \/ exists x, r.1 = Some x /\ linker_asked items x) ->
    r.1 = l /\ (forall x, LinkerArg x ∉ a :: items) \/ exists x, r.1 = Some x /\ linker_asked (a :: items) x).
  { intros r Hn [[E1 E2]|(x & E1 & b & c & E2 & E3)].
    - left. split; [done|]. intros x Hx. apply elem_of_cons in Hx as [Hx|Hx]; [by destruct (Hn x)|by destruct (E2 x)].
    - right. exists x. split; [done|]. exists (a :: b), c. by rewrite E2. }
  assert (Hsk : forall o : option str, (forall x, a <> LinkerArg x) ->
    (o = l /\ (forall x, LinkerArg x ∉ items) \/ exists x, o = Some x /\ linker_asked items x) ->
    o = l /\ (forall x, LinkerArg x ∉ a :: items) \/ exists x, o = Some x /\ linker_asked (a :: items) x).
  { intros o. exact (Hskip (o, [])). }
  destruct a as [x|x|x|x|x]; cbn [map concat arg_text app].
  - rewrite kept_args_linker. destruct (IH (Some x)) as [IH1 IH2]. split; [by constructor|]. right.
    destruct IH2 as [[E1 E2]|(y & E1 & b & c & E2 & E3)].
    + exists x. split; [done|]. by exists [], items.
    + exists y. split; [done|]. exists (LinkerArg x :: b), c. by rewrite E2.
  - rewrite kept_args_debug. destruct (IH l) as [IH1 IH2]. split; [by constructor|]. by apply Hsk.
  - rewrite kept_args_format. destruct (IH l) as [IH1 IH2]. split; [by constructor|]. by apply Hsk.
  - destruct Ha as (H1 & H2 & H3 & H4). rewrite kept_args_codegen by done. cbn [fst snd].
    destruct (IH l) as [IH1 IH2]. split; [by constructor|]. by apply Hsk.
  - destruct Ha as (H1 & H2). rewrite kept_args_other by done. cbn [fst snd].
    destruct (IH l) as [IH1 IH2]. split; [by constructor|]. by apply Hsk.
Qed.

(** ** Sorting *)

Lemma insert_perm (p : place) (l : list place) : insert_place p l ≡ₚ p :: l.
Proof.
  induction l as [|q l IH]; [done|]. cbn. destruct (compare_places p q); [done|done|]. rewrite IH. apply perm_swap.
Qed.
Lemma sort_perm (l : list place) : sort_places l ≡ₚ l.
Proof. induction l as [|p l IH]; [done|]. cbn. rewrite insert_perm. by rewrite IH. Qed.

Lemma dedup_in (p : place) (l : list place) : p ∈ dedup_places l <-> p ∈ l.
Proof.
  induction l as [|q l IH]; [done|]. destruct l as [|r l]; [done|].
  change (dedup_places (q :: r :: l)) with
    (if bool_decide (q = r) then dedup_places (r :: l) else q :: dedup_places (r :: l)).
  destruct (bool_decide_reflect (q = r)) as [->|Hn].
  - rewrite IH. set_solver.
  - rewrite elem_of_cons, IH. by rewrite (elem_of_cons (r :: l)).
Qed.

Lemma dedup_sort_in (p : place) (l : list place) : p ∈ dedup_places (sort_places l) <-> p ∈ l.
Proof. rewrite dedup_in. by rewrite sort_perm. Qed.

(** The comparison is a total order. *)
Record order {A} (cmp : A -> A -> comparison) : Prop := {
  or_eq a b : cmp a b = Eq <-> a = b;
  or_flip a b : cmp b a = CompOpp (cmp a b);
  or_trans a b c : cmp a b = Lt -> cmp b c = Lt -> cmp a c = Lt
}.

Lemma nat_order : order Nat.compare.
Proof.
  split.
  - apply Nat.compare_eq_iff.
  - intros a b. apply Nat.compare_antisym.
  - intros a b c. rewrite !Nat.compare_lt_iff. lia.
Qed.

Lemma via_order {A B} (f : A -> B) (cmp : B -> B -> comparison) :
  Inj (=) (=) f -> order cmp -> order (fun a b => cmp (f a) (f b)).
Proof.
  intros Hf [H1 H2 H3]. split.
  - intros a b. rewrite H1. split; [apply Hf|by intros ->].
  - intros a b. apply H2.
  - intros a b c. apply H3.
Qed.

Lemma list_order {A} (cmp : A -> A -> comparison) : order cmp -> order (compare_lists cmp).
Proof.
  intros [H1 H2 H3]. split.
  - induction a as [|a l IH]; intros [|b k]; cbn; [done|done|done|].
    destruct (cmp a b) eqn:E.
    + apply H1 in E as ->. rewrite IH. split; [by intros ->|by intros [= ->]].
    + split; [done|]. intros [= -> ->]. by rewrite (proj2 (H1 b b) eq_refl) in E.
    + split; [done|]. intros [= -> ->]. by rewrite (proj2 (H1 b b) eq_refl) in E.
  - induction a as [|a l IH]; intros [|b k]; cbn; [done|done|done|].
    rewrite (H2 a b). destruct (cmp a b); [apply IH|done|done].
  - induction a as [|a l IH]; intros [|b k] [|c m]; cbn; try done.
    destruct (cmp a b) eqn:E1; [apply H1 in E1 as ->| |done].
    + destruct (cmp b c) eqn:E2; [|done|done]. apply IH.
    + intros _. destruct (cmp b c) eqn:E2; [apply H1 in E2 as ->| |done].
      * by rewrite E1.
      * by rewrite (H3 a b c E1 E2).
Qed.

Lemma pair_order {A B} (ca : A -> A -> comparison) (cb : B -> B -> comparison) :
  order ca -> order cb ->
  order (fun a b : A * B => match ca a.1 b.1 with Eq => cb a.2 b.2 | c => c end).
Proof.
  intros [A1 A2 A3] [B1 B2 B3]. split.
  - intros [a a'] [b b']. cbn. destruct (ca a b) eqn:E.
    + apply A1 in E as ->. rewrite B1. split; [by intros ->|by intros [= ->]].
    + split; [done|]. intros [= -> ->]. by rewrite (proj2 (A1 b b) eq_refl) in E.
    + split; [done|]. intros [= -> ->]. by rewrite (proj2 (A1 b b) eq_refl) in E.
  - intros [a a'] [b b']. cbn. rewrite (A2 a b). destruct (ca a b); [apply B2|done|done].
  - intros [a a'] [b b'] [c c']. cbn. destruct (ca a b) eqn:E1; [apply A1 in E1 as ->| |done].
    + destruct (ca b c) eqn:E2; [apply B3|done|done].
    + intros _. destruct (ca b c) eqn:E2; [apply A1 in E2 as ->| |done].
      * by rewrite E1.
      * by rewrite (A3 a b c E1 E2).
Qed.

Lemma split_inj : Inj (=) (=) (split_char "/"%char).
Proof. intros a b E. rewrite <- (join_split_char "/"%char a), <- (join_split_char "/"%char b). by rewrite E. Qed.

Lemma char_order : order compare_chars.
Proof.
  apply (via_order nat_of_ascii); [|exact nat_order].
  intros a b E. rewrite <- (ascii_nat_embedding a), <- (ascii_nat_embedding b). by rewrite E.
Qed.

Lemma place_order : order compare_places.
Proof.
  assert (H : order (fun a b : place =>
    match (match compare_paths a.1.1 b.1.1 with Eq => Nat.compare a.1.2 b.1.2 | c => c end) with
    | Eq => Nat.compare a.2 b.2 | c => c end)).
  { apply (pair_order (fun a b : str * nat =>
      match compare_paths a.1 b.1 with Eq => Nat.compare a.2 b.2 | c => c end)); [|exact nat_order].
    apply pair_order; [|exact nat_order].
    apply (via_order (split_char "/"%char)); [apply split_inj|]. apply list_order, list_order, char_order. }
  destruct H as [H1 H2 H3].
  assert (E : forall a b : place, compare_places a b =
    match (match compare_paths a.1.1 b.1.1 with Eq => Nat.compare a.1.2 b.1.2 | c => c end) with
    | Eq => Nat.compare a.2 b.2 | c => c end).
  { intros a b. unfold compare_places. by destruct (compare_paths a.1.1 b.1.1). }
  split; [intros a b; rewrite E; apply H1|intros a b; rewrite !E; apply H2|intros a b c; rewrite !E; apply H3].
Qed.

Definition place_le (p q : place) : Prop := compare_places p q <> Gt.

Lemma place_le_trans (p q r : place) : place_le p q -> place_le q r -> place_le p r.
Proof.
  unfold place_le. destruct place_order as [H1 H2 H3]. intros A B.
  destruct (compare_places p q) eqn:E1; [apply H1 in E1 as ->; done| |done].
  destruct (compare_places q r) eqn:E2; [apply H1 in E2 as ->; by rewrite E1| |done].
  by rewrite (H3 p q r E1 E2).
Qed.

Lemma insert_sorted (p : place) (l : list place) :
  StronglySorted place_le l -> StronglySorted place_le (insert_place p l).
Proof.
  induction 1 as [|q l Hs IH Hf]; [by repeat constructor|]. cbn.
  destruct (compare_places p q) eqn:E.
  - constructor; [by constructor|]. constructor; [by unfold place_le; rewrite E|].
    eapply Forall_impl; [exact Hf|]. intros r. apply place_le_trans. unfold place_le. by rewrite E.
  - constructor; [by constructor|]. constructor; [by unfold place_le; rewrite E|].
    eapply Forall_impl; [exact Hf|]. intros r. apply place_le_trans. unfold place_le. by rewrite E.
  - constructor; [done|]. apply Forall_forall. intros r Hr. rewrite insert_perm in Hr.
    apply elem_of_cons in Hr as [->|Hr].
    + unfold place_le. rewrite (or_flip _ place_order p q), E. done.
    + by apply (proj1 (Forall_forall _ _) Hf).
Qed.

Lemma sort_sorted (l : list place) : StronglySorted place_le (sort_places l).
Proof. induction l as [|p l IH]; [constructor|]. by apply insert_sorted. Qed.

Lemma dedup_nodup (l : list place) : StronglySorted place_le l -> NoDup (dedup_places l).
Proof.
  induction 1 as [|q l Hs IH Hf]; [constructor|]. destruct l as [|r l]; [by apply NoDup_singleton|].
  change (dedup_places (q :: r :: l)) with
    (if bool_decide (q = r) then dedup_places (r :: l) else q :: dedup_places (r :: l)).
  destruct (bool_decide_reflect (q = r)) as [->|Hn]; [done|].
  apply NoDup_cons. split; [|done]. rewrite dedup_in. intros Hq.
  apply elem_of_cons in Hq as [Hq|Hq]; [done|].
  (* q <= r <= q *)
  inversion Hs as [|? ? Hs' Hf' E1]. subst.
  pose proof (proj1 (Forall_forall _ _) Hf' q Hq) as H2.
  inversion Hf as [|? ? H1 Hf1]. subst. unfold place_le in *.
  rewrite (or_flip _ place_order q r) in H2.
  destruct (compare_places q r) eqn:E; [by apply (or_eq _ place_order) in E|done|done].
Qed.

Lemma dedup_sort_nodup (l : list place) : NoDup (dedup_places (sort_places l)).
Proof. apply dedup_nodup, sort_sorted. Qed.

Lemma dedup_sort_nil (p : place) (l : list place) : dedup_places (sort_places (p :: l)) <> [].
Proof.
  intros E. assert (H : p ∈ dedup_places (sort_places (p :: l))) by (apply dedup_sort_in; left).
  rewrite E in H. by apply not_elem_of_nil in H.
Qed.

(** ** Uses in source files *)

Lemma no_token_dec (ps : list source_piece) : no_token ps \/ ~ no_token ps.
Proof.
  induction ps as [|[s|t] ps [IH|IH]].
  - left. constructor.
  - left. constructor; [by exists s|done].
  - right. intros H. inversion H. done.
  - right. intros H. inversion H as [|? ? [? ?]]. done.
  - right. intros H. inversion H as [|? ? [? ?]]. done.
Qed.

Lemma places_split use b x t after ls :
  places use b (x ++ Token t :: after) ls -> use t after ->
  exists ls1 loc ls2, ls = ls1 ++ loc :: ls2 /\ loc.1 = line_after (source_text (b ++ x)) /\
    column_after (source_text (b ++ x)) loc.2 /\ places use (b ++ x ++ [Token t]) after ls2.
Proof.
  revert b ls. induction x as [|y x IH]; intros b ls H Hu.
  - cbn [app] in *. rewrite app_nil_r. inversion H as [|? ? ? line col ls' H1 H2 H3 H4|? ? ? ls' H1 H2]; subst.
    + by exists [], (line_after (source_text b), col), ls'.
    + by destruct (H1 t eq_refl).
  - cbn [app] in H. inversion H as [|? ? ? line col ls' H1 H2 H3 H4|? ? ? ls' H1 H2]; subst.
    + destruct (IH _ _ H4 Hu) as (l1 & loc & l2 & -> & E1 & E2 & E3). rewrite <- !app_assoc in *. cbn [app] in *.
      by exists ((line_after (source_text b), col) :: l1), loc, l2.
    + destruct (IH _ _ H2 Hu) as (l1 & loc & l2 & -> & E1 & E2 & E3). rewrite <- !app_assoc in *. cbn [app] in *.
      by exists l1, loc, l2.
Qed.

(** The token at the end lies behind every earlier one. *)
Lemma end_behind (before after b' a' : list source_piece) (t w : str) :
  before ++ Token t :: after = b' ++ Token w :: a' -> no_token a' -> ~ no_token after ->
  exists mid, after = mid ++ Token w :: a'.
Proof.
  revert b'. induction before as [|x before IH]; intros b' E Ha Hn.
  - destruct b' as [|y b']; cbn [app] in E; [by injection E as -> ->|]. injection E as <- ->. by exists b'.
  - destruct b' as [|y b']; cbn [app] in E.
    + injection E as -> <-. exfalso.
      apply Forall_app in Ha as [_ Ha]. inversion Ha as [|? ? [? ?]]. done.
    + injection E as <- E. by apply (IH b').
Qed.

Definition at_end (use : str -> list source_piece -> Prop) (word : str) : Prop :=
  forall after, no_token after -> use word after.

Lemma scan_uses use word (pieces : list source_piece) (ls : list location) :
  at_end use word ->
  (~ missed_end word pieces -> places use [] pieces ls) ->
  (missed_end word pieces -> exists p, places use [] pieces (ls ++ [p])) ->
  (forall l, l ∈ ls -> exists before t after, pieces = before ++ Token t :: after /\ use t after /\
     l.1 = line_after (source_text before) /\ column_after (source_text before) l.2) /\
  (forall before t after line col, pieces = before ++ Token t :: after -> use t after -> ~ no_token after ->
     line = line_after (source_text before) -> column_after (source_text before) col -> (line, col) ∈ ls).
Proof.
  intros Hend H1 H2. assert (Hd : missed_end word pieces \/ ~ missed_end word pieces).
  { rewrite <- missed_end_spec. apply missed_dec. }
  destruct Hd as [Hm|Hm].
  - destruct (H2 Hm) as [p Hp]. split.
    + intros l Hl. apply (places_in use [] pieces (ls ++ [p]) l Hp). apply elem_of_app. by left.
    + intros before t after line col -> Hu Hn -> Hc.
      destruct (places_split use [] before t after _ Hp Hu) as (l1 & loc & l2 & E & E1 & E2 & E3).
      cbn [app] in *.
      destruct Hm as (b' & a' & n & Eq & Ha & _). destruct (end_behind _ _ _ _ _ _ Eq Ha Hn) as [mid Emid].
      rewrite Emid in E3. destruct (places_split use _ mid word a' _ E3 (Hend a' Ha)) as (k1 & k & k2 & Ek & _).
      assert (Hl2 : exists l2' q, l2 = l2' ++ [q]).
      { destruct l2 as [|q l2'] using rev_ind; [by destruct k1|]. by exists l2', q. }
      destruct Hl2 as (l2' & q & ->).
      rewrite (app_assoc l1 (loc :: l2') [q] : l1 ++ loc :: l2' ++ [q] = (l1 ++ loc :: l2') ++ [q]) in E.
      apply app_inj_tail in E as [-> _]. apply elem_of_app. right. destruct loc as [ll lc]. cbn [fst snd] in *.
      rewrite E1, (column_fun _ _ _ Hc E2). left.
  - specialize (H1 Hm). split.
    + intros l Hl. by apply (places_in use [] pieces ls l H1).
    + intros before t after line col -> Hu _ -> Hc. apply (places_in use [] _ ls _ H1).
      by exists before, t, after.
Qed.

Lemma unsafe_at_end : at_end unsafe_use (lit "unsafe").
Proof. intros after H. split; [done|]. by apply next_is_no. Qed.
Lemma extern_at_end : at_end extern_use (lit "extern").
Proof. intros after H. split; [done|]. split; [|split]; by apply next_is_no. Qed.

(** What a scanner does with a file. *)
Definition scans (use : str -> list source_piece -> Prop) (lexer : str -> list lexed)
    (scan : str -> option (list location)) : Prop :=
  forall bytes ls, scan bytes = Some ls ->
    (forall line col, (line, col) ∈ ls -> used_at use lexer bytes line col) /\
    (forall line col, used_early use lexer bytes line col -> (line, col) ∈ ls).

Lemma scan_bytes_scans use word check lexer :
  at_end use word ->
  (forall ps, well_lexed ps ->
    exists ls, scan_string word check (source_text ps) (map lexed_piece ps) = Some ls /\
      (~ missed_end word ps -> places use [] ps ls) /\
      (missed_end word ps -> exists p, places use [] ps (ls ++ [p]))) ->
  lexer_ok lexer -> scans use lexer (scan_bytes word check lexer).
Proof.
  intros Hend Hscan Hok bytes ls H. unfold scan_bytes in H.
  assert (Hx : forall pieces, lexes lexer bytes pieces ->
    (forall l, l ∈ ls -> exists before t after, pieces = before ++ Token t :: after /\ use t after /\
       l.1 = line_after (source_text before) /\ column_after (source_text before) l.2) /\
    (forall before t after line col, pieces = before ++ Token t :: after -> use t after -> ~ no_token after ->
       line = line_after (source_text before) -> column_after (source_text before) col -> (line, col) ∈ ls)).
  { intros pieces (Hw & Hb & Hl). rewrite <- Hb in H. rewrite (valid_pieces pieces Hw) in H.
    rewrite <- Hb in Hl. rewrite Hl in H. destruct (Hscan pieces Hw) as (ls' & E & H1 & H2).
    rewrite E in H. injection H as ->. by apply (scan_uses use word). }
  destruct (utf8_valid bytes) eqn:Hv.
  - destruct (Hok bytes (proj1 (utf8_valid_spec _) Hv)) as [pieces Hp]. destruct (Hx pieces Hp) as [X1 X2]. split.
    + intros line col Hin. destruct (X1 _ Hin) as (b & t & a & E & Hu & E1 & E2). by exists a, pieces, b, t.
    + intros line col (rest & (pieces' & b & t & Hp' & E & Hu & E1 & E2) & Hn).
      by apply (proj2 (Hx pieces' Hp') b t rest).
  - injection H as <-. split.
    + intros line col Hin. by apply not_elem_of_nil in Hin.
    + intros line col (rest & (pieces' & b & t & Hp' & E & Hu & E1 & E2) & Hn).
      destruct Hp' as (Hw & Hb & _). pose proof (valid_pieces pieces' Hw) as Hv'. rewrite Hb, Hv in Hv'. done.
Qed.

Lemma unsafe_scans lexer : lexer_ok lexer -> scans unsafe_use lexer (scan_unsafe lexer).
Proof. apply scan_bytes_scans; [exact unsafe_at_end|exact unsafe_scan]. Qed.
Lemma extern_scans lexer : lexer_ok lexer -> scans extern_use lexer (scan_extern lexer).
Proof. apply scan_bytes_scans; [exact extern_at_end|exact extern_scan]. Qed.

Lemma find_in_sources_in scan read (paths : list str) (ps : list place) :
  find_in_sources scan read paths = Some ps ->
  (forall f, f ∈ paths -> exists bytes ls, read f = Some bytes /\ scan bytes = Some ls) /\
  (forall f line col, (f, line, col) ∈ ps <->
     f ∈ paths /\ exists bytes ls, read f = Some bytes /\ scan bytes = Some ls /\ (line, col) ∈ ls).
Proof.
  revert ps. induction paths as [|path paths IH]; intros ps H; cbn [find_in_sources] in H.
  { injection H as <-. split; [intros f Hf; by apply not_elem_of_nil in Hf|].
    intros f line col. split; [intros Hf; by apply not_elem_of_nil in Hf|].
    intros [Hf _]. by apply not_elem_of_nil in Hf. }
  destruct (read path) as [bytes|] eqn:Er; [|done]. destruct (scan bytes) as [ls|] eqn:Es; [|done].
  destruct (find_in_sources scan read paths) as [rest|]; [|done]. injection H as <-.
  destruct (IH rest eq_refl) as [IH1 IH2]. split.
  - intros f Hf. apply elem_of_cons in Hf as [->|Hf]; [by exists bytes, ls|by apply IH1].
  - intros f line col. rewrite elem_of_app, IH2, elem_of_cons. split.
    + intros [Hin|[Hf Hx]]; [|split; [by right|done]].
      apply elem_of_list_fmap in Hin as ([l c] & E & Hl). cbn [fst snd] in E. injection E as -> -> ->.
      split; [by left|]. by exists bytes, ls.
    + intros [[->|Hf] (bytes' & ls' & H1 & H2 & H3)].
      * left. rewrite Er in H1. injection H1 as <-. rewrite Es in H2. injection H2 as <-.
        apply elem_of_list_fmap. by exists (line, col).
      * right. split; [done|]. by exists bytes', ls'.
Qed.

Lemma find_uses_in use lexer scan read paths ps qs :
  scans use lexer scan -> find_in_sources scan read paths = Some ps -> (forall p, p ∈ qs <-> p ∈ ps) ->
  uses_in use lexer read paths qs.
Proof.
  intros Hs H Hq. destruct (find_in_sources_in _ _ _ _ H) as [H1 H2]. split.
  - intros f line col Hin. apply Hq, H2 in Hin as (Hf & bytes & ls & Hr & Hsc & Hl). split; [done|].
    exists bytes. split; [done|]. by apply (proj1 (Hs bytes ls Hsc)).
  - intros f bytes line col Hf Hr Hu. apply Hq, H2. split; [done|].
    destruct (H1 f Hf) as (bytes' & ls & Hr' & Hsc). rewrite Hr in Hr'. injection Hr' as <-.
    exists bytes, ls. split; [done|]. split; [done|]. by apply (proj2 (Hs bytes ls Hsc)).
Qed.

Lemma find_none use lexer scan read paths :
  scans use lexer scan -> find_in_sources scan read paths = Some [] ->
  forall f, f ∈ paths -> exists bytes, read f = Some bytes /\ not_used use lexer bytes.
Proof.
  intros Hs H f Hf. destruct (find_in_sources_in _ _ _ _ H) as [H1 _].
  destruct (H1 f Hf) as (bytes & ls & Hr & _). exists bytes. split; [done|].
  intros line col Hu. destruct (find_uses_in use lexer scan read paths [] [] Hs H ltac:(done)) as [_ H2].
  specialize (H2 f bytes line col Hf Hr Hu). by apply not_elem_of_nil in H2.
Qed.

(** ** rustc's errors *)

Lemma error_places_in parse canonicalize code output f line col :
  (f, line, col) ∈ error_places parse canonicalize code output <->
  exists text m f0 more, text ∈ str_lines output /\ parse text = Some m /\
    ms_level m = lit "error" /\ ms_code m = code /\ ms_spans m = (f0, line, col) :: more /\
    (canonicalize f0 = Some f \/ canonicalize f0 = None /\ f = f0).
Proof.
  unfold error_places. rewrite elem_of_list_omap. split.
  - intros (text & Ht & H). destruct (parse text) as [m|] eqn:Em; [|done].
    destruct (str_eqb (ms_level m) (lit "error") && str_eqb (ms_code m) code) eqn:E; [|done].
    apply andb_true_iff in E as [E1%str_eqb_spec E2%str_eqb_spec].
    destruct (ms_spans m) as [|[[f0 l0] c0] more] eqn:Es; [done|].
    assert (E3 : default f0 (canonicalize f0) = f /\ l0 = line /\ c0 = col) by (split; [|split]; congruence).
    destruct E3 as (E3 & -> & ->).
    exists text, m, f0, more. repeat (split; [done|]). destruct (canonicalize f0) as [g|]; cbn in E3; subst; auto.
  - intros (text & m & f0 & more & Ht & Em & E1 & E2 & E3 & E4). exists text. split; [done|].
    rewrite Em, E1, E2, E3. rewrite !(proj2 (str_eqb_spec _ _) eq_refl). cbn [andb].
    by destruct E4 as [->|[-> ->]].
Qed.

Lemma error_places_errors parse canonicalize code output ps :
  (forall p, p ∈ ps <-> p ∈ error_places parse canonicalize code output) ->
  errors_in parse canonicalize code output ps.
Proof.
  intros H f line col. rewrite H, error_places_in. split.
  - intros (text & m & f0 & more & Ht & X). exists (str_lines output), text, m, f0, more.
    split; [apply lines_of_total|]. by split.
  - intros (ls & text & m & f0 & more & Hls & Ht & X). apply lines_of_fun in Hls as ->.
    by exists text, m, f0, more.
Qed.

(** ** Permissions *)

Lemma unsafe_permitted_spec ps sel :
  unsafe_permitted ps (pi_name (cs_pkg sel)) (cs_kind sel) = true <-> may_use_unsafe ps sel.
Proof.
  unfold unsafe_permitted, may_use_unsafe.
  assert (E : scope_of_kind (cs_kind sel) = crate_scope (cs_kind sel)) by by destruct (cs_kind sel).
  rewrite E. destruct (ps !! _) as [c|].
  - split; [intros H; by exists c|]. intros (c' & [= <-] & H). done.
  - split; [done|]. intros (c' & H & _). done.
Qed.

Lemma extern_permitted_spec ps version sel :
  extern_permitted ps version (pi_name (cs_pkg sel)) (cs_kind sel) = true <-> may_use_extern ps version sel.
Proof.
  unfold extern_permitted, may_use_extern.
  assert (E : scope_of_kind (cs_kind sel) = crate_scope (cs_kind sel)) by by destruct (cs_kind sel).
  rewrite E. destruct (ps !! _) as [c|].
  - destruct (Z.leb_spec version 2) as [Hv|Hv]; split.
    + intros H. exists c. split; [done|]. left. done.
    + intros (c' & [= <-] & [[_ H]|[? _]]); [done|lia].
    + intros H. exists c. split; [done|]. right. done.
    + intros (c' & [= <-] & [[? _]|[_ H]]); [lia|done].
  - split; [done|]. intros (c' & H & _). done.
Qed.

(** ** One attempt *)

Section attempts.
  Context (lexer : str -> list lexed) (parse : str -> option message) (rustc exe : str).
  Context (sel : crate_sel) (argv : list str).

  Definition the_command (ps : permissions) (version : Z) : command :=
    get_command rustc exe (cs_kind sel) argv
      (unsafe_permitted ps (pi_name (cs_pkg sel)) (cs_kind sel))
      (extern_permitted ps version (pi_name (cs_pkg sel)) (cs_kind sel)).

  (** Why places are reported. *)
  Inductive reported (a : attempt) (ps : permissions) (version : Z) (o : proc_output)
      : list event -> request -> Prop :=
  | reported_unsafe files places :
      po_code o = Some 0%Z -> source_files (at_read a) (at_canonicalize a) argv = Some files ->
      at_answer a (RustcComplete sel files) = Some Continue ->
      ~ may_use_unsafe ps sel -> uses_in unsafe_use lexer (at_read a) files places ->
      places <> [] -> NoDup places ->
      reported a ps version o [Asked (RustcComplete sel files)] (UsesUnsafe sel places)
  | reported_extern files places :
      po_code o = Some 0%Z -> source_files (at_read a) (at_canonicalize a) argv = Some files ->
      at_answer a (RustcComplete sel files) = Some Continue ->
      ~ may_use_extern ps version sel -> uses_in extern_use lexer (at_read a) files places ->
      places <> [] -> NoDup places ->
      reported a ps version o [Asked (RustcComplete sel files)] (UsesExtern sel places)
  | reported_unsafe_error places :
      po_code o <> Some 0%Z ->
      errors_in parse (at_canonicalize a) (lit "unsafe_code") (po_stderr o) places ->
      places <> [] -> NoDup places ->
      reported a ps version o [] (UsesUnsafe sel places)
  | reported_extern_error places :
      po_code o <> Some 0%Z ->
      errors_in parse (at_canonicalize a) (lit "missing_unsafe_on_extern") (po_stderr o) places ->
      places <> [] -> NoDup places ->
      reported a ps version o [] (UsesExtern sel places).

  Inductive attempted (a : attempt) : list event -> run_status -> Prop :=
  | att_no_config : at_config a = None -> attempted a [] StatusError
  | att_not_run ps version :
      at_config a = Some (ps, version) -> at_rustc a (the_command ps version) = None ->
      attempted a [Ran (the_command ps version)] StatusError
  | att_error ps version o :
      at_config a = Some (ps, version) -> at_rustc a (the_command ps version) = Some o ->
      attempted a [Ran (the_command ps version)] StatusError
  | att_check_error ps version o files :
      at_config a = Some (ps, version) -> at_rustc a (the_command ps version) = Some o ->
      attempted a [Ran (the_command ps version); Asked (RustcComplete sel files)] StatusError
  | att_given_up ps version o files :
      at_config a = Some (ps, version) -> at_rustc a (the_command ps version) = Some o ->
      at_answer a (RustcComplete sel files) = Some GiveUp ->
      attempted a [Ran (the_command ps version); Asked (RustcComplete sel files)] StatusGiveUp
  | att_reported ps version o evs r :
      at_config a = Some (ps, version) -> at_rustc a (the_command ps version) = Some o ->
      reported a ps version o evs r ->
      attempted a (Ran (the_command ps version) :: evs ++ [Asked r]) (after_report (at_answer a r))
  | att_failed ps version o :
      at_config a = Some (ps, version) -> at_rustc a (the_command ps version) = Some o ->
      po_code o <> Some 0%Z ->
      attempted a [Ran (the_command ps version)] (Done o)
  | att_done ps version o files :
      at_config a = Some (ps, version) -> at_rustc a (the_command ps version) = Some o ->
      po_code o = Some 0%Z ->
      source_files (at_read a) (at_canonicalize a) argv = Some files ->
      at_answer a (RustcComplete sel files) = Some Continue ->
      (may_use_unsafe ps sel \/ ~ may_use_unsafe ps sel /\
         forall f, f ∈ files -> exists bytes, at_read a f = Some bytes /\ not_used unsafe_use lexer bytes) ->
      (may_use_extern ps version sel \/ ~ may_use_extern ps version sel /\
         forall f, f ∈ files -> exists bytes, at_read a f = Some bytes /\ not_used extern_use lexer bytes) ->
      attempted a [Ran (the_command ps version); Asked (RustcComplete sel files)] (Done o).

  Lemma run_attempted (a : attempt) (evs : list event) (st : run_status) :
    lexer_ok lexer -> run lexer parse rustc exe sel argv a = (evs, st) -> attempted a evs st.
  Proof.
    intros Hok. unfold run. destruct (at_config a) as [[ps version]|] eqn:Ec.
    2: { intros [= <- <-]. by constructor. }
    fold (the_command ps version).
    destruct (at_rustc a (the_command ps version)) as [o|] eqn:Eo.
    2: { intros E. assert (E1 : evs = [Ran (the_command ps version)] /\ st = StatusError) by (split; congruence).
         destruct E1 as [-> ->]. by eapply att_not_run. }
    pose proof (unsafe_permitted_spec ps sel) as Hu. pose proof (extern_permitted_spec ps version sel) as He.
    set (u := unsafe_permitted ps (pi_name (cs_pkg sel)) (cs_kind sel)) in *.
    set (e := extern_permitted ps version (pi_name (cs_pkg sel)) (cs_kind sel)) in *.
    destruct (bool_decide_reflect (po_code o = Some 0%Z)) as [H0|H0].
    - destruct (source_files (at_read a) (at_canonicalize a) argv) as [files|] eqn:Ef.
      2: { intros E. assert (E1 : evs = [Ran (the_command ps version)] /\ st = StatusError) by (split; congruence).
           destruct E1 as [-> ->]. by eapply att_error. }
      destruct (at_answer a (RustcComplete sel files)) as [[|]|] eqn:Ea.
      + assert (Hfu : forall us, (if u then Some [] else find_in_sources (scan_unsafe lexer) (at_read a) files) = Some us ->
          us = [] /\ (may_use_unsafe ps sel \/ ~ may_use_unsafe ps sel /\
            forall f, f ∈ files -> exists bytes, at_read a f = Some bytes /\ not_used unsafe_use lexer bytes) \/
          us <> [] /\ ~ may_use_unsafe ps sel /\
            uses_in unsafe_use lexer (at_read a) files (dedup_places (sort_places us))).
        { intros us Hus. destruct u.
          - left. split; [congruence|]. left. by apply Hu.
          - assert (Hn : ~ may_use_unsafe ps sel) by (intros H; apply Hu in H; done).
            destruct us as [|p us]; [left|right].
            + split; [done|]. right. split; [done|]. by apply (find_none _ _ _ _ _ (unsafe_scans lexer Hok)).
            + split; [done|]. split; [done|].
              apply (find_uses_in _ _ _ _ _ (p :: us) _ (unsafe_scans lexer Hok) Hus). intros q. apply dedup_sort_in. }
        assert (Hfe : forall us, (if e then Some [] else find_in_sources (scan_extern lexer) (at_read a) files) = Some us ->
          us = [] /\ (may_use_extern ps version sel \/ ~ may_use_extern ps version sel /\
            forall f, f ∈ files -> exists bytes, at_read a f = Some bytes /\ not_used extern_use lexer bytes) \/
          us <> [] /\ ~ may_use_extern ps version sel /\
            uses_in extern_use lexer (at_read a) files (dedup_places (sort_places us))).
        { intros us Hus. destruct e.
          - left. split; [congruence|]. left. by apply He.
          - assert (Hn : ~ may_use_extern ps version sel) by (intros H; apply He in H; done).
            destruct us as [|p us]; [left|right].
            + split; [done|]. right. split; [done|]. by apply (find_none _ _ _ _ _ (extern_scans lexer Hok)).
            + split; [done|]. split; [done|].
              apply (find_uses_in _ _ _ _ _ (p :: us) _ (extern_scans lexer Hok) Hus). intros q. apply dedup_sort_in. }
        clearbody u e.
        destruct (if u then Some [] else find_in_sources (scan_unsafe lexer) (at_read a) files) as [us|].
        2: { intros E. assert (E1 : evs = [Ran (the_command ps version); Asked (RustcComplete sel files)] /\ st = StatusError) by (split; congruence).
             destruct E1 as [-> ->]. by eapply att_check_error. }
        destruct (if e then Some [] else find_in_sources (scan_extern lexer) (at_read a) files) as [es|].
        2: { intros E. assert (E1 : evs = [Ran (the_command ps version); Asked (RustcComplete sel files)] /\ st = StatusError) by (split; congruence).
             destruct E1 as [-> ->]. by eapply att_check_error. }
        specialize (Hfu us eq_refl). specialize (Hfe es eq_refl).
        unfold report. destruct us as [|p us].
        * destruct Hfu as [[_ Hfu]|[? _]]; [|done]. destruct es as [|p es].
          -- destruct Hfe as [[_ Hfe]|[? _]]; [|done]. intros E.
             assert (E1 : evs = [Ran (the_command ps version); Asked (RustcComplete sel files)] /\ st = Done o) by (split; congruence).
             destruct E1 as [-> ->]. by eapply att_done.
          -- destruct Hfe as [[? _]|(_ & Hn & Huse)]; [done|]. intros E.
             set (r := UsesExtern sel (dedup_places (sort_places (p :: es)))) in *.
             assert (E1 : evs = Ran (the_command ps version) :: [Asked (RustcComplete sel files)] ++ [Asked r] /\ st = after_report (at_answer a r)) by (split; cbn [app]; congruence).
             destruct E1 as [-> ->]. eapply att_reported; [done|done|]. constructor; try done.
             ++ apply dedup_sort_nil.
             ++ apply dedup_sort_nodup.
        * destruct Hfu as [[? _]|(_ & Hn & Huse)]; [done|]. intros E.
          set (r := UsesUnsafe sel (dedup_places (sort_places (p :: us)))) in *.
          assert (E1 : evs = Ran (the_command ps version) :: [Asked (RustcComplete sel files)] ++ [Asked r] /\ st = after_report (at_answer a r)) by (split; cbn [app]; congruence).
          destruct E1 as [-> ->]. eapply att_reported; [done|done|]. constructor; try done.
          ++ apply dedup_sort_nil.
          ++ apply dedup_sort_nodup.
      + intros E. assert (E1 : evs = [Ran (the_command ps version); Asked (RustcComplete sel files)] /\ st = StatusGiveUp) by (split; congruence).
        destruct E1 as [-> ->]. by eapply att_given_up.
      + intros E. assert (E1 : evs = [Ran (the_command ps version); Asked (RustcComplete sel files)] /\ st = StatusError) by (split; congruence).
        destruct E1 as [-> ->]. by eapply att_check_error.
    - unfold disallowed_places. destruct (utf8_valid (po_stderr o)).
      2: { intros E. assert (E1 : evs = [Ran (the_command ps version)] /\ st = StatusError) by (split; congruence).
           destruct E1 as [-> ->]. by eapply att_error. }
      unfold report.
      destruct (error_places parse (at_canonicalize a) (lit "unsafe_code") (po_stderr o)) as [|p us] eqn:Eu.
      + destruct (error_places parse (at_canonicalize a) (lit "missing_unsafe_on_extern") (po_stderr o)) as [|p es] eqn:Ee.
        * intros E. assert (E1 : evs = [Ran (the_command ps version)] /\ st = Done o) by (split; congruence).
          destruct E1 as [-> ->]. by eapply att_failed.
        * intros E.
          set (r := UsesExtern sel (dedup_places (sort_places (p :: es)))) in *.
          assert (E1 : evs = Ran (the_command ps version) :: [] ++ [Asked r] /\ st = after_report (at_answer a r)) by (split; cbn [app]; congruence).
          destruct E1 as [-> ->]. eapply att_reported; [done|done|]. constructor; try done.
          -- apply error_places_errors. intros q. rewrite Ee. apply dedup_sort_in.
          -- apply dedup_sort_nil.
          -- apply dedup_sort_nodup.
      + intros E.
        set (r := UsesUnsafe sel (dedup_places (sort_places (p :: us)))) in *.
        assert (E1 : evs = Ran (the_command ps version) :: [] ++ [Asked r] /\ st = after_report (at_answer a r)) by (split; cbn [app]; congruence).
        destruct E1 as [-> ->]. eapply att_reported; [done|done|]. constructor; try done.
        -- apply error_places_errors. intros q. rewrite Eu. apply dedup_sort_in.
        -- apply dedup_sort_nil.
        -- apply dedup_sort_nodup.
  Qed.

  (** The attempts that were made: all but the last were to be retried. *)
  Inductive attempts_made : list attempt -> list event -> ending -> Prop :=
  | made_none : attempts_made [] [] Unfinished
  | made_retry a rest evs more e :
      attempted a evs Retry -> attempts_made rest more e -> attempts_made (a :: rest) (evs ++ more) e
  | made_give_up a rest evs :
      attempted a evs StatusGiveUp -> attempts_made (a :: rest) evs (Exits (-1) [] [])
  | made_done a rest evs o :
      attempted a evs (Done o) -> attempts_made (a :: rest) evs (Exits (exit_code o) (po_stdout o) (po_stderr o))
  | made_error a rest evs :
      attempted a evs StatusError -> attempts_made (a :: rest) evs Fails.

  Lemma proxy_rustc_made (attempts : list attempt) (evs : list event) (e : ending) :
    lexer_ok lexer -> proxy_rustc lexer parse rustc exe sel argv attempts = (evs, e) ->
    attempts_made attempts evs e.
  Proof.
    intros Hok. revert evs e. induction attempts as [|a rest IH]; intros evs e; cbn [proxy_rustc].
    { intros [= <- <-]. constructor. }
    destruct (run lexer parse rustc exe sel argv a) as [evs0 st] eqn:Er. apply (run_attempted a evs0 st Hok) in Er.
    destruct st as [| |o|].
    - destruct (proxy_rustc lexer parse rustc exe sel argv rest) as [more e'] eqn:Em.
      intros [= <- <-]. constructor; [done|]. by apply IH.
    - intros [= <- <-]. by constructor.
    - intros [= <- <-]. by constructor.
    - intros [= <- <-]. by constructor.
  Qed.
End attempts.

(** Every attempt but the last ends with a report that was answered with [Continue]. *)
Lemma attempted_retry lexer parse rustc exe sel argv a evs :
  attempted lexer parse rustc exe sel argv a evs Retry ->
  exists evs0 r, evs = evs0 ++ [Asked r] /\ at_answer a r = Some Continue /\
    exists places, r = UsesUnsafe sel places \/ r = UsesExtern sel places.
Proof.
  intros H. inversion H as [| | | | |ps version o evs0 r H1 H2 H3 E1 E2| |]; subst.
  exists (Ran (the_command rustc exe sel argv ps version) :: evs0), r. split; [done|]. split.
  - destruct (at_answer a r) as [[|]|]; done.
  - inversion H3; subst; eauto.
Qed.

(** Each attempt runs the compiler first, and only once. *)
Lemma attempted_ran lexer parse rustc exe sel argv a evs st l1 x c l2 :
  attempted lexer parse rustc exe sel argv a evs st -> evs <> l1 ++ x :: Ran c :: l2.
Proof.
  intros H E. destruct H as [|ps v H1 H2|ps v o H1 H2|ps v o files H1 H2|ps v o files H1 H2 H3|ps v o evs r H1 H2 H3
    |ps v o H1 H2 H3|ps v o files H1 H2 H3 H4 H5 H6 H7].
  - by destruct l1.
  - by destruct l1 as [|? [|? ?]].
  - by destruct l1 as [|? [|? ?]].
  - by destruct l1 as [|? [|? [|? ?]]].
  - by destruct l1 as [|? [|? [|? ?]]].
  - destruct H3; by destruct l1 as [|? [|? [|? [|? ?]]]].
  - by destruct l1 as [|? [|? ?]].
  - by destruct l1 as [|? [|? [|? ?]]].
Qed.

Lemma attempted_cons lexer parse rustc exe sel argv a evs st :
  attempted lexer parse rustc exe sel argv a evs st -> evs = [] \/ exists c rest, evs = Ran c :: rest.
Proof. intros H. destruct H; eauto. Qed.

(** Where the second of two neighbours in [a ++ b] is. *)
Lemma app_split {A} (a b l1 : list A) (x y : A) (l2 : list A) :
  a ++ b = l1 ++ x :: y :: l2 ->
  (exists k, a = l1 ++ x :: y :: k) \/ (a = l1 ++ [x] /\ b = y :: l2) \/ (exists k, b = k ++ x :: y :: l2).
Proof.
  revert l1. induction a as [|z a IH]; intros l1 E.
  - right. right. by exists l1.
  - destruct l1 as [|w l1]; cbn [app] in E.
    + injection E as -> E. destruct a as [|z' a]; cbn [app] in E; [right; left; by split|].
      injection E as -> E. left. by exists a.
    + injection E as -> E. destruct (IH l1 E) as [[k ->]|[[-> ->]|[k ->]]].
      * left. by exists k.
      * right. left. by split.
      * right. right. by exists k.
Qed.

(** ** Programs that were built *)

Lemma sandboxed_some (h : host) (ps : permissions) (sel : crate_sel) (bin : str) :
  runs_sandboxed ps sel ->
  for_perm_sel h (sandbox_config_for_package ps (pi_name (cs_pkg sel), scope_of_kind (cs_kind sel))) bin <> Some None.
Proof.
  intros (c & H1 & H2) E. unfold sandbox_config_for_package in E. rewrite crate_scope_eq, H1 in E.
  unfold for_perm_sel in E. destruct (from_config h (pc_sandbox c)) as [[args|]|] eqn:Ef; [done| |done].
  unfold from_config in Ef. rewrite H2 in Ef.
  repeat match type of Ef with context [match ?m with _ => _ end] => destruct m; try done end.
Qed.

Section binary.
  Context (bin : str) (sel : crate_sel) (args : list str).

  Inductive tried : list bin_attempt -> list event -> ending -> Prop :=
  | tried_none : tried [] [] Unfinished
  | tried_error a rest : tried (a :: rest) [] Fails
  | tried_not_run a rest : tried (a :: rest) [Ran (Command bin args [])] Fails
  | tried_no_answer a rest code out err :
      tried (a :: rest) [Ran (Command bin args []); Asked (BinComplete sel code out err)] Fails
  | tried_give_up a rest code out err :
      ba_answer a (BinComplete sel code out err) = Some GiveUp ->
      tried (a :: rest) [Ran (Command bin args []); Asked (BinComplete sel code out err)] (Exits (-1) [] [])
  | tried_done a rest sandbox out err :
      ba_run_in a sandbox (Command bin args []) = Some (ProcOutput (Some 0%Z) out err) ->
      ba_answer a (BinComplete sel 0 out err) = Some Continue ->
      tried (a :: rest) [Ran (Command bin args []); Asked (BinComplete sel 0 out err)] (Exits 0 out err)
  | tried_retry a rest code out err more e :
      code <> 0%Z -> ba_answer a (BinComplete sel code out err) = Some Continue -> tried rest more e ->
      tried (a :: rest) (Ran (Command bin args []) :: Asked (BinComplete sel code out err) :: more) e.

  Lemma proxy_binary_tried (attempts : list bin_attempt) (evs : list event) (e : ending) :
    (forall a ps, a ∈ attempts -> ba_config a = Some ps -> runs_sandboxed ps sel) ->
    proxy_binary bin sel args attempts = (evs, e) -> tried attempts evs e.
  Proof.
    revert evs e. induction attempts as [|a rest IH]; intros evs e Hs; cbn [proxy_binary].
    { intros [= <- <-]. constructor. }
    destruct (ba_config a) as [ps|] eqn:Ec; [|intros [= <- <-]; constructor].
    pose proof (sandboxed_some (ba_host a) ps sel bin (Hs a ps ltac:(left) Ec)) as Hn.
    destruct (for_perm_sel _ _ _) as [[sandbox|]|]; [|done|intros [= <- <-]; constructor].
    destruct (ba_run_in a sandbox (Command bin args [])) as [o|] eqn:Eo; [|intros [= <- <-]; constructor].
    destruct (ba_answer a _) as [[|]|] eqn:Ea.
    - destruct (bool_decide_reflect (po_code o = Some 0%Z)) as [H0|H0].
      + destruct o as [code out err]. cbn [po_code po_stdout po_stderr exit_code] in *. subst code.
        intros [= <- <-]. by eapply tried_done.
      + destruct (proxy_binary bin sel args rest) as [more e'] eqn:Em. intros [= <- <-]. constructor.
        * unfold exit_code. destruct (po_code o) as [z|]; cbn; [congruence|done].
        * done.
        * apply IH; [|done]. intros b ps' Hb. apply Hs. by right.
    - intros [= <- <-]. by constructor.
    - intros [= <- <-]. constructor.
  Qed.
End binary.

(** ** The main process *)

Lemma send_retry_spec (p : problem) : send_retry p = true <-> retried_by_wrapper p.
Proof.
  unfold retried_by_wrapper. split.
  - destruct p; try done; eauto 6.
  - intros [(? & ? & ->)|[(? & ? & ->)|(? & ? & ->)]]; done.
Qed.

Lemma handle_request_continue (turns : list turn) :
  handle_request turns = Some Continue ->
  exists before t after problems, turns = before ++ t :: after /\
    (forall b, b ∈ before -> tn_fix b = Continue /\ tn_reload b = true) /\
    tn_problems t = Some problems /\
    (problems = [] \/
     tn_fix t = Continue /\ tn_reload t = true /\ forall p, p ∈ problems -> retried_by_wrapper p).
Proof.
  induction turns as [|t rest IH]; [done|]. cbn [handle_request]. intros H.
  destruct (tn_problems t) as [[|p ps]|] eqn:Ep; [| |done].
  - exists [], t, rest, []. split; [done|]. split; [intros b Hb; by apply not_elem_of_nil in Hb|]. split; [done|].
    by left.
  - destruct (tn_fix t) eqn:Ef; [|done]. destruct (tn_reload t) eqn:Er; [|done]. cbn [negb] in H.
    destruct (all_send_retry (p :: ps)) eqn:Ea.
    + exists [], t, rest, (p :: ps). split; [done|]. split; [intros b Hb; by apply not_elem_of_nil in Hb|].
      split; [done|]. right. split; [done|]. split; [done|]. intros q Hq. apply send_retry_spec.
      unfold all_send_retry in Ea. rewrite forallb_forall in Ea. apply Ea. by apply elem_of_list_In.
    + destruct (IH H) as (b & t' & a & ps' & -> & H1 & H2 & H3). exists (t :: b), t', a, ps'.
      split; [done|]. split; [|done]. intros x Hx. apply elem_of_cons in Hx as [->|Hx]; [done|by apply H1].
Qed.
