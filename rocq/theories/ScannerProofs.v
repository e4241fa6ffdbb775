(** Proofs about the scanners. *)
From Verif Require Import Base BaseFacts TextSpec Utf8Proofs TextModel TextFacts ScannerModel ScannerSpec.

(** ** Places *)

Lemma cut_line (x : str) : nl ∈ x -> exists l x2, x = l ++ nl :: x2 /\ nl ∉ l.
Proof.
  intros H. apply elem_of_list_split_l in H as (l & x2 & -> & Hl). by exists l, x2.
Qed.

Lemma lines_lf_any (x y : str) :
  nl ∉ x -> exists l, forall y, str_lines (x ++ nl :: y) = l :: str_lines y.
Proof.
  intros Hx. destruct (decide (last x = Some cr)) as [Hc|Hc].
  - destruct x as [|c x _] using rev_ind; [done|]. rewrite last_snoc in Hc. injection Hc as ->.
    exists x. intros y'. rewrite <- app_assoc. apply str_lines_crlf. intros H. apply Hx, elem_of_app. by left.
  - exists x. intros y'. by apply str_lines_lf.
Qed.

Lemma str_lines_split (x y : str) :
  str_lines (x ++ nl :: y) = str_lines (x ++ [nl]) ++ str_lines y /\
  length (str_lines (x ++ [nl])) = line_after x.
Proof.
  remember (length x) as m eqn:Hm. revert x Hm. induction m as [m IH] using lt_wf_ind; intros x ->.
  destruct (decide (nl ∈ x)) as [Hx|Hx].
  - apply cut_line in Hx as (l & x2 & -> & Hl). destruct (lines_lf_any l [] Hl) as [l' Hl'].
    rewrite <- !app_assoc. cbn [app]. rewrite !Hl'.
    destruct (IH (length x2)) with (x := x2) as [H1 H2]; [rewrite app_length; cbn; lia|done|].
    rewrite H1. split; [done|]. cbn [length]. rewrite H2. unfold line_after.
    rewrite filter_app, filter_cons_True by done.
    replace (filter (fun c => c = nl) l) with (@nil ascii); [done|]. symmetry.
    clear -Hl. induction l as [|a l IH]; [done|]. apply not_elem_of_cons in Hl as [Ha Hl].
    rewrite filter_cons_False by congruence. by apply IH.
  - destruct (lines_lf_any x [] Hx) as [l' Hl']. rewrite !Hl'. split; [done|]. cbn [length str_lines].
    unfold line_after. replace (filter (fun c => c = nl) x) with (@nil ascii); [done|]. symmetry.
    clear -Hx. induction x as [|a l IH]; [done|]. apply not_elem_of_cons in Hx as [Ha Hl].
    rewrite filter_cons_False by congruence. by apply IH.
Qed.

(** Every text has a last line. *)
Lemma last_line (b : str) : exists x l, b = x ++ l /\ nl ∉ l /\ (x = [] \/ exists x', x = x' ++ [nl]).
Proof.
  induction b as [|c b (x & l & -> & Hl & Hx)] using rev_ind.
  - exists [], []. split; [done|]. split; [apply not_elem_of_nil|by left].
  - destruct (decide (c = nl)) as [->|Hc].
    + exists ((x ++ l) ++ [nl]), []. rewrite app_nil_r. split; [done|]. split; [apply not_elem_of_nil|right]. by eexists.
    + exists x, (l ++ [c]). rewrite app_assoc. split; [done|]. split; [|done].
      rewrite not_elem_of_app. split; [done|]. intros H%elem_of_list_singleton. by subst.
Qed.

Lemma column_exists b : exists col, column_after b col.
Proof. destruct (last_line b) as (x & l & H1 & H2 & H3). eexists. by exists x, l. Qed.

Lemma line_after_nl x : line_after (x ++ [nl]) = S (line_after x).
Proof. unfold line_after. rewrite filter_app, app_length, filter_cons_True by done. cbn. lia. Qed.

Lemma line_after_more x l : nl ∉ l -> line_after (x ++ l) = line_after x.
Proof.
  intros Hl. unfold line_after. rewrite filter_app.
  replace (filter (fun c => c = nl) l) with (@nil ascii); [by rewrite app_nil_r|]. symmetry.
  induction l as [|a l IH]; [done|]. apply not_elem_of_cons in Hl as [Ha Hl].
  rewrite filter_cons_False by congruence. by apply IH.
Qed.

Lemma column_fun b c c' : column_after b c -> column_after b c' -> c = c'.
Proof.
  intros (x & l & -> & Hl & Hx & ->) (x' & l' & E & Hl' & Hx' & ->). f_equal.
  apply app_eq_inv in E as [(k & E1 & E2)|(k & E1 & E2)].
  - subst. destruct k as [|k0 k] using rev_ind; [by rewrite app_nil_r in *|].
    destruct Hx as [E|[y E]]; [by destruct x', k|].
    rewrite app_assoc in E. apply app_inj_tail in E as [_ ->]. exfalso. apply Hl'. rewrite !elem_of_app. left. right. left.
  - subst. destruct k as [|k0 k] using rev_ind; [by rewrite app_nil_r in *|].
    destruct Hx' as [E|[y E]]; [by destruct x, k|].
    rewrite app_assoc in E. apply app_inj_tail in E as [_ ->]. exfalso. apply Hl. rewrite !elem_of_app. left. right. left.
Qed.

(** The place that is added. *)
Lemma add_location_spec (b w r : str) locs :
  w <> [] -> nl ∉ w -> boundary (b ++ w ++ r) (length (b ++ w)) = true ->
  exists col, column_after b col /\
  add_location (b ++ w ++ r) locs (length (b ++ w)) (length w) = Some (locs ++ [(line_after b, col)]).
Proof.
  intros Hne Hw Hb. unfold add_location. rewrite app_assoc in *. rewrite slice_to_app by done. cbv zeta.
  destruct (last_line b) as (x & l & -> & Hl & Hx). exists (1 + length l). split; [by exists x, l|].
  assert (Hlw : nl ∉ l ++ w) by by rewrite not_elem_of_app.
  assert (Hlwne : l ++ w <> []) by by destruct l.
  destruct Hx as [->|[x' ->]].
  - cbn [app]. rewrite (str_lines_end (l ++ w)) by done. cbn [last length]. rewrite app_length.
    rewrite (proj2 (Nat.leb_le _ _)) by lia. replace (length l + length w - length w + 1) with (1 + length l) by lia.
    rewrite (line_after_more [] l Hl : line_after l = _). done.
  - rewrite <- !app_assoc. cbn [app]. destruct (str_lines_split x' (l ++ w)) as [-> Hlen].
    rewrite (str_lines_end (l ++ w)) by done. rewrite last_snoc, !app_length, Hlen. cbn [length].
    rewrite (proj2 (Nat.leb_le _ _)) by lia. replace (length l + length w - length w + 1) with (1 + length l) by lia.
    change (x' ++ nl :: l) with (x' ++ [nl] ++ l). rewrite app_assoc, line_after_more, line_after_nl by done.
    replace (1 `max` (line_after x' + 1)) with (S (line_after x')) by lia. done.
Qed.

(** ** The loop *)

Lemma source_text_app a b : source_text (a ++ b) = source_text a ++ source_text b.
Proof. unfold source_text. by rewrite map_app, concat_app. Qed.

Lemma source_text_token t ps : source_text (Token t :: ps) = t ++ source_text ps.
Proof. done. Qed.

Lemma decompose ps : no_token ps \/ exists bl t ps', ps = bl ++ Token t :: ps' /\ no_token bl.
Proof.
  induction ps as [|[s|t] ps IH].
  - left. constructor.
  - destruct IH as [H|(bl & t & ps' & -> & Hbl)]; [left|right].
    + constructor; [by eexists|done].
    + exists (Blank s :: bl), t, ps'. split; [done|]. constructor; [by eexists|done].
  - right. exists [], t, ps. split; [done|constructor].
Qed.

Lemma next_token_none ps k :
  no_token ps -> next_token (map lexed_piece ps) k = (None, k + length (source_text ps), []).
Proof.
  intros H. revert k. induction H as [|p ps [s ->] H IH]; intros k; cbn [map next_token lexed_piece lx_skip lx_len].
  - by rewrite Nat.add_0_r.
  - rewrite IH. change (source_text (Blank s :: ps)) with (s ++ source_text ps). by rewrite app_length, Nat.add_assoc.
Qed.

Lemma next_token_some bl t ps k :
  no_token bl -> next_token (map lexed_piece (bl ++ Token t :: ps)) k =
  (Some (lexed_piece (Token t)), k + length (source_text bl), map lexed_piece ps).
Proof.
  intros H. revert k. induction H as [|p bl [s ->] H IH]; intros k; cbn [app map next_token lexed_piece lx_skip lx_len].
  - by rewrite Nat.add_0_r.
  - rewrite IH. change (source_text (Blank s :: bl)) with (s ++ source_text bl). by rewrite app_length, Nat.add_assoc.
Qed.

Lemma boundary_valid x y : utf8_valid y = true -> boundary (x ++ y) (length x) = true.
Proof.
  intros Hy. unfold boundary. destruct (length x) eqn:E; [done|]. cbn [Nat.eqb]. rewrite <- E.
  rewrite lookup_app_r, Nat.sub_diag by lia. destruct y as [|c y]; cbn.
  - rewrite app_nil_r, E. apply Nat.eqb_refl.
  - by rewrite (utf8_first c y Hy).
Qed.

Lemma well_lexed_valid ps :
  well_lexed ps <-> Forall (fun p => piece_str p <> [] /\ utf8_valid (piece_str p) = true) ps.
Proof. unfold well_lexed. by setoid_rewrite utf8_valid_spec. Qed.

Lemma valid_pieces ps : well_lexed ps -> utf8_valid (source_text ps) = true.
Proof.
  rewrite well_lexed_valid. induction 1 as [|p ps [_ Hp] H IH]; [done|]. unfold source_text. cbn [map concat]. by rewrite utf8_valid_app.
Qed.

Lemma slice_middle x t y :
  utf8_valid t = true -> utf8_valid y = true ->
  slice (x ++ t ++ y) (length x) (length x + length t) = Some t.
Proof.
  intros Ht Hy. unfold slice. rewrite (proj2 (Nat.leb_le _ _)) by lia.
  rewrite boundary_valid by (rewrite utf8_valid_app; done).
  rewrite (app_assoc x t y), <- app_length, boundary_valid by done. cbn [andb].
  rewrite <- app_assoc, drop_app, app_length. replace (length x + length t - length x) with (length t) by lia.
  by rewrite take_app.
Qed.

Lemma next_is_here u bl ps : no_token bl -> next_is u (bl ++ Token u :: ps).
Proof. induction 1 as [|p bl [s ->] H IH]; [constructor|]. by constructor. Qed.

Lemma next_is_fun t u ps : next_is t ps -> next_is u ps -> t = u.
Proof. induction 1 as [ps|s ps H IH]; intros Hu; inversion Hu; subst; [done|by apply IH]. Qed.

Lemma next_is_no t ps : no_token ps -> ~ next_is t ps.
Proof. induction 1 as [|p ps [s ->] H IH]; intros Hu; inversion Hu; subst. done. Qed.

Lemma token_count_fun ps n m : token_count ps n -> token_count ps m -> n = m.
Proof. intros H. revert m. induction H as [|s ps n H IH|s ps n H IH]; intros m Hm; inversion Hm; subst; [done|by apply IH|f_equal; by apply IH]. Qed.

Lemma count_blanks ps : no_token ps -> token_count ps 0.
Proof. induction 1 as [|p ps [s ->] H IH]; by constructor. Qed.

Section scan.
  Context (word : str) (check : str -> str -> bool) (use : str -> list source_piece -> Prop).
  Context (Hword : word <> []) (Hnl : nl ∉ word).
  Context (Hcheck : forall t u, check t u = true -> t = word).
  Context (Hnext : forall t u after, next_is u after -> check t u = true <-> use t after).
  Context (use_blank : forall t s after, use t (Blank s :: after) <-> use t after).
  Context (Hend : forall t after, no_token after -> t = word <-> use t after).

  (** What is known about the token that was read last: its text and its place. *)
  Inductive walk : option (str * location) -> bool -> list source_piece -> list source_piece -> list location -> Prop :=
  | walk_end_none odd b : walk None odd b [] []
  | walk_end_even t p b : walk (Some (t, p)) false b [] []
  | walk_end_odd t p b : walk (Some (t, p)) true b [] (if str_eqb t word then [p] else [])
  | walk_blank pend odd b s ps ls :
      walk pend odd (b ++ [Blank s]) ps ls -> walk pend odd b (Blank s :: ps) ls
  | walk_token pend odd b t ps col ls :
      column_after (source_text b) col ->
      walk (Some (t, (line_after (source_text b), col))) (negb odd) (b ++ [Token t]) ps ls ->
      walk pend odd b (Token t :: ps)
        (match pend with Some (u, p) => if check u t then [p] else [] | None => [] end ++ ls).

  Lemma walk_total pend odd b ps : exists ls, walk pend odd b ps ls.
  Proof.
    revert pend odd b. induction ps as [|[s|t] ps IH]; intros pend odd b.
    - destruct pend as [[t p]|]; [destruct odd|]; eexists; constructor.
    - destruct (IH pend odd (b ++ [Blank s])) as [ls H]. exists ls. by constructor.
    - destruct (column_exists (source_text b)) as [col Hc].
      destruct (IH (Some (t, (line_after (source_text b), col))) (negb odd) (b ++ [Token t])) as [ls H].
      eexists. by econstructor.
  Qed.

  Lemma walk_blanks pend odd b bl ps ls :
    no_token bl -> walk pend odd b (bl ++ ps) ls -> walk pend odd (b ++ bl) ps ls.
  Proof.
    intros Hb. revert b. induction Hb as [|p bl [s ->] Hb IH]; intros b H; [by rewrite app_nil_r|].
    cbn [app] in H. inversion H; subst. change (Blank s :: bl) with ([Blank s] ++ bl). rewrite app_assoc. by apply IH.
  Qed.

  Definition pending (pend : option (str * location)) (prev : str) (b : list source_piece) : Prop :=
    match pend with
    | None => prev = [] /\ b = []
    | Some (t, p) => prev = t /\ t <> [] /\ exists b0, b = b0 ++ [Token t] /\
        p.1 = line_after (source_text b0) /\ column_after (source_text b0) p.2
    end.

  Lemma scan_loop_walk n ps b pend prev ls locs :
    length ps < n -> well_lexed (b ++ ps) -> pending pend prev b -> walk pend false b ps ls ->
    scan_loop word check (source_text (b ++ ps)) n (map lexed_piece ps) (length (source_text b))
      prev (length (source_text b)) (length prev) locs = Some (locs ++ ls).
  Proof.
    revert ps b pend prev ls locs. induction n as [|n IH]; intros ps b pend prev ls locs Hn Hw Hp Hwalk; [lia|].
    cbn [scan_loop]. destruct (decompose ps) as [Hno|(bl & t & ps1 & -> & Hbl)].
    - rewrite next_token_none by done. rewrite <- (app_nil_r ps) in Hwalk. apply walk_blanks in Hwalk; [|done].
      inversion Hwalk; subst; by rewrite app_nil_r.
    - rewrite next_token_some by done. cbn [lx_len lx_skip lexed_piece plus].
      apply walk_blanks in Hwalk; [|done]. inversion Hwalk as [| | | |pend' odd' b' t' ps' col ls' Hcol Hwalk1]; subst.
      clear Hwalk. rename ls' into ls. cbn [negb] in Hwalk1.
      rewrite <- app_length, <- source_text_app.
      assert (E : source_text (b ++ bl ++ Token t :: ps1) = source_text (b ++ bl) ++ t ++ source_text ps1).
      { by rewrite app_assoc, source_text_app, source_text_token. }
      assert (Hw1 : well_lexed ps1).
      { rewrite ?well_lexed_valid in *. rewrite !Forall_app, Forall_cons in Hw. tauto. }
      assert (Ht : t <> [] /\ utf8_valid t = true).
      { rewrite ?well_lexed_valid in *. rewrite !Forall_app, Forall_cons in Hw. tauto. }
      rewrite E, slice_middle by (by (apply valid_pieces) || by destruct Ht).
      assert (Hadd : forall bb w rr l, w = word -> utf8_valid rr = true ->
        forall col, column_after bb col ->
        add_location (bb ++ w ++ rr) l (length (bb ++ w)) (length w) = Some (l ++ [(line_after bb, col)])).
      { intros bb w rr l -> Hrr c Hc.
        destruct (add_location_spec bb word rr l Hword Hnl) as (c' & Hc' & ->).
        - rewrite app_assoc. by apply boundary_valid.
        - by rewrite (column_fun _ _ _ Hc Hc'). }
      set (l1 := match pend with Some (u, p) => if check u t then [p] else [] | None => [] end).
      assert (Hchk : match prev with [] => Some locs | _ =>
         if check prev t then add_location (source_text (b ++ bl) ++ t ++ source_text ps1) locs (length (source_text b)) (length prev)
         else Some locs end = Some (locs ++ l1)).
      { unfold l1, pending in *. destruct pend as [[u [ln c]]|].
        - destruct Hp as (-> & Hne & b0 & -> & Hp1 & Hp2). destruct u as [|u0 u]; [done|].
          destruct (check (u0 :: u) t) eqn:Ec; [|by rewrite app_nil_r].
          assert (E' : source_text (b0 ++ [Token (u0 :: u)]) = source_text b0 ++ (u0 :: u))
            by (rewrite source_text_app, source_text_token; change (source_text []) with (@nil ascii); by rewrite app_nil_r).
          rewrite <- E, (source_text_app (b0 ++ [Token (u0 :: u)])), E', <- (app_assoc (source_text b0)). cbn in Hp1, Hp2.
          rewrite (Hadd _ _ _ _ (Hcheck _ _ Ec)) with (col := c).
          + by rewrite Hp1.
          + apply valid_pieces. rewrite ?well_lexed_valid in *. rewrite Forall_app in Hw. by destruct Hw as [_ Hw].
          + done.
        - destruct Hp as [-> _]. by rewrite app_nil_r. }
      rewrite Hchk. clear Hchk.
      destruct (decompose ps1) as [Hno|(bl2 & u & ps2 & -> & Hbl2)].
      + rewrite next_token_none by done.
        rewrite <- (app_nil_r ps1) in Hwalk1. apply walk_blanks in Hwalk1; [|done].
        inversion Hwalk1; subst. destruct n as [|n]; [rewrite app_length in Hn; cbn in Hn; lia|].
        destruct (str_eqb t word) eqn:Et.
        * apply str_eqb_spec in Et. rewrite <- app_length. rewrite (Hadd _ _ _ _ Et) with (col := col); [|by apply valid_pieces|done].
          cbn [scan_loop next_token]. by rewrite <- app_assoc.
        * cbn [scan_loop next_token]. by rewrite app_nil_r.
      + rewrite next_token_some by done. cbn [lx_len lx_skip lexed_piece plus].
        apply walk_blanks in Hwalk1; [|done]. inversion Hwalk1 as [| | | |pend' odd' b' t' ps' col2 ls' Hcol2 Hwalk2]; subst.
        clear Hwalk1. rename ls' into ls. cbn [negb] in Hwalk2.
        assert (E2 : source_text (b ++ bl) ++ t ++ source_text (bl2 ++ Token u :: ps2) =
           source_text ((b ++ bl) ++ Token t :: bl2) ++ u ++ source_text ps2).
        { by rewrite !source_text_app, !source_text_token, <- !app_assoc. }
        assert (Hw2 : well_lexed ps2).
        { rewrite ?well_lexed_valid in *. rewrite !Forall_app, Forall_cons in Hw1. tauto. }
        assert (Hu : u <> [] /\ utf8_valid u = true).
        { rewrite ?well_lexed_valid in *. rewrite !Forall_app, Forall_cons in Hw1. tauto. }
        replace (length (source_text (b ++ bl)) + length t + length (source_text bl2)) with
          (length (source_text ((b ++ bl) ++ Token t :: bl2)))
          by (rewrite source_text_app, source_text_token, !app_length; lia).
        rewrite E2, slice_middle by (by (apply valid_pieces) || by destruct Hu).
        assert (Hchk : (if check t u then add_location (source_text ((b ++ bl) ++ Token t :: bl2) ++ u ++ source_text ps2)
            (locs ++ l1) (length (source_text (b ++ bl)) + length t) (length t) else Some (locs ++ l1)) =
          Some ((locs ++ l1) ++ (if check t u then [(line_after (source_text (b ++ bl)), col)] else []))).
        { destruct (check t u) eqn:Ec; [|by rewrite app_nil_r]. rewrite <- E2, <- app_length.
          apply Hadd; [by eapply Hcheck|by apply valid_pieces|done]. }
        rewrite Hchk. clear Hchk.
        specialize (IH ps2 (((b ++ bl) ++ [Token t]) ++ bl2 ++ [Token u])
          (Some (u, (line_after (source_text (((b ++ bl) ++ [Token t]) ++ bl2)), col2))) u ls
          ((locs ++ l1) ++ (if check t u then [(line_after (source_text (b ++ bl)), col)] else []))).
        rewrite <- E2. rewrite <- E.
        replace (length (source_text ((b ++ bl) ++ Token t :: bl2)) + length u) with
          (length (source_text (((b ++ bl) ++ [Token t]) ++ bl2 ++ [Token u])))
          by (rewrite !source_text_app, !source_text_token, !app_length; cbn; lia).
        replace (b ++ bl ++ Token t :: bl2 ++ Token u :: ps2) with
          ((((b ++ bl) ++ [Token t]) ++ bl2 ++ [Token u]) ++ ps2) by by rewrite <- !app_assoc.
        rewrite IH.
        * f_equal. rewrite <- !app_assoc. done.
        * rewrite !app_length in Hn. cbn in Hn. rewrite app_length in Hn. cbn in Hn. lia.
        * revert Hw. rewrite <- !app_assoc. done.
        * split; [done|]. split; [by destruct Hu|]. exists (((b ++ bl) ++ [Token t]) ++ bl2). split; [by rewrite <- !app_assoc|].
          done.
        * by rewrite (app_assoc _ bl2).
  Qed.

  (** ** What the loop finds *)

  Lemma use_dec t after : use t after \/ ~ use t after.
  Proof.
    destruct (decompose after) as [Hn|(bl & u & ps & -> & Hb)].
    - destruct (decide (t = word)) as [H|H]; [left|right]; by rewrite <- (Hend t after Hn).
    - assert (Hi : next_is u (bl ++ Token u :: ps)) by by apply next_is_here.
      destruct (check t u) eqn:E; [left|right]; rewrite <- (Hnext t u _ Hi); congruence.
  Qed.

  (** The last token is the word, and it has an even number. *)
  Fixpoint missed_at (pend : option str) (odd : bool) (ps : list source_piece) : Prop :=
    match ps with
    | [] => pend = Some word /\ odd = false
    | Blank _ :: ps => missed_at pend odd ps
    | Token t :: ps => missed_at (Some t) (negb odd) ps
    end.

  Lemma walk_places pend odd b ps ls :
    walk pend odd b ps ls ->
    exists r rest, places use b ps rest /\
      match pend with
      | None => r = []
      | Some (t, p) => use t ps /\ r = [p] \/ ~ use t ps /\ r = []
      end /\
      (~ missed_at (fst <$> pend) odd ps -> ls = r ++ rest) /\
      (missed_at (fst <$> pend) odd ps -> exists p, r ++ rest = ls ++ [p]).
  Proof.
    induction 1 as [odd b|t p b|t p b|pend odd b s ps ls H IH|pend odd b t ps col ls Hcol H IH].
    - exists [], []. split; [constructor|]. split; [done|]. split; [done|]. by intros [? _].
    - assert (Hn : no_token []) by constructor. destruct (decide (t = word)) as [->|Ht].
      + exists [p], []. split; [constructor|]. split; [left; split; [by apply (Hend word [] Hn)|done]|].
        split; [intros Hm; by destruct Hm|]. intros _. by exists p.
      + exists [], []. split; [constructor|]. split; [right; split; [by rewrite <- (Hend t [] Hn)|done]|].
        split; [done|]. intros [[= ->] _]. done.
    - assert (Hn : no_token []) by constructor. destruct (str_eqb t word) eqn:E.
      + apply str_eqb_spec in E as ->. exists [p], []. split; [constructor|].
        split; [left; split; [by apply (Hend word [] Hn)|done]|]. split; [done|]. by intros [_ ?].
      + assert (Ht : t <> word) by (intros ->; by rewrite (proj2 (str_eqb_spec word word)) in E).
        exists [], []. split; [constructor|]. split; [right; split; [by rewrite <- (Hend t [] Hn)|done]|]. split; [done|].
        by intros [_ ?].
    - destruct IH as (r & rest & H1 & H2 & H3 & H4). exists r, rest. split; [by apply places_no|].
      split; [|done]. destruct pend as [[t p]|]; [|done]. by rewrite !(use_blank t s ps).
    - destruct IH as (r & rest & H1 & H2 & H3 & H4). cbn [fmap option_fmap option_map fst] in *.
      set (r0 := match pend with Some (u, p) => if check u t then [p] else [] | None => [] end).
      exists r0, (r ++ rest). split; [|split; [|split]].
      + destruct H2 as [[Hu ->]|[Hu ->]]; cbn [app].
        * by apply places_use.
        * apply places_no; [|done]. intros t' [= <-]. done.
      + unfold r0. destruct pend as [[u p]|]; [|done].
        assert (Hi : next_is t (Token t :: ps)) by constructor. rewrite <- !(Hnext u t _ Hi).
        destruct (check u t); [left|right]; by split.
      + intros Hm. by rewrite (H3 Hm).
      + intros Hm. destruct (H4 Hm) as [p Hp]. exists p. by rewrite Hp, app_assoc.
  Qed.

  Lemma missed_at_end pend odd ps :
    missed_at pend odd ps <->
    (exists before after n, ps = before ++ Token word :: after /\ no_token after /\
       token_count ps n /\ (if odd then Nat.Odd n else Nat.Even n)) \/
    (no_token ps /\ pend = Some word /\ odd = false).
  Proof.
    revert pend odd. induction ps as [|[s|t] ps IH]; intros pend odd; cbn [missed_at].
    - split; [intros [-> ->]; right; by split; [constructor|]|]. intros [(b & a & n & E & _)|(_ & -> & ->)]; [by destruct b|done].
    - rewrite IH. split; (intros [(b & a & n & E & Ha & Hc & Hn)|(Hn & H)]; [left|right]).
      + exists (Blank s :: b), a, n. rewrite E. split; [done|]. split; [done|]. split; [constructor; by rewrite <- E|done].
      + split; [constructor; [by eexists|done]|done].
      + destruct b as [|b0 b]; [done|]. injection E as <- ->. exists b, a, n. split; [done|]. split; [done|].
        by inversion Hc; subst.
      + split; [|done]. by inversion Hn.
    - rewrite IH. split.
      + intros [(b & a & n & E & Ha & Hc & Hn)|(Hn & [= ->] & Ho)]; left.
        * exists (Token t :: b), a, (S n). rewrite E. split; [done|]. split; [done|]. split; [constructor; by rewrite <- E|].
          destruct odd; cbn in Hn.
          -- by apply Nat.Odd_succ.
          -- by apply Nat.Even_succ.
        * exists [], ps, 1. split; [done|]. split; [done|]. split; [constructor; by apply count_blanks|].
          destruct odd; [|done]. by exists 0.
      + intros [(b & a & n & E & Ha & Hc & Hn)|(Hn & _)].
        * inversion Hc as [| |? ? m Hm]; subst. destruct b as [|b0 b].
          -- injection E as -> ->. right. split; [done|]. split; [done|].
             assert (m = 0) as -> by (by apply (token_count_fun a); [|apply count_blanks]).
             destruct odd; [done|]. destruct Hn as [k Hk]. lia.
          -- injection E as <- ->. left. exists b, a, m. split; [done|]. split; [done|]. split; [done|].
             destruct odd; cbn.
             ++ by apply Nat.Odd_succ.
             ++ by apply Nat.Even_succ.
        * inversion Hn as [|? ? [s ?] _]; subst. done.
  Qed.

  Lemma missed_end_spec ps : missed_at None false ps <-> missed_end word ps.
  Proof.
    rewrite missed_at_end. unfold missed_end. split; [intros [H|(_ & ? & _)]; done|]. intros H. by left.
  Qed.

  Lemma missed_dec pend odd ps : missed_at pend odd ps \/ ~ missed_at pend odd ps.
  Proof.
    revert pend odd. induction ps as [|[s|t] ps IH]; intros pend odd; cbn [missed_at]; [|done|done].
    destruct pend as [t|]; [|right; by intros [? _]]. destruct (decide (t = word)) as [->|H].
    - destruct odd; [right; by intros [_ ?]|by left].
    - right. by intros [[= ->] _].
  Qed.

  Lemma scan_string_spec ps :
    well_lexed ps ->
    exists ls, scan_string word check (source_text ps) (map lexed_piece ps) = Some ls /\
      (~ missed_end word ps -> places use [] ps ls) /\
      (missed_end word ps -> exists p, places use [] ps (ls ++ [p])).
  Proof.
    intros Hw. destruct (walk_total None false [] ps) as [ls Hls]. exists ls. split.
    - unfold scan_string. rewrite map_length.
      apply (scan_loop_walk (S (length ps)) ps [] None [] ls []); [lia|done|done|done].
    - destruct (walk_places _ _ _ _ _ Hls) as (r & rest & H1 & -> & H3 & H4). cbn [fmap option_fmap option_map app] in *.
      rewrite !missed_end_spec in *. split; [intros Hm; by rewrite (H3 Hm)|].
      intros Hm. destruct (H4 Hm) as [p Hp]. exists p. by rewrite <- Hp.
  Qed.
End scan.

(** ** The two scanners *)

Lemma next_blank_iff t s ps : next_is t (Blank s :: ps) <-> next_is t ps.
Proof. split; [intros H; by inversion H|by constructor]. Qed.

Lemma unsafe_scan ps :
  well_lexed ps ->
  exists ls, scan_string (lit "unsafe") unsafe_tokens (source_text ps) (map lexed_piece ps) = Some ls /\
    (~ missed_end (lit "unsafe") ps -> places unsafe_use [] ps ls) /\
    (missed_end (lit "unsafe") ps -> exists p, places unsafe_use [] ps (ls ++ [p])).
Proof.
  apply scan_string_spec.
  - done.
  - rewrite <- has_char_spec. by vm_compute.
  - intros t u H. unfold unsafe_tokens in H. apply andb_true_iff in H as [H _]. by apply str_eqb_spec.
  - intros t u after Hn. unfold unsafe_tokens, unsafe_use. rewrite andb_true_iff, str_eqb_spec, negb_true_iff. split.
    + intros [H1 H2]. split; [done|]. intros H. rewrite (next_is_fun _ _ _ Hn H) in H2.
      by rewrite (proj2 (str_eqb_spec _ _) eq_refl) in H2.
    + intros [H1 H2]. split; [done|]. destruct (str_eqb u (lit "extern")) eqn:E; [|done].
      apply str_eqb_spec in E as ->. done.
  - intros t s after. unfold unsafe_use. by rewrite next_blank_iff.
  - intros t after Hn. unfold unsafe_use. split; [|by intros [? _]]. intros ->. split; [done|]. by apply next_is_no.
Qed.

Lemma extern_scan ps :
  well_lexed ps ->
  exists ls, scan_string (lit "extern") extern_tokens (source_text ps) (map lexed_piece ps) = Some ls /\
    (~ missed_end (lit "extern") ps -> places extern_use [] ps ls) /\
    (missed_end (lit "extern") ps -> exists p, places extern_use [] ps (ls ++ [p])).
Proof.
  apply scan_string_spec.
  - done.
  - rewrite <- has_char_spec. by vm_compute.
  - intros t u H. unfold extern_tokens in H. apply andb_true_iff in H as [H _]. by apply str_eqb_spec.
  - intros t u after Hn. unfold extern_tokens, extern_use. rewrite andb_true_iff, str_eqb_spec, negb_true_iff.
    assert (Hmem : mem_str u [lit "crate"; lit "]"; lit ")"] = false <->
      ~ next_is (lit "crate") after /\ ~ next_is (lit "]") after /\ ~ next_is (lit ")") after).
    { split.
      - intros H. split; [|split]; intros Hx; rewrite (next_is_fun _ _ _ Hn Hx) in H; by vm_compute in H.
      - intros (H1 & H2 & H3). destruct (mem_str _ _) eqn:E; [|done]. apply mem_str_spec in E.
        repeat (apply elem_of_cons in E as [->|E]; [done|]). by apply not_elem_of_nil in E. }
    by rewrite Hmem.
  - intros t s after. unfold extern_use. by rewrite !next_blank_iff.
  - intros t after Hn. unfold extern_use. split; [|by intros [? _]]. intros ->. split; [done|].
    split; [|split]; by apply next_is_no.
Qed.

Lemma places_fun use b ps ls ls' : places use b ps ls -> places use b ps ls' -> ls = ls'.
Proof.
  intros H. revert ls'. induction H as [b|b t after line col ls Hu -> Hc H IH|b p after ls Hp H IH]; intros ls' H'.
  - by inversion H'.
  - inversion H' as [|? ? ? line' col' ls'' Hu' -> Hc' H''|? ? ? ls'' Hp' H'']; subst.
    + rewrite (column_fun _ _ _ Hc Hc'). f_equal. by apply IH.
    + by destruct (Hp' t eq_refl).
  - inversion H' as [|? t ? line' col' ls'' Hu' -> Hc' H''|? ? ? ls'' Hp' H'']; subst.
    + by destruct (Hp t eq_refl).
    + by apply IH.
Qed.

Lemma places_in use b ps ls loc :
  places use b ps ls ->
  loc ∈ ls <-> exists before t after, ps = before ++ Token t :: after /\ use t after /\
    loc.1 = line_after (source_text (b ++ before)) /\ column_after (source_text (b ++ before)) loc.2.
Proof.
  induction 1 as [b|b t after line col ls Hu Hl Hc H IH|b p after ls Hp H IH].
  - split; [intros H; by apply not_elem_of_nil in H|]. intros (b' & ? & ? & E & _). by destruct b'.
  - rewrite elem_of_cons, IH. split.
    + intros [->|(b' & t' & a & -> & H2 & H3)].
      * exists [], t, after. rewrite app_nil_r. by rewrite <- Hl.
      * exists (Token t :: b'), t', a. rewrite <- app_assoc in H3. done.
    + intros (b' & t' & a & E & H2 & H3 & H4). destruct b' as [|b0 b'].
      * injection E as <- <-. left. rewrite app_nil_r in *. destruct loc as [l c]. cbn in *. subst.
        by rewrite (column_fun _ _ _ H4 Hc).
      * injection E as <- ->. right. exists b', t', a. rewrite <- app_assoc. done.
  - rewrite IH. split.
    + intros (b' & t' & a & -> & H2 & H3). exists (p :: b'), t', a. rewrite <- app_assoc in H3. done.
    + intros (b' & t' & a & E & H2 & H3 & H4). destruct b' as [|b0 b'].
      * injection E as -> <-. by destruct (Hp t' eq_refl).
      * injection E as <- ->. exists b', t', a. rewrite <- app_assoc. done.
Qed.
