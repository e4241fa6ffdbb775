(** More about the full-screen interface: opening lists (C139), and that the screen keeps up with the problems (C165). *)
From Verif Require Import Base BaseFacts TextModel ApiMapModel ConfigModel ConfigSpec ProblemModel StoreModel
  StoreSpec StoreProofs TomlModel EditorModel EditorSpec UiProofs TermModel TermSpec TermProofs TermRunProofs
  TermKeyProofs EditorProps UiProps TermProps.

(** ** C139: opening lists *)

(** The list of fixes opens at its first line, for the selected problem. *)
Theorem C139_fixes_opened :
  forall (o : outside) (l : list (step o)) (s s' : term o) (tr : list (step o * list (act o))) (acts : list (act o)),
  reached o l s tr -> takes_key o s -> on_top o s = Some SelectProblem \/ on_top o s = Some SelectUsage ->
  term_step o s (TGo (PollKey (KChar "f"))) = Stepped s' acts -> ts_error s' = false ->
  on_top o s' = Some SelectEdit /\ cursor o s' = 0 /\ current o s' = current o s /\ acts = [].
Proof.
  intros o l s s' tr acts Hr [Hat He] Ht Hs He'.
  cbn [term_step] in Hs. rewrite Hat in Hs. unfold at_key in Hs. rewrite He in Hs. unfold handle_key in Hs.
  unfold on_top in Ht. destruct (tu_modes (ts_ui s)) as [|m ms] eqn:Em; [by destruct Ht|]. cbn [head hd_error] in Ht.
  destruct Ht as [[= ->]|[= ->]]; cbn [is_char] in Hs.
  - unfold in_problem_mode in Hs. change (is_arrow (KChar "f")) with false in Hs.
    change (is_char ["q"%char] (KChar "f")) with false in Hs. change (is_char ["f"%char] (KChar "f")) with true in Hs.
    cbn iota in Hs. destruct (edits o (ts_ui s) (ts_world s)) as [|e es] eqn:Ee.
    + injection Hs as <- <-. done.
    + injection Hs as <- <-. unfold cursor, on_top, current, open_problems. cbn. done.
  - unfold in_usage_mode in Hs. change (is_arrow (KChar "f")) with false in Hs.
    change (is_char ["q"%char] (KChar "f")) with false in Hs. change (is_char ["f"%char] (KChar "f")) with true in Hs.
    change (is_char ["d"%char] (KChar "f")) with false in Hs. change (is_char ["i"%char] (KChar "f")) with false in Hs.
    cbn iota in Hs. injection Hs as <- <-. unfold cursor, on_top, current, open_problems. cbn. done.
Qed.
Print Assumptions C139_fixes_opened.

(** The list of usages opens at its first line, for the selected problem. *)
Theorem C139_usages_opened :
  forall (o : outside) (l : list (step o)) (s s' : term o) (tr : list (step o * list (act o))) (acts : list (act o)),
  reached o l s tr -> takes_key o s -> on_top o s = Some SelectProblem \/ on_top o s = Some SelectEdit ->
  term_step o s (TGo (PollKey (KChar "d"))) = Stepped s' acts -> ts_error s' = false ->
  on_top o s' = Some SelectUsage /\ cursor o s' = 0 /\ current o s' = current o s /\ acts = [].
Proof.
  intros o l s s' tr acts Hr [Hat He] Ht Hs He'.
  cbn [term_step] in Hs. rewrite Hat in Hs. unfold at_key in Hs. rewrite He in Hs. unfold handle_key in Hs.
  unfold on_top in Ht. destruct (tu_modes (ts_ui s)) as [|m ms] eqn:Em; [by destruct Ht|]. cbn [head hd_error] in Ht.
  assert (Hd : forall s', match details_key o (ts_ui s) (ts_world s) with
      | Handled u w acts => Stepped (with_ui o s u w AtTop true false (ts_events s)) acts
      | Failed u w acts => Stepped (with_ui o s u w AtTop true true (ts_events s)) acts
      | Crash => Crashed | Hang => Stuck end = Stepped s' acts -> ts_error s' = false ->
    on_top o s' = Some SelectUsage /\ cursor o s' = 0 /\ current o s' = current o s /\ acts = []).
  { intros s1 H1 H2. unfold details_key in H1. destruct (shown_usages o (ts_ui s) (ts_world s)).
    - injection H1 as <- <-. done.
    - unfold enter_usage_mode in H1. destruct (back_to_problems (tu_modes (ts_ui s))) as [m'|]; [|done].
      injection H1 as <- <-. unfold cursor, on_top, current, open_problems. cbn. done. }
  destruct Ht as [[= ->]|[= ->]].
  - unfold in_problem_mode in Hs. change (is_arrow (KChar "d")) with false in Hs.
    change (is_char ["q"%char] (KChar "d")) with false in Hs. change (is_char ["f"%char] (KChar "d")) with false in Hs.
    change (is_char ["d"%char] (KChar "d")) with true in Hs. cbn iota in Hs. by apply Hd.
  - unfold in_edit_mode in Hs. change (is_arrow (KChar "d")) with false in Hs.
    change (is_char ["q"%char] (KChar "d")) with false in Hs.
    change (is_char ["d"%char] (KChar "d")) with true in Hs. cbn iota in Hs. by apply Hd.
Qed.
Print Assumptions C139_usages_opened.

Lemma usage_rows_block (u : tui) (f : list nat) (x : nat) : forall (l : list nat) (n : nat),
  frames_shown u = Some f -> n <= tu_usage u -> l !! (tu_usage u - n) = Some x ->
  exists before after, usage_rows u n l = before ++ RowUsage x :: map RowFrame f ++ after /\
    length before = tu_usage u - n.
Proof.
  induction l as [|y l IH]; intros n Hf Hn Hx; cbn [usage_rows]; [done|]. rewrite Hf.
  destruct (decide (n = tu_usage u)) as [->|Hne].
  - rewrite Nat.sub_diag in *. rewrite Nat.eqb_refl. injection Hx as ->. by eexists [], _.
  - rewrite (proj2 (Nat.eqb_neq n (tu_usage u)) Hne).
    replace (tu_usage u - n) with (S (tu_usage u - S n)) in * by lia. cbn in Hx.
    destruct (IH (S n) Hf ltac:(lia) Hx) as (b & a & -> & Hb). exists (RowUsage y :: b), a. cbn. by rewrite Hb.
Qed.

Lemma problem_rows_block (o : outside) (u : tui) (w : world o) (p : problem) (id : nat) :
  forall (l : list (nat * problem)) (n : nat),
  n <= tu_problem u -> l !! (tu_problem u - n) = Some (id, p) ->
  exists before after, problem_rows o u w n l = before ++ RowProblem p :: below o u w ++ after /\
    length before = tu_problem u - n.
Proof.
  induction l as [|[i q] l IH]; intros n Hn Hx; cbn [problem_rows]; [done|].
  destruct (decide (n = tu_problem u)) as [->|Hne].
  - rewrite Nat.sub_diag in *. rewrite Nat.eqb_refl. injection Hx as -> ->. by eexists [], _.
  - rewrite (proj2 (Nat.eqb_neq n (tu_problem u)) Hne).
    replace (tu_problem u - n) with (S (tu_problem u - S n)) in * by lia. cbn in Hx.
    destruct (IH (S n) ltac:(lia) Hx) as (b & a & -> & Hb). exists (RowProblem q :: b), a. cbn. by rewrite Hb.
Qed.

(** The frames of a usage are listed below it, and the first one is highlighted. *)
Theorem C139_frames_opened :
  forall (o : outside) (l : list (step o)) (s s' s'' : term o) (tr : list (step o * list (act o)))
         (acts acts' : list (act o)) (id x y : nat) (p : problem) (f : list nat) (sc : screen o),
  reached o l s tr -> takes_key o s -> on_top o s = Some SelectUsage -> current o s = Some (id, p) ->
  o_usages o p !! cursor o s = Some x -> o_backtrace o x = Some (y :: f) ->
  term_step o s (TGo (PollKey (KChar "b"))) = Stepped s' acts ->
  term_step o s' (TGo PollNothing) = Stepped s'' acts' -> last (drawn o acts') = Some sc ->
  exists before after,
    sc_rows sc = before ++ RowProblem p :: map RowUsage (take (cursor o s) (o_usages o p)) ++
                 RowUsage x :: RowFrame y :: map RowFrame f ++ after /\
    length before = tu_problem (ts_ui s) /\
    sc_top sc = Some (Backtrace (y :: f)) /\ highlighted o sc = Some (RowFrame y).
Proof.
  intros o l s s' s'' tr acts acts' id x y p f sc Hr [Hat He] Ht Hc Hx Hb Hs Hs' Hd.
  pose proof (reached_memory o _ _ _ Hr) as (M1 & _).
  cbn [term_step] in Hs. rewrite Hat in Hs. unfold at_key in Hs. rewrite He in Hs. unfold handle_key in Hs.
  unfold on_top in Ht. destruct (tu_modes (ts_ui s)) as [|m ms] eqn:Em; [done|]. cbn [head hd_error] in Ht.
  injection Ht as ->. unfold cursor, on_top in *. rewrite Em in *. cbn [head hd_error] in Hx |- *.
  unfold current, open_problems in Hc.
  unfold in_usage_mode in Hs. change (is_arrow (KChar "b")) with false in Hs.
  change (is_char ["q"%char] (KChar "b")) with false in Hs. change (is_char ["f"%char] (KChar "b")) with false in Hs.
  change (is_char ["d"%char] (KChar "b")) with false in Hs. change (is_char ["i"%char] (KChar "b")) with false in Hs.
  change (is_char ["b"%char] (KChar "b")) with true in Hs. cbn iota zeta in Hs.
  assert (Eu : shown_usages o (set_frame (ts_ui s) 0) (ts_world s) = o_usages o p).
  { unfold shown_usages, selected. cbn [set_frame tu_problem]. by rewrite Hc. }
  rewrite Eu in Hs. change (tu_usage (set_frame (ts_ui s) 0)) with (tu_usage (ts_ui s)) in Hs.
  rewrite Hx, Hb in Hs. injection Hs as <- <-.
  cbn [term_step with_ui ts_at] in Hs'. unfold at_top in Hs'. cbn [with_ui ts_ui push set_frame tu_modes] in Hs'.
  injection Hs' as <- <-. cbn in Hd. injection Hd as <-.
  assert (Hsh : exists r, ms = r /\ SelectEdit ∉ ms).
  { exists ms. split; [done|]. remember (SelectUsage :: ms) as m' eqn:E in M1.
    destruct M1 as [|m' Hb'|m' Hm Hne]; [done| |done]. destruct Hb' as [| | |g|i| | |]; try done; injection E as <-;
      rewrite elem_of_list_singleton; done. }
  destruct Hsh as (_ & _ & Hse).
  set (u := push (set_frame (ts_ui s) 0) (Backtrace (y :: f))).
  assert (Hm : tu_modes u = Backtrace (y :: f) :: SelectUsage :: ms) by (unfold u; cbn; by rewrite Em).
  assert (E1 : edit_mode u = false).
  { apply bool_decide_eq_false. rewrite Hm, !elem_of_cons. intros [?|[?|?]]; done. }
  assert (E2 : usage_mode u = true).
  { apply bool_decide_eq_true. rewrite Hm. right. left. }
  assert (E3 : frames_shown u = Some (y :: f)) by (unfold frames_shown; by rewrite Hm).
  assert (Eu' : shown_usages o u (ts_world s) = o_usages o p) by exact Eu.
  destruct (usage_rows_block u (y :: f) x (o_usages o p) 0) as (b1 & a1 & R1 & L1);
    [done|lia|rewrite Nat.sub_0_r; exact Hx|].
  destruct (problem_rows_block o u (ts_world s) p id (store_open (w_store (ts_world s))) 0) as (b2 & a2 & R2 & L2);
    [lia|rewrite Nat.sub_0_r; exact Hc|].
  unfold below in R2. rewrite E1, E2, Eu', R1 in R2. rewrite Nat.sub_0_r in L1, L2.
  assert (Hpre : b1 = map RowUsage (take (tu_usage (ts_ui s)) (o_usages o p))).
  { clear - R1 L1 Hx E3. change (tu_usage (ts_ui s)) with (tu_usage u) in *.
    assert (X : forall l n b a k, n + k = tu_usage u -> k < length l -> usage_rows u n l = b ++ a -> length b = k ->
      b = map RowUsage (take k l)).
    { induction l as [|z l IH]; intros n b a k Hn Hk Hr Hlen; [cbn in Hk; lia|].
      destruct k as [|k]; [destruct b; [done|cbn in Hlen; lia]|].
      cbn [usage_rows] in Hr. rewrite (proj2 (Nat.eqb_neq n (tu_usage u)) ltac:(lia)), E3 in Hr. cbn [app] in Hr.
      destruct b as [|b0 b]; [done|]. injection Hr as <- Hr. cbn [take map]. f_equal.
      apply (IH (S n) b a k); [lia| |done|]; cbn in Hlen, Hk; lia. }
    eapply (X (o_usages o p) 0); [|by eapply lookup_lt_Some|exact R1|exact L1]. lia. }
  exists b2. eexists. split_and!.
  - cbn [draw sc_rows]. fold u. rewrite R2, Hpre, <- !app_assoc. cbn [app]. rewrite <- app_assoc. cbn [map app]. reflexivity.
  - exact L2.
  - unfold draw. cbn [sc_top]. fold u. by rewrite Hm.
  - apply (highlighted_frame o u (ts_world s) _ (y :: f) x y); [| |done| |].
    + rewrite Hm, !elem_of_cons. intros [?|[?|?]]; done.
    + rewrite Hm. right. left.
    + by rewrite Eu'.
    + done.
Qed.
Print Assumptions C139_frames_opened.

Example C139_opened_ex :
  let p := PDisallowedApiUsage (ApiUsages ed_pkg All (lit "fs")
             [ApiUsage [lit "std"; lit "fs"] None 4; ApiUsage [lit "std"; lit "fs"] None 7]) in
  let l := tx_start [tx_macro; p] ++ tx_press [KDown; KChar "d"; KDown] ++ tx_wait in
  let s := (tx_run tx_empty l).1 in
  let s' := (tx_next s (KChar "b")).1 in
  reached tx l s (tx_run tx_empty l).2 /\ takes_key tx s /\ on_top tx s = Some SelectUsage /\
  current tx s = Some (1, p) /\ o_usages tx p !! cursor tx s = Some 7 /\ o_backtrace tx 7 = Some [7; 8] /\
  map (sc_rows (o := tx)) (drawn tx (tx_after s' (TGo PollNothing)).2) =
    [[RowProblem tx_macro; RowProblem p; RowUsage 4; RowUsage 7; RowFrame 7; RowFrame 8]] /\
  on_top tx (tx_next s (KChar "f")).1 = Some SelectEdit /\ ts_error (tx_next s (KChar "f")).1 = false.
Proof. cbv zeta. unfold takes_key. tx_check. Qed.

(** ** C165: the screen keeps up *)

Section kept.
  Context (o : outside).

  Lemma listed_below (u : tui) (w : world o) :
    omap (fun r => match r with RowProblem p => Some p | _ => None end) (below o u w) = [].
  Proof.
    unfold below. destruct (edit_mode u).
    - induction (edits o u w); done.
    - destruct (usage_mode u); [|done]. generalize 0.
      assert (F : forall f : list nat, omap (fun r => match r with RowProblem p => Some p | _ => None end) (map RowFrame f) = [])
        by (induction f; done).
      induction (shown_usages o u w) as [|x l IH]; intros n; [done|]. cbn [usage_rows].
      change (omap ?g (RowUsage x :: ?t)) with (omap g t). rewrite omap_app, IH, app_nil_r.
      destruct (frames_shown u) as [f|]; [|done]. destruct (Nat.eqb n (tu_usage u)); [apply F|done].
  Qed.

  Lemma listed_draw (u : tui) (w : world o) (e : bool) : listed (draw o u w e) = map snd (store_open (w_store w)).
  Proof.
    unfold listed, draw. cbn [sc_rows]. generalize 0. induction (store_open (w_store w)) as [|[i p] l IH]; intros n; [done|].
    cbn [problem_rows]. fold (below o u w). change (omap ?g (RowProblem p :: ?t)) with (p :: omap g t).
    rewrite omap_app, IH. cbn [map snd]. f_equal. destruct (Nat.eqb n (tu_problem u)); [by rewrite listed_below|done].
  Qed.

  Definition fresh (s : term o) (tr : list (step o * list (act o))) : Prop :=
    exists sc, last (drawn o (acts_of o tr)) = Some sc /\ listed sc = map snd (open_problems o s) /\
      sc_top sc = on_top o s /\ sc_error sc = ts_error s.

  Definition keeps_up (s : term o) (tr : list (step o * list (act o))) : Prop :=
    match ts_at s with
    | AtStart => ts_redraw s = true
    | AtTop => 0 < ts_events s \/ ts_redraw s = true \/ fresh s tr
    | AtEvent | AtKey => ts_redraw s = false /\ (0 < ts_events s \/ fresh s tr)
    | AtEnd => True
    end.

  Lemma fresh_step (s s' : term o) (tr : list (step o * list (act o))) (a : step o) (acts : list (act o)) :
    fresh s tr -> drawn o acts = [] -> open_problems o s' = open_problems o s -> on_top o s' = on_top o s ->
    ts_error s' = ts_error s -> fresh s' (tr ++ [(a, acts)]).
  Proof.
    intros (sc & H1 & H2 & H3 & H4) Hd Ho Ht He. exists sc. rewrite acts_of_app, acts_of_one, drawn_app, Hd, app_nil_r.
    rewrite Ho, Ht, He. done.
  Qed.

  Lemma keeps_up_step (s s' : term o) (tr : list (step o * list (act o))) (a : step o) (acts : list (act o)) :
    inv o s tr -> keeps_up s tr -> term_step o s a = Stepped s' acts -> keeps_up s' (tr ++ [(a, acts)]).
  Proof.
    intros [Hh Hg] K Hs. unfold keeps_up in *.
    assert (Hfr : forall s' acts, fresh s tr -> drawn o acts = [] -> open_problems o s' = open_problems o s ->
      on_top o s' = on_top o s -> ts_error s' = ts_error s -> fresh s' (tr ++ [(a, acts)]))
      by (intros; by eapply fresh_step).
    destruct a as [c ps|c|t wr| |p]; cbn [term_step] in Hs.
    - destruct ps as [|p ps]; [done|].
      destruct (store_step (w_store (ts_world s)) (SAdd c (p :: ps))) as [[st e]|]; [|done].
      injection Hs as <- <-. cbn [ts_at ts_redraw ts_events]. destruct (ts_at s); try done; try (left; lia);
        (split; [tauto|left; lia]).
    - injection Hs as <- <-. cbn [with_ui ts_at ts_redraw ts_events].
      destruct (ts_at s); try done; [destruct K as [K|[K|K]]; [by left|by right; left|right; right]| |];
        try (destruct K as [K0 [K|K]]; (split; [done|]); [by left|right]); by apply Hfr.
    - injection Hs as <- <-. cbn [with_ui ts_at ts_redraw ts_events].
      destruct (ts_at s); try done; [destruct K as [K|[K|K]]; [by left|by right; left|right; right]| |];
        try (destruct K as [K0 [K|K]]; (split; [done|]); [by left|right]); by apply Hfr.
    - injection Hs as <- <-. cbn [with_ui ts_at ts_redraw ts_events].
      destruct (ts_at s); try done; [destruct K as [K|[K|K]]; [by left|by right; left|right; right]| |];
        try (destruct K as [K0 [K|K]]; (split; [done|]); [by left|right]); by apply Hfr.
    - destruct (ts_at s) eqn:Eat; [| | | |done].
      + destruct (ts_events s); [destruct (ts_shutdown s); [|done]|]; injection Hs as <- <-; cbn; [done|].
        right. by left.
      + unfold at_top in Hs.
        assert (Hdr : forall w pre, drawn o pre = [] -> store_open (w_store w) = store_open (w_store (ts_world s)) ->
          Stepped (with_ui o s (ts_ui s) w AtEvent false (ts_error s) (ts_events s))
            (pre ++ if ts_redraw s then [Drew (draw o (ts_ui s) w (ts_error s))] else []) = Stepped s' acts ->
          ts_redraw s' = false /\ (0 < ts_events s' \/ fresh s' (tr ++ [(TGo p, acts)])) /\ ts_at s' = AtEvent).
        { intros w pre Hp Hw E. injection E as <- <-. split; [done|]. split; [|done]. cbn [with_ui ts_events].
          destruct (ts_redraw s) eqn:Er.
          - right. exists (draw o (ts_ui s) w (ts_error s)). split; [|split; [|done]].
            + rewrite acts_of_app, acts_of_one, !drawn_app. cbn. rewrite app_assoc. by rewrite last_snoc.
            + rewrite listed_draw. done.
          - rewrite app_nil_r. destruct K as [K|[K|K]]; [by left|done|right]. apply Hfr; try done. }
        destruct (tu_modes (ts_ui s)) eqn:Em.
        * destruct (store_abort (w_store (ts_world s))) as [st sent] eqn:Ea.
          destruct (Hdr (set_store o (ts_world s) st) [StoppedCargo; Stored (StoreEvent SAbort [] sent)]) as (H1 & H2 & H3);
            [done| |done|by rewrite H3].
          cbn. pose proof (f_equal fst Ea) as Ef. cbn in Ef. by rewrite <- Ef.
        * destruct (Hdr (ts_world s) []) as (H1 & H2 & H3); [done|done|done|by rewrite H3].
      + unfold at_event in Hs. destruct K as [K0 K]. destruct (ts_events s) as [|n] eqn:Ev.
        { destruct K as [K|K]; [lia|]. destruct (ts_shutdown s); injection Hs as <- <-; cbn; [done|].
          split; [done|]. right. by apply Hfr. }
        destruct (problems_added o (ts_ui s) (ts_world s)); try done; injection Hs as <- <-; cbn; right; by left.
      + destruct K as [K0 K]. unfold at_key in Hs. destruct p as [| |k].
        * injection Hs as <- <-. cbn. destruct K as [K|K]; [by left|right; right]. by apply Hfr.
        * injection Hs as <- <-. cbn. right. by left.
        * destruct (ts_error s).
          -- destruct (is_char ["q"%char] k); [destruct (store_abort _)|]; injection Hs as <- <-; cbn; right; by left.
          -- destruct (handle_key o (ts_ui s) (ts_world s) k); try done; injection Hs as <- <-; cbn; right; by left.
  Qed.

  Lemma reached_keeps_up (l : list (step o)) (s : term o) (tr : list (step o * list (act o))) :
    reached o l s tr -> keeps_up s tr.
  Proof.
    revert l s tr. apply (reached_ind o (fun l s tr => keeps_up s tr)); [done|].
    intros l s tr a s' acts Hr IH Hs. eapply keeps_up_step; [by eapply reached_inv|done|done].
  Qed.
End kept.

(** Whenever the interface begins to wait for a key, the screen lists exactly the open problems, in their order, and shows what is on
    top and whether there is an error. *)
Theorem C165_shown :
  forall (o : outside) (l : list (step o)) (s s' : term o) (tr : list (step o * list (act o))) (p : polled)
         (acts : list (act o)),
  reached o l s tr -> term_step o s (TGo p) = Stepped s' acts -> ts_at s' = AtKey ->
  exists sc, last (drawn o (acts_of o (tr ++ [(TGo p, acts)]))) = Some sc /\
    listed sc = map snd (open_problems o s') /\ sc_top sc = on_top o s' /\ sc_error sc = ts_error s'.
Proof.
  intros o l s s' tr p acts Hr Hs Hat. pose proof (reached_keeps_up o _ _ _ (reached_snoc o _ _ _ _ _ _ Hr Hs)) as K.
  unfold keeps_up in K. rewrite Hat in K. destruct K as [_ [K|K]]; [|exact K]. exfalso.
  cbn [term_step] in Hs. destruct (ts_at s) eqn:Eat; [| | | |done].
  - destruct (ts_events s); [destruct (ts_shutdown s); [|done]|]; injection Hs as <- <-; done.
  - unfold at_top in Hs. destruct (tu_modes (ts_ui s)); [destruct (store_abort _)|]; injection Hs as <- <-; done.
  - unfold at_event in Hs. destruct (ts_events s) as [|n].
    + destruct (ts_shutdown s); injection Hs as <- <-; cbn in K; lia.
    + destruct (problems_added o (ts_ui s) (ts_world s)); try done; injection Hs as <- <-; done.
  - unfold at_key in Hs. destruct p as [| |k]; [injection Hs as <- <-; done..|].
    destruct (ts_error s).
    + destruct (is_char ["q"%char] k); [destruct (store_abort _)|]; injection Hs as <- <-; done.
    + destruct (handle_key o (ts_ui s) (ts_world s) k); try done; injection Hs as <- <-; done.
Qed.
Print Assumptions C165_shown.

(** Once it has started, the interface gets there by itself, whatever is waiting, unless it ends. *)
Theorem C165_soon :
  forall (o : outside) (l : list (step o)) (s : term o) (tr : list (step o * list (act o))),
  reached o l s tr -> ts_at s <> AtStart -> ts_at s <> AtEnd ->
  exists (n : nat) (s' : term o) (tr' : list (step o * list (act o))),
    0 < n <= 2 * ts_events s + 3 /\ term_run o s (repeat (TGo PollNothing) n) = Some (s', tr') /\
    (ts_at s' = AtKey \/ ts_at s' = AtEnd).
Proof.
  intros o l s tr Hr H1 H2.
  assert (Hev : forall (k : nat) (l : list (step o)) (s : term o) (tr : list (step o * list (act o))),
    reached o l s tr -> ts_events s = k -> ts_at s = AtEvent ->
    exists (n : nat) (s' : term o) (tr' : list (step o * list (act o))),
      0 < n <= 2 * k + 1 /\ term_run o s (repeat (TGo PollNothing) n) = Some (s', tr') /\
      (ts_at s' = AtKey \/ ts_at s' = AtEnd)).
  { clear. induction k as [|k IH]; intros l s tr Hr Hk Hat.
    - exists 1. cbn [repeat term_run term_step]. rewrite Hat. unfold at_event. rewrite Hk.
      destruct (ts_shutdown s); eexists _, _; (split; [lia|]); (split; [reflexivity|]); [by right|by left].
    - pose proof (step_inv o s tr (TGo PollNothing) (reached_inv o _ _ _ Hr)) as Hi.
      destruct (term_step o s (TGo PollNothing)) as [s1 acts1| | |] eqn:Es1.
      2: { exfalso. cbn [term_step] in Es1. rewrite Hat in Es1. unfold at_event in Es1. rewrite Hk in Es1.
           by destruct (problems_added o (ts_ui s) (ts_world s)). }
      2: { by destruct Hi as (k' & ? & _). }
      2: done.
      assert (A1 : ts_at s1 = AtTop /\ ts_events s1 = k).
      { cbn [term_step] in Es1. rewrite Hat in Es1. unfold at_event in Es1. rewrite Hk in Es1.
        destruct (problems_added o (ts_ui s) (ts_world s)); try done; injection Es1 as <- <-; done. }
      destruct A1 as [A1 B1]. pose proof (reached_snoc o _ _ _ _ _ _ Hr Es1) as Hr1.
      assert (exists s2 acts2, term_step o s1 (TGo PollNothing) = Stepped s2 acts2 /\ ts_at s2 = AtEvent /\ ts_events s2 = k)
        as (s2 & acts2 & Es2 & A2 & B2).
      { cbn [term_step]. rewrite A1. unfold at_top.
        destruct (tu_modes (ts_ui s1)); [destruct (store_abort _)|]; eexists _, _; split; [reflexivity|done|reflexivity|done]. }
      destruct (IH _ s2 _ (reached_snoc o _ _ _ _ _ _ Hr1 Es2) B2 A2) as (n & s' & tr' & Hn & Hrun & He).
      exists (S (S n)), s'. eexists. split; [lia|]. cbn [repeat term_run]. rewrite Es1, Es2, Hrun. by split. }
  assert (Htop : forall (l : list (step o)) (s : term o) (tr : list (step o * list (act o))),
    reached o l s tr -> ts_at s = AtTop ->
    exists (n : nat) (s' : term o) (tr' : list (step o * list (act o))),
      0 < n <= 2 * ts_events s + 2 /\ term_run o s (repeat (TGo PollNothing) n) = Some (s', tr') /\
      (ts_at s' = AtKey \/ ts_at s' = AtEnd)).
  { clear - Hev. intros l s tr Hr Hat.
    assert (exists s2 acts2, term_step o s (TGo PollNothing) = Stepped s2 acts2 /\ ts_at s2 = AtEvent /\ ts_events s2 = ts_events s)
      as (s2 & acts2 & Es2 & A2 & B2).
    { cbn [term_step]. rewrite Hat. unfold at_top.
      destruct (tu_modes (ts_ui s)); [destruct (store_abort _)|]; eexists _, _; split; [reflexivity|done|reflexivity|done]. }
    destruct (Hev _ _ s2 _ (reached_snoc o _ _ _ _ _ _ Hr Es2) B2 A2) as (n & s' & tr' & Hn & Hrun & He).
    exists (S n), s'. eexists. split; [lia|]. cbn [repeat term_run]. rewrite Es2, Hrun. by split. }
  destruct (ts_at s) eqn:Eat; [done| | | |done].
  - destruct (Htop _ _ _ Hr Eat) as (n & s' & tr' & Hn & X). exists n, s', tr'. split; [lia|done].
  - destruct (Hev _ _ _ _ Hr eq_refl Eat) as (n & s' & tr' & Hn & X). exists n, s', tr'. split; [lia|done].
  - assert (Es : term_step o s (TGo PollNothing) =
      Stepped (with_ui o s (ts_ui s) (ts_world s) AtTop (ts_redraw s) (ts_error s) (ts_events s)) []).
    { cbn [term_step]. by rewrite Eat. }
    destruct (Htop _ _ _ (reached_snoc o _ _ _ _ _ _ Hr Es) eq_refl) as (n & s' & tr' & Hn & Hrun & X).
    exists (S n), s'. eexists. split; [cbn in Hn; lia|]. cbn [repeat term_run]. rewrite Es, Hrun. by split.
Qed.
Print Assumptions C165_soon.

(** Problems arrive while the interface waits for a key. *)
Example C165_ex :
  let l := tx_start [tx_macro] ++ tx_wait ++ [TSubmit 1 [tx_unsafe; tx_export]] in
  let s := (tx_run tx_empty l).1 in
  reached tx l s (tx_run tx_empty l).2 /\ ts_at s = AtKey /\ ts_events s = 1 /\
  match term_run tx s (repeat (TGo PollNothing) 5) with
  | Some (s', tr) => ts_at s' = AtKey /\ map listed (drawn tx (acts_of tx tr)) = [[tx_macro; tx_unsafe; tx_export]]
  | None => False
  end.
Proof.
  cbv zeta. split; [apply tx_reached; tx_eq|]. split; [tx_eq|]. split; [tx_eq|]. vm_compute. by split.
Qed.
