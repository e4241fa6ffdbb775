From Verif Require Import Base BaseFacts ApiMapModel ConfigModel ProblemModel StoreModel StoreSpec StoreProofs
  TomlModel EditorModel UiProofs TermModel TermSpec TermProofs.

Section proofs.
  Context (o : outside).

  (** ** Accepting all single fixes *)

  Lemma accept_all_spec (u : tui) (w : world o) (es : list store_event) :
    history (w_store w) es ->
    exists s' acts, history s' (es ++ stored o acts) /\ Forall (fun a => exists e, a = Stored e) acts /\
      Forall (fun e => exists id, se_op e = SReplace id []) (stored o acts) /\
      (resolved o acts) `prefix_of` (singles_of o (w_config w) (store_open (w_store w))).*1 /\
      (accept_all_single_edits o u w = Failed u (set_store o w s') acts /\
       (o_parse o (w_file w) = None \/
        (exists d, o_parse o (w_file w) = Some d /\
           applied o (map snd (singles_of o (w_config w) (store_open (w_store w)))) d = None) \/
        w_writable w = false) \/
       exists d d', o_parse o (w_file w) = Some d /\ w_writable w = true /\
         applied o (map snd (singles_of o (w_config w) (store_open (w_store w)))) d = Some d' /\
         resolved o acts = (singles_of o (w_config w) (store_open (w_store w))).*1 /\
         store_open s' = others_of o (w_config w) (store_open (w_store w)) /\
         accept_all_single_edits o u w =
           Handled u (set_store o (set_file o w (o_print o d')) s') (acts ++ [Wrote (o_print o d')])).
  Proof.
    intros Hh. unfold accept_all_single_edits. destruct (o_parse o (w_file w)) as [d|] eqn:Ep.
    - destruct (accept_singles_spec o (length (st_problems (w_store w))) (w_config w) (w_store w) es d Hh)
        as (s' & acts & r & -> & Hh' & Hs & Hops & Hap & Hpre & Hok); [apply open_length|].
      exists s', acts. split_and!; try done. destruct r as [d'|]; [|left; eauto 6].
      destruct (w_writable w) eqn:Ew; [|left; eauto 6]. right. destruct Hok as [H1 H2]; [done|].
      exists d, d'. done.
    - exists (w_store w), []. cbn. rewrite app_nil_r. split_and!; [done|apply Forall_nil_2|apply Forall_nil_2|apply prefix_nil|].
      left. split; [by destruct w|by left].
  Qed.

  (** ** The invariant *)

  Definition inv (s : term o) (tr : list (step o * list (act o))) : Prop :=
    history (w_store (ts_world s)) (stored o (acts_of o tr)) /\ good_modes (tu_modes (ts_ui s)).

  Lemma stored_only (acts : list (act o)) :
    Forall (fun a => exists e, a = Stored e) acts -> written o acts = [] /\ drawn o acts = [].
  Proof. apply stored_written. Qed.

  (** What handling a key or new problems does. *)
  Definition fine (u : tui) (es : list store_event) (r : handled o) : Prop :=
    match r with
    | Handled u' w' acts | Failed u' w' acts =>
        history (w_store w') (es ++ stored o acts) /\ good_modes (tu_modes u') /\ drawn o acts = []
    | Crash | Hang => False
    end.

  Lemma accept_fine (u : tui) (w : world o) (es : list store_event) :
    history (w_store w) es -> good_modes (tu_modes u) -> fine u es (accept_all_single_edits o u w).
  Proof.
    intros Hh Hg.
    destruct (accept_all_spec u w es Hh) as (s' & acts & Hh' & Hs & _ & _ & [[-> _]|(d & d' & _ & _ & _ & _ & _ & ->)]);
      cbn; destruct (stored_only _ Hs) as [_ Hd]; [done|].
    rewrite stored_app, drawn_app, Hd. cbn. by rewrite app_nil_r.
  Qed.

  Lemma apply_fine (u : tui) (w : world o) (es : list store_event) :
    history (w_store w) es -> tu_modes u <> [] -> good_modes (tu_modes u) ->
    fine u es (after_apply o (apply_selected o u w)).
  Proof.
    intros Hh Hne Hg.
    assert (Hpop : good_modes (tail (tu_modes u))).
    { destruct (tu_modes u) as [|m ms]; [done|]. by apply good_pop in Hg. }
    destruct (apply_selected_spec o u w es Hh)
      as [[_ ->]|[[-> _]|(e & id & p & d & d' & s' & ev & acts & _ & _ & _ & _ & _ & _ & -> & _ & Hs & Hh' & _)]].
    - cbn. rewrite app_nil_r. split; [done|]. by destruct (Nat.leb _ _).
    - cbn. by rewrite app_nil_r.
    - destruct (stored_only _ Hs) as [_ Hd]. cbn. split; [done|]. by destruct (Nat.leb _ _).
  Qed.

  Lemma harmless_fine (u : tui) (w : world o) (es : list store_event) (r : handled o) (len : option nat) (k : key) :
    history (w_store w) es -> harmless o u w r len k ->
    (r = Crash /\ is_arrow k = true /\ len = Some 0) \/ fine u es r.
  Proof.
    intros Hh. destruct r as [u' w' acts|u' w' acts| |]; cbn; [| |tauto|done];
      intros (-> & -> & _ & Hg); right; cbn; by rewrite app_nil_r.
  Qed.

  Lemma key_fine (u : tui) (w : world o) (es : list store_event) (k : key) :
    history (w_store w) es -> good_modes (tu_modes u) ->
    (handle_key o u w k = Crash /\ is_arrow k = true /\ list_at o u w = Some 0) \/
    fine u es (handle_key o u w k).
  Proof.
    intros Hh Hg. destruct (handle_key_cases o u w k Hg) as [(Ht & _ & ->)|[(Ht & _ & ->)|Hr]].
    - right. apply apply_fine; [done| |done]. by destruct (tu_modes u).
    - right. pose proof (accept_fine (set_accept u) w es Hh Hg) as H.
      assert (Hu : forall u' w' acts, accept_all_single_edits o (set_accept u) w = Handled u' w' acts ->
                good_modes (tail (tu_modes u'))).
      { intros u' w' acts Ha. rewrite Ha in H. destruct H as (_ & H & _).
        destruct (tu_modes u') as [|m ms]; [done|]. by apply good_pop in H. }
      destruct (accept_all_single_edits o (set_accept u) w) as [u' w' acts|u' w' acts| |]; [|done..].
      destruct H as (H1 & H2 & H3). split; [done|]. split; [|done]. cbn. by eapply Hu.
    - eapply harmless_fine; done.
  Qed.

  Lemma step_inv (s : term o) (tr : list (step o * list (act o))) (a : step o) :
    inv s tr ->
    match term_step o s a with
    | Stepped s' acts => inv s' (tr ++ [(a, acts)])
    | NotPossible => True
    | Crashed => exists k, a = TGo (PollKey k) /\ ts_at s = AtKey /\ ts_error s = false /\
        is_arrow k = true /\ list_at o (ts_ui s) (ts_world s) = Some 0
    | Stuck => False
    end.
  Proof.
    intros [Hh Hg].
    assert (Hkeep : forall s' acts, w_store (ts_world s') = w_store (ts_world s) ->
      good_modes (tu_modes (ts_ui s')) -> stored o acts = [] -> inv s' (tr ++ [(a, acts)])).
    { intros s' acts H1 H2 H3. split; [|done]. by rewrite H1, acts_of_app, acts_of_one, stored_app, H3, app_nil_r. }
    assert (Hstep : forall s' acts es', history (w_store (ts_world s')) (stored o (acts_of o tr) ++ es') ->
      stored o acts = es' -> good_modes (tu_modes (ts_ui s')) -> inv s' (tr ++ [(a, acts)])).
    { intros s' acts es' H1 <- H2. split; [|done]. by rewrite acts_of_app, acts_of_one, stored_app. }
    destruct a as [c ps|c|t wr| |p]; cbn [term_step]; try (by apply Hkeep).
    - destruct ps as [|p ps]; [done|].
      destruct (store_step (w_store (ts_world s)) (SAdd c (p :: ps))) as [[st e]|] eqn:E.
      + eapply Hstep; [|done|done]. cbn. by eapply history_step.
      + apply (panics_iff _ _ _ Hh) in E as [[c' E]|(id & ps' & E & _)]; done.
    - destruct (ts_at s) eqn:Eat; [| | | |done].
      + destruct (ts_events s); [destruct (ts_shutdown s); [|done]|]; by apply Hkeep.
      + unfold at_top. destruct (tu_modes (ts_ui s)) eqn:Em.
        * destruct (store_abort (w_store (ts_world s))) as [st sent] eqn:Ea.
          eapply (Hstep _ _ [StoreEvent SAbort [] sent]).
          -- cbn. eapply (history_step _ _ _ SAbort); [exact Hh|]. cbn [store_step]. by rewrite Ea.
          -- rewrite stored_app. cbn. by destruct (ts_redraw s).
          -- cbn. by rewrite Em.
        * apply Hkeep; [done|cbn; by rewrite Em|]. cbn. by destruct (ts_redraw s).
      + unfold at_event. destruct (ts_events s) as [|n].
        { by destruct (ts_shutdown s); apply Hkeep. }
        unfold problems_added. destruct (tu_accept (ts_ui s)).
        * pose proof (accept_fine (ts_ui s) (ts_world s) _ Hh Hg) as H.
          destruct (accept_all_single_edits o (ts_ui s) (ts_world s)) as [u w acts|u w acts| |]; [..|done|done];
            destruct H as (H1 & H2 & _); (eapply Hstep; [exact H1|done|done]).
        * by apply Hkeep.
      + unfold at_key. destruct p as [| |k]; [by apply Hkeep..|].
        destruct (ts_error s) eqn:Ee.
        * destruct (is_char ["q"%char] k); [|by apply Hkeep].
          destruct (store_abort (w_store (ts_world s))) as [st sent] eqn:Ea.
          eapply (Hstep _ _ [StoreEvent SAbort [] sent]); [|done|done].
          cbn. eapply (history_step _ _ _ SAbort); [exact Hh|]. cbn [store_step]. by rewrite Ea.
        * destruct (key_fine (ts_ui s) (ts_world s) _ k Hh Hg) as [(-> & Hk & Hl)|H]; [by exists k|].
          destruct (handle_key o (ts_ui s) (ts_world s) k) as [u w acts|u w acts| |]; [..|done|done];
            destruct H as (H1 & H2 & _); (eapply Hstep; [exact H1|done|done]).
  Qed.

  Lemma reached_inv (l : list (step o)) (s : term o) (tr : list (step o * list (act o))) :
    reached o l s tr -> inv s tr.
  Proof.
    revert l s tr. apply (reached_ind o (fun l s tr => inv s tr)).
    - intros f w c. split; [by exists []|by right].
    - intros l s tr a s' acts _ IH Hs. pose proof (step_inv s tr a IH) as H. by rewrite Hs in H.
  Qed.

  (** ** What is highlighted *)

  (** What comes below the selected problem. *)
  Definition below (u : tui) (w : world o) : list row :=
    if edit_mode u then map RowEdit (edits o u w)
    else if usage_mode u then usage_rows u 0 (shown_usages o u w) else [].

  Lemma rows_lookup (u : tui) (w : world o) (l : list (nat * problem)) : forall (n : nat) (x : nat * problem) (j : nat),
    n <= tu_problem u -> l !! (tu_problem u - n) = Some x ->
    problem_rows o u w n l !! (tu_problem u - n) = Some (RowProblem x.2) /\
    (j < length (below u w) -> problem_rows o u w n l !! (tu_problem u - n + (j + 1)) = below u w !! j).
  Proof.
    induction l as [|[id p] l IH]; intros n x j Hn; cbn [problem_rows]; [done|].
    fold (below u w). destruct (decide (n = tu_problem u)) as [->|Hne].
    - rewrite Nat.sub_diag, Nat.eqb_refl. intros [= <-]. split; [done|]. intros Hj.
      rewrite Nat.add_1_r. cbn. by apply lookup_app_l.
    - rewrite (proj2 (Nat.eqb_neq n (tu_problem u)) Hne). replace (tu_problem u - n) with (S (tu_problem u - S n)) by lia.
      cbn. intros H. apply (IH (S n) x j); [lia|done].
  Qed.

  Lemma highlighted_edit (u : tui) (w : world o) (err : bool) (e : edit) :
    SelectEdit ∈ tu_modes u -> edits o u w !! tu_edit u = Some e ->
    highlighted o (draw o u w err) = Some (RowEdit e).
  Proof.
    intros Hm He. unfold highlighted, draw. cbn [sc_rows sc_index].
    destruct (edits_selected o _ _ _ He) as (id & p & Hsel & _ & _).
    assert (Hb : edit_mode u = true) by (unfold edit_mode; by apply bool_decide_eq_true).
    unfold row_index. rewrite Hb.
    destruct (rows_lookup u w (store_open (w_store w)) 0 (id, p) (tu_edit u)) as [_ H];
      [lia|by rewrite Nat.sub_0_r|]. rewrite Nat.sub_0_r in H. rewrite H.
    - unfold below. rewrite Hb. by rewrite list_lookup_fmap, He.
    - unfold below. rewrite Hb, map_length. by eapply lookup_lt_Some.
  Qed.

  Lemma highlighted_problem (u : tui) (w : world o) (err : bool) (x : nat * problem) :
    SelectEdit ∉ tu_modes u -> SelectUsage ∉ tu_modes u -> selected o u w = Some x ->
    highlighted o (draw o u w err) = Some (RowProblem x.2).
  Proof.
    intros H1 H2 Hsel. unfold highlighted, draw. cbn [sc_rows sc_index].
    unfold row_index, edit_mode, usage_mode. rewrite !bool_decide_eq_false_2 by done.
    destruct (rows_lookup u w (store_open (w_store w)) 0 x 0) as [H _];
      [lia|by rewrite Nat.sub_0_r|]. by rewrite Nat.sub_0_r in H.
  Qed.

  Lemma usage_rows_lookup (u : tui) (l : list nat) : forall (n : nat) (x : nat) (j : nat),
    n <= tu_usage u -> l !! (tu_usage u - n) = Some x ->
    usage_rows u n l !! (tu_usage u - n) = Some (RowUsage x) /\
    (forall f, frames_shown u = Some f -> j < length f ->
       usage_rows u n l !! (tu_usage u - n + (j + 1)) = RowFrame <$> f !! j) /\
    tu_usage u - n < length (usage_rows u n l) /\
    (forall f, frames_shown u = Some f -> j < length f -> tu_usage u - n + (j + 1) < length (usage_rows u n l)).
  Proof.
    induction l as [|y l IH]; intros n x j Hn; cbn [usage_rows]; [done|].
    destruct (decide (n = tu_usage u)) as [->|Hne].
    - rewrite Nat.sub_diag, Nat.eqb_refl. intros [= <-]. cbn [lookup list_lookup length].
      split_and!; [done| |lia|].
      + intros f -> Hj. rewrite Nat.add_1_r. cbn. etrans; [apply lookup_app_l; by rewrite map_length|].
        apply list_lookup_fmap.
      + intros f -> Hj. rewrite app_length, map_length. lia.
    - rewrite (proj2 (Nat.eqb_neq n (tu_usage u)) Hne). replace (tu_usage u - n) with (S (tu_usage u - S n)) by lia.
      cbn [lookup list_lookup]. intros H. destruct (IH (S n) x j) as (I1 & I2 & I3 & I4); [lia|done|].
      assert (Hnil : match frames_shown u with Some _ | _ => @nil row end = []) by by destruct (frames_shown u).
      assert (Hif : match frames_shown u with Some f => if false then map RowFrame f else [] | None => [] end = @nil row)
        by by destruct (frames_shown u).
      rewrite Hif. cbn [app lookup list_lookup length plus]. split_and!; [done| |lia|].
      + intros f Hf Hj. cbn. by apply I2.
      + intros f Hf Hj. specialize (I4 f Hf Hj). lia.
  Qed.

  Lemma highlighted_usage (u : tui) (w : world o) (err : bool) (x : nat) :
    SelectEdit ∉ tu_modes u -> SelectUsage ∈ tu_modes u -> frames_shown u = None ->
    shown_usages o u w !! tu_usage u = Some x ->
    highlighted o (draw o u w err) = Some (RowUsage x).
  Proof.
    intros H1 H2 Hf Hx. unfold highlighted, draw. cbn [sc_rows sc_index].
    assert (exists y, selected o u w = Some y) as [y Hsel].
    { unfold shown_usages in Hx. destruct (selected o u w) as [y|]; [by exists y|done]. }
    assert (E1 : edit_mode u = false) by by apply bool_decide_eq_false.
    assert (E2 : usage_mode u = true) by by apply bool_decide_eq_true.
    unfold row_index. rewrite E1, E2, Hf, Nat.add_0_r.
    destruct (usage_rows_lookup u (shown_usages o u w) 0 x 0) as (U1 & _ & U3 & _);
      [lia|by rewrite Nat.sub_0_r|]. rewrite Nat.sub_0_r in U1, U3.
    destruct (rows_lookup u w (store_open (w_store w)) 0 y (tu_usage u)) as [_ H];
      [lia|by rewrite Nat.sub_0_r|]. rewrite Nat.sub_0_r in H. rewrite H; unfold below; rewrite E1, E2; done.
  Qed.

  Lemma highlighted_frame (u : tui) (w : world o) (err : bool) (f : list nat) (x y : nat) :
    SelectEdit ∉ tu_modes u -> SelectUsage ∈ tu_modes u -> frames_shown u = Some f ->
    shown_usages o u w !! tu_usage u = Some x -> f !! tu_frame u = Some y ->
    highlighted o (draw o u w err) = Some (RowFrame y).
  Proof.
    intros H1 H2 Hf Hx Hy. unfold highlighted, draw. cbn [sc_rows sc_index].
    assert (exists y, selected o u w = Some y) as [z Hsel].
    { unfold shown_usages in Hx. destruct (selected o u w) as [z|]; [by exists z|done]. }
    assert (E1 : edit_mode u = false) by by apply bool_decide_eq_false.
    assert (E2 : usage_mode u = true) by by apply bool_decide_eq_true.
    unfold row_index. rewrite E1, E2, Hf.
    destruct (usage_rows_lookup u (shown_usages o u w) 0 x (tu_frame u)) as (_ & U2 & _ & U4);
      [lia|by rewrite Nat.sub_0_r|]. rewrite Nat.sub_0_r in U2, U4.
    pose proof (lookup_lt_Some _ _ _ Hy) as Hlt.
    destruct (rows_lookup u w (store_open (w_store w)) 0 z (tu_usage u + (tu_frame u + 1))) as [_ H];
      [lia|by rewrite Nat.sub_0_r|]. rewrite Nat.sub_0_r in H.
    replace (tu_problem u + (tu_usage u + 1) + (tu_frame u + 1))
      with (tu_problem u + (tu_usage u + (tu_frame u + 1) + 1)) by lia.
    rewrite H; unfold below; rewrite E1, E2.
    - rewrite (U2 f Hf Hlt), Hy. done.
    - by apply (U4 f).
  Qed.

  (** ** What is on the screen *)

  Lemma draw_fresh (s s1 : term o) (tr : list (step o * list (act o))) (a : step o) (acts : list (act o))
      (sc : screen o) :
    inv s tr -> term_step o s a = Stepped s1 acts -> last (drawn o acts) = Some sc ->
    sc = draw o (ts_ui s1) (ts_world s1) (ts_error s1) /\ ts_at s1 = AtEvent /\ ts_redraw s1 = false.
  Proof.
    intros [Hh Hg] Hs Hd.
    destruct a as [c ps|c|t wr| |p]; cbn [term_step] in Hs.
    - destruct ps as [|p ps]; [done|].
      destruct (store_step (w_store (ts_world s)) (SAdd c (p :: ps))) as [[st e]|]; [|done].
      injection Hs as <- <-. done.
    - injection Hs as <- <-. done.
    - injection Hs as <- <-. done.
    - injection Hs as <- <-. done.
    - destruct (ts_at s) eqn:Eat; [| | | |done].
      + destruct (ts_events s); [destruct (ts_shutdown s); [|done]|]; injection Hs as <- <-; done.
      + unfold at_top in Hs. destruct (tu_modes (ts_ui s)) eqn:Em.
        * destruct (store_abort (w_store (ts_world s))) as [st sent] eqn:Ea.
          injection Hs as <- <-. destruct (ts_redraw s); [|done].
          cbn in Hd. injection Hd as <-. done.
        * injection Hs as <- <-. cbn in Hd. destruct (ts_redraw s); [|done].
          cbn in Hd. injection Hd as <-. done.
      + unfold at_event in Hs. destruct (ts_events s) as [|n].
        { destruct (ts_shutdown s); injection Hs as <- <-; done. }
        unfold problems_added in Hs. destruct (tu_accept (ts_ui s)); [|injection Hs as <- <-; done].
        pose proof (accept_fine (ts_ui s) (ts_world s) _ Hh Hg) as H.
        destruct (accept_all_single_edits o (ts_ui s) (ts_world s)) as [u w ac|u w ac| |]; [..|done|done];
          destruct H as (_ & _ & H); injection Hs as <- <-; by rewrite H in Hd.
      + unfold at_key in Hs. destruct p as [| |k]; [injection Hs as <- <-; done..|].
        destruct (ts_error s) eqn:Ee.
        * destruct (is_char ["q"%char] k); [|injection Hs as <- <-; done].
          destruct (store_abort (w_store (ts_world s))) as [st sent]. injection Hs as <- <-. done.
        * destruct (key_fine (ts_ui s) (ts_world s) _ k Hh Hg) as [(E & _ & _)|H]; [by rewrite E in Hs|].
          destruct (handle_key o (ts_ui s) (ts_world s) k) as [u w ac|u w ac| |]; [..|done|done];
            destruct H as (_ & _ & H); injection Hs as <- <-; by rewrite H in Hd.
  Qed.

  Lemma draw_abort (u : tui) (w : world o) (err : bool) :
    draw o u (set_store o w (store_abort (w_store w)).1) err = draw o u w err.
  Proof.
    unfold draw. f_equal. generalize 0. change (store_open (w_store (set_store o w (store_abort (w_store w)).1)))
      with (store_open (w_store w)). induction (store_open (w_store w)) as [|[id p] l IH]; intros n; [done|].
    cbn [problem_rows]. by rewrite IH.
  Qed.

  Definition shows (s : term o) (sc : screen o) : Prop :=
    sc = draw o (ts_ui s) (ts_world s) (ts_error s) /\ ts_redraw s = false /\ ts_at s <> AtStart \/
    ts_at s = AtTop /\ ts_redraw s = true.

  Lemma shows_step (s s1 : term o) (tr : list (step o * list (act o))) (a : step o) (acts : list (act o))
      (sc : screen o) :
    inv s tr -> term_step o s a = Stepped s1 acts -> undisturbed o a -> drawn o acts = [] ->
    shows s sc -> shows s1 sc.
  Proof.
    intros [Hh Hg] Hs Hu Hd Hsh.
    destruct a as [c ps|c|t wr| |p]; try (by destruct Hu); cbn [term_step] in Hs.
    { injection Hs as <- <-. by destruct Hsh as [(-> & H1 & H2)|[H1 H2]]; [left|right]. }
    destruct Hsh as [(-> & H1 & H2)|[H1 H2]].
    - destruct (ts_at s) eqn:Eat; [done| | | |done].
      + unfold at_top in Hs. rewrite H1 in Hs. destruct (tu_modes (ts_ui s)) eqn:Em; injection Hs as <- <-;
          left; (split; [|done]); [symmetry; apply draw_abort|done].
      + unfold at_event in Hs. destruct (ts_events s) as [|n].
        { destruct (ts_shutdown s); injection Hs as <- <-; by left. }
        right. destruct (problems_added o (ts_ui s) (ts_world s)); [..|done|done]; by injection Hs as <- <-.
      + unfold at_key in Hs. destruct p as [| |k].
        * injection Hs as <- <-. by left.
        * injection Hs as <- <-. by right.
        * right. destruct (ts_error s).
          -- destruct (is_char ["q"%char] k); [|by injection Hs as <- <-].
             destruct (store_abort (w_store (ts_world s))); by injection Hs as <- <-.
          -- destruct (handle_key o (ts_ui s) (ts_world s) k); [..|done|done]; by injection Hs as <- <-.
    - exfalso. rewrite H1 in Hs. unfold at_top in Hs. rewrite H2 in Hs.
      destruct (tu_modes (ts_ui s)).
      + destruct (store_abort (w_store (ts_world s))) as [st sent]. injection Hs as _ <-. done.
      + injection Hs as _ <-. done.
  Qed.

  Lemma shows_run (tr2 : list (step o * list (act o))) : forall (s s1 : term o) (tr : list (step o * list (act o)))
      (sc : screen o),
    inv s tr -> term_run o s (map fst tr2) = Some (s1, tr2) ->
    Forall (fun e : step o * list (act o) => undisturbed o e.1 /\ drawn o e.2 = []) tr2 ->
    shows s sc -> shows s1 sc.
  Proof.
    induction tr2 as [|[a acts] tr2 IH]; intros s s1 tr sc Hi Hr Hf Hsh; cbn in Hr.
    - by injection Hr as <-.
    - destruct (term_step o s a) as [s'  acts'| | |] eqn:Es; [|done..].
      destruct (term_run o s' (map fst tr2)) as [[s'' tr']|] eqn:Er; [|done].
      injection Hr as -> -> ->. apply Forall_cons_1 in Hf as [[Hu Hd] Hf].
      pose proof (step_inv s tr a Hi) as Hi'. rewrite Es in Hi'.
      eapply IH; [exact Hi'|exact Er|exact Hf|]. exact (shows_step s s' tr a acts sc Hi Es Hu Hd Hsh).
  Qed.

  (** When the interface waits for a key, what is on the screen is what would be drawn. *)
  Lemma screen_is (l : list (step o)) (s : term o) (tr : list (step o * list (act o))) (sc : screen o) :
    reached o l s tr -> up_to_date o tr sc -> ts_at s = AtKey ->
    sc = draw o (ts_ui s) (ts_world s) (ts_error s).
  Proof.
    intros Hr (tr1 & a & acts & tr2 & -> & Hl & Hf) Hat.
    destruct Hr as (file & wr & c & Hr).
    destruct (run_split _ _ _ _ _ _ Hr) as (s0 & H1 & H2). cbn in H2.
    destruct (term_step o s0 a) as [s'  acts'| | |] eqn:Es; [|done..].
    destruct (term_run o s' (map fst tr2)) as [[s'' tr']|] eqn:Er; [|done].
    injection H2 as -> -> ->.
    assert (Hi : inv s0 tr1) by (eapply reached_inv; by eexists file, wr, c).
    destruct (draw_fresh _ _ _ _ _ _ Hi Es Hl) as (-> & Ha & Hred).
    pose proof (step_inv s0 tr1 a Hi) as Hi'. rewrite Es in Hi'.
    destruct (shows_run tr2 s' s _ (draw o (ts_ui s') (ts_world s') (ts_error s')) Hi' Er Hf) as [(E & _)|[E _]].
    - left. by rewrite Ha.
    - done.
    - by rewrite E in Hat.
  Qed.

  (** ** Writing *)

  Lemma changes_settled (s : term o) (d : o_doc o) (p : problem) :
    changes_nothing_now o (w_config (ts_world s)) d p = true <-> settled o s d p.
  Proof.
    unfold changes_nothing_now, settled. rewrite existsb_exists. split.
    - intros (e & Hin & [Hr H]%andb_true_iff). destruct (o_apply o e None d) as [d'|] eqn:E; [|done].
      apply bool_decide_eq_true in H. exists e, d'. split_and!; [by apply elem_of_list_In| | |done|done].
      + by intros api ->.
      + by intros pkg ->.
    - intros (e & d' & Hin & H1 & H2 & Ha & Hp). exists e. split; [by apply elem_of_list_In|].
      rewrite Ha, andb_true_iff, bool_decide_eq_true. split; [|done].
      destruct e; try done; [by edestruct H1|by edestruct H2].
  Qed.

  Lemma key_step (s s' : term o) (k : key) (acts : list (act o)) :
    ts_at s = AtKey -> ts_error s = false -> term_step o s (TGo (PollKey k)) = Stepped s' acts ->
    exists u w, (handle_key o (ts_ui s) (ts_world s) k = Handled u w acts /\
                 s' = with_ui o s u w AtTop true false (ts_events s)) \/
                (handle_key o (ts_ui s) (ts_world s) k = Failed u w acts /\
                 s' = with_ui o s u w AtTop true true (ts_events s)).
  Proof.
    intros Ha He. cbn [term_step]. rewrite Ha. unfold at_key. rewrite He.
    destruct (handle_key o (ts_ui s) (ts_world s) k) as [u w ac|u w ac| |]; [..|done|done];
      intros [= <- <-]; eauto.
  Qed.

  Lemma error_key (s s' : term o) (k : key) (acts : list (act o)) :
    ts_at s = AtKey -> ts_error s = true -> term_step o s (TGo (PollKey k)) = Stepped s' acts ->
    ts_ui s' = ts_ui s /\ written o acts = [] /\ w_file (ts_world s') = w_file (ts_world s) /\
    resolved o acts = [] /\ open_problems o s' = open_problems o s /\ ts_error s' = false.
  Proof.
    intros Ha He. cbn [term_step]. rewrite Ha. unfold at_key. rewrite He.
    destruct (is_char ["q"%char] k); [|by intros [= <- <-]].
    destruct (store_abort (w_store (ts_world s))) as [st sent] eqn:E. intros [= <- <-].
    unfold store_abort in E. injection E as <- <-. done.
  Qed.
End proofs.
