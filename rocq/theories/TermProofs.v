From Verif Require Import Base BaseFacts ApiMapModel ConfigModel ProblemModel StoreModel StoreSpec StoreProofs
  TomlModel EditorModel UiProofs TermModel TermSpec.

Section proofs.
  Context (o : outside).

  (** ** Runs *)

  Lemma run_app (l1 : list (step o)) : forall (l2 : list (step o)) (s : term o),
    term_run o s (l1 ++ l2) =
    match term_run o s l1 with
    | Some (s1, tr1) =>
        match term_run o s1 l2 with
        | Some (s2, tr2) => Some (s2, tr1 ++ tr2)
        | None => None
        end
    | None => None
    end.
  Proof.
    induction l1 as [|a l1 IH]; intros l2 s; cbn [term_run app].
    - by destruct (term_run o s l2) as [[s2 tr2]|].
    - destruct (term_step o s a) as [s1 acts| | |]; [|done..]. rewrite IH.
      destruct (term_run o s1 l1) as [[s2 tr2]|]; [|done].
      by destruct (term_run o s2 l2) as [[s3 tr3]|].
  Qed.

  Lemma run_steps (l : list (step o)) : forall (s s' : term o) (tr : list (step o * list (act o))),
    term_run o s l = Some (s', tr) -> map fst tr = l.
  Proof.
    induction l as [|a l IH]; intros s s' tr; cbn [term_run].
    - by intros [= <- <-].
    - destruct (term_step o s a) as [s1 acts| | |]; [|done..].
      destruct (term_run o s1 l) as [[s2 tr2]|] eqn:E; [|done]. intros [= <- <-]. cbn.
      by rewrite (IH _ _ _ E).
  Qed.

  (** A run split where its trace is split. *)
  Lemma run_split (l : list (step o)) (s s' : term o) (tr1 tr2 : list (step o * list (act o))) :
    term_run o s l = Some (s', tr1 ++ tr2) ->
    exists s1, term_run o s (map fst tr1) = Some (s1, tr1) /\ term_run o s1 (map fst tr2) = Some (s', tr2).
  Proof.
    intros H. pose proof (run_steps _ _ _ _ H) as Hl. rewrite map_app in Hl. subst l.
    rewrite run_app in H.
    destruct (term_run o s (map fst tr1)) as [[s1 tr1']|] eqn:E1; [|done].
    destruct (term_run o s1 (map fst tr2)) as [[s2 tr2']|] eqn:E2; [|done].
    injection H as -> H.
    pose proof (run_steps _ _ _ _ E1) as L1. pose proof (f_equal length L1) as L.
    rewrite !map_length in L. apply app_inj_1 in H as [-> ->]; [|done]. eauto.
  Qed.

  Lemma run_one (s s' : term o) (a : step o) (acts : list (act o)) :
    term_run o s [a] = Some (s', [(a, acts)]) <-> term_step o s a = Stepped s' acts.
  Proof.
    cbn. destruct (term_step o s a) as [s1 acts1| | |]; [|done..].
    split; [by intros [= -> ->]|by intros [= -> ->]].
  Qed.

  Lemma reached_snoc (l : list (step o)) (s s' : term o) (tr : list (step o * list (act o))) (a : step o)
      (acts : list (act o)) :
    reached o l s tr -> term_step o s a = Stepped s' acts -> reached o (l ++ [a]) s' (tr ++ [(a, acts)]).
  Proof.
    intros (f & w & c & H) Hs. exists f, w, c. rewrite run_app, H.
    by rewrite (proj2 (run_one _ _ _ _) Hs).
  Qed.

  Lemma reached_app (l l' : list (step o)) (s s' : term o) (tr tr' : list (step o * list (act o))) :
    reached o l s tr -> term_run o s l' = Some (s', tr') -> reached o (l ++ l') s' (tr ++ tr').
  Proof.
    intros (f & w & c & H) Hs. exists f, w, c. by rewrite run_app, H, Hs.
  Qed.

  Lemma reached_ind (P : list (step o) -> term o -> list (step o * list (act o)) -> Prop) :
    (forall file writable c, P [] (term_init o file writable c) []) ->
    (forall l s tr a s' acts, reached o l s tr -> P l s tr -> term_step o s a = Stepped s' acts ->
       P (l ++ [a]) s' (tr ++ [(a, acts)])) ->
    forall l s tr, reached o l s tr -> P l s tr.
  Proof.
    intros H0 HS l. induction l as [|a l IH] using rev_ind; intros s tr (f & w & c & H).
    - injection H as <- <-. apply H0.
    - rewrite run_app in H. destruct (term_run o _ l) as [[s1 tr1]|] eqn:E; [|done].
      cbn [term_run] in H. destruct (term_step o s1 a) as [s2 acts| | |] eqn:Es; [|done..].
      injection H as <- <-. eapply HS; [|apply IH|exact Es]; by exists f, w, c.
  Qed.

  Lemma acts_of_app (a b : list (step o * list (act o))) : acts_of o (a ++ b) = acts_of o a ++ acts_of o b.
  Proof. unfold acts_of. by rewrite map_app, concat_app. Qed.
  Lemma acts_of_one (a : step o) (acts : list (act o)) : acts_of o [(a, acts)] = acts.
  Proof. unfold acts_of. cbn. apply app_nil_r. Qed.
  Lemma stored_app (a b : list (act o)) : stored o (a ++ b) = stored o a ++ stored o b.
  Proof. apply omap_app. Qed.
  Lemma written_app (a b : list (act o)) : written o (a ++ b) = written o a ++ written o b.
  Proof. apply omap_app. Qed.
  Lemma drawn_app (a b : list (act o)) : drawn o (a ++ b) = drawn o a ++ drawn o b.
  Proof. apply omap_app. Qed.
  Lemma elem_written (t : o_text o) (acts : list (act o)) : t ∈ written o acts <-> Wrote t ∈ acts.
  Proof.
    unfold written. rewrite elem_of_list_omap. split.
    - intros (a & Ha & E). destruct a; try done. by injection E as ->.
    - intros H. by exists (Wrote t).
  Qed.

  (** ** The modes *)

  (** The list of problems is at the bottom. *)
  Definition good_modes (m : list mode) : Prop := m = [] \/ last m = Some SelectProblem.

  Lemma good_push (m : mode) (ms : list mode) : ms <> [] -> good_modes ms -> good_modes (m :: ms).
  Proof. intros H [->|H']; [done|]. right. by destruct ms. Qed.
  Lemma good_pop (m : mode) (ms : list mode) : good_modes (m :: ms) -> good_modes ms.
  Proof. intros [H|H]; [done|]. destruct ms; [by left|by right]. Qed.

  Lemma back_good (ms : list mode) :
    ms <> [] -> good_modes ms -> exists ms', back_to_problems ms = Some ms' /\ ms' <> [] /\ good_modes ms'.
  Proof.
    intros Hne [->|H]; [done|]. induction ms as [|m ms IH]; [done|].
    destruct ms as [|m' ms].
    - injection H as ->. exists [SelectProblem]. split; [done|]. split; [done|by right].
    - destruct (decide (m = SelectProblem)) as [->|Hm].
      + exists (SelectProblem :: m' :: ms). split; [done|]. split; [done|by right].
      + assert (back_to_problems (m :: m' :: ms) = back_to_problems (m' :: ms)) as -> by by destruct m.
        by apply IH.
  Qed.

  (** What most keys do at most: something on the screen. *)
  Definition harmless (u : tui) (w : world o) (r : handled o) (len : option nat) (k : key) : Prop :=
    match r with
    | Handled u' w' acts | Failed u' w' acts =>
        w' = w /\ acts = [] /\ tu_accept u' = tu_accept u /\ good_modes (tu_modes u')
    | Crash => is_arrow k = true /\ len = Some 0
    | Hang => False
    end.

  Lemma common_harmless (u : tui) (w : world o) (k : key) (len : option nat) :
    tu_modes u <> [] -> good_modes (tu_modes u) -> harmless u w (common_key o u w k) len k.
  Proof.
    intros Hne Hg. unfold common_key.
    destruct (is_char ["p"%char] k); [done|].
    destruct (is_char ["h"%char; "?"%char] k).
    { destruct (tu_modes u) as [|m ms] eqn:E; [done|].
      destruct m; cbn; rewrite E; (split_and!; [done..|]); first [by apply good_push|by apply (good_pop Help)]. }
    destruct (bool_decide (k = KEsc)); [|done].
    destruct (Nat.leb 2 (length (tu_modes u))); [|done].
    cbn. split_and!; [done..|]. destruct (tu_modes u) as [|m ms]; [done|]. by apply (good_pop m).
  Qed.

  Lemma arrow_harmless (u : tui) (w : world o) (k : key) (n len : nat) (set : nat -> tui) (len' : option nat) :
    (forall n', tu_accept (set n') = tu_accept u /\ tu_modes (set n') = tu_modes u) ->
    good_modes (tu_modes u) -> is_arrow k = true -> len' = Some len ->
    harmless u w (arrow o w k n len set) len' k.
  Proof.
    intros Hset Hg Hk ->. unfold arrow, update_counter. destruct len as [|len]; [done|].
    match goal with |- harmless _ _ (Handled (set ?x) _ _) _ _ => destruct (Hset x) as [H1 H2] end.
    unfold harmless. by rewrite H1, H2.
  Qed.

  Lemma details_harmless (u : tui) (w : world o) (k : key) (len : option nat) :
    tu_modes u <> [] -> good_modes (tu_modes u) -> harmless u w (details_key o u w) len k.
  Proof.
    intros Hne Hg. unfold details_key. destruct (shown_usages o u w); [done|].
    unfold enter_usage_mode. destruct (back_good _ Hne Hg) as (ms & -> & Hne' & Hg'). cbn.
    split_and!; [done..|]. by apply good_push.
  Qed.

  (** The list that the arrow keys move in, for the interface itself. *)
  Definition list_at (u : tui) (w : world o) : option nat :=
    match head (tu_modes u) with
    | Some SelectProblem => Some (length (store_open (w_store w)))
    | Some SelectEdit => Some (length (edits o u w))
    | Some SelectUsage => Some (length (shown_usages o u w))
    | Some (Backtrace f) => Some (length f)
    | _ => None
    end.

  Definition confirm_key (k : key) : bool :=
    is_char [" "%char; "f"%char] k || bool_decide (k = KEnter).

  Lemma confirm_key_spec (k : key) : confirm_key k = true <-> confirms k.
  Proof.
    unfold confirm_key, confirms. rewrite orb_true_iff, bool_decide_eq_true.
    destruct k as [| | | |c|]; cbn; try (split; [intros [?|?]; by auto|intros [?|[?|?]]; by auto]).
    rewrite bool_decide_eq_true, !elem_of_cons, elem_of_nil. split.
    - intros [[->|[->|[]]]|H]; auto.
    - intros [H|[[= ->]|[= ->]]]; auto.
  Qed.

  (** The state after a fix was applied (problems_ui.rs:254-258). *)
  Definition after_apply (r : handled o) : handled o :=
    match r with
    | Handled u' w' acts =>
        let u' := set_comment u' None (tu_previous u') in
        let u' := if Nat.leb (store_len (w_store w')) (tu_problem u') then set_problem u' 0 else u' in
        Handled (pop u') w' acts
    | r => r
    end.

  Lemma handle_key_cases (u : tui) (w : world o) (k : key) :
    good_modes (tu_modes u) ->
    (head (tu_modes u) = Some SelectEdit /\ confirm_key k = true /\
       handle_key o u w k = after_apply (apply_selected o u w)) \/
    (head (tu_modes u) = Some PromptAutoAccept /\ k = KEnter /\
       handle_key o u w k = match accept_all_single_edits o (set_accept u) w with
                            | Handled u' w' acts => Handled (pop u') w' acts
                            | r => r
                            end) \/
    harmless u w (handle_key o u w k) (list_at u w) k.
  Proof.
    intros Hg. unfold list_at. destruct (tu_modes u) as [|m ms] eqn:E.
    { right. right. unfold handle_key. rewrite E. cbn. by rewrite E; auto. }
    assert (Hne : tu_modes u <> []) by by rewrite E.
    rewrite <- E in Hg.
    destruct (is_char ["q"%char] k) eqn:Eq.
    { right. right. unfold handle_key. rewrite E. destruct m as [| | |i|f| | | |]; rewrite ?Eq;
        try (cbn; split_and!; [done..|by left]).
      unfold in_comment_mode. destruct k as [| | | |c|]; try done. rewrite !bool_decide_eq_false_2 by done. cbn. rewrite E.
      split_and!; [done..|]. rewrite E in Hg. apply good_pop in Hg as Hg'. destruct ms as [|m' ms].
      - by destruct Hg as [?|[= ?]].
      - by apply good_push. }
    destruct m as [| | |i|f| | | |]; unfold handle_key; rewrite E; rewrite ?Eq; cbn [head hd_error].
    - right. right. unfold in_problem_mode. destruct (is_arrow k) eqn:Ea.
      { rewrite store_len_spec. apply arrow_harmless; done. }
      destruct (is_char ["f"%char] k).
      { destruct (edits o u w); [done|]. cbn. split_and!; [done..|]. by apply good_push. }
      destruct (is_char ["d"%char] k); [by apply details_harmless|].
      destruct (is_char ["t"%char] k). { cbn. split_and!; [done..|]. by apply good_push. }
      destruct (is_char ["a"%char] k && negb (tu_accept u)).
      { cbn. split_and!; [done..|]. by apply good_push. }
      by apply common_harmless.
    - unfold in_edit_mode. destruct (is_arrow k) eqn:Ea.
      { right. right. apply arrow_harmless; done. }
      destruct (is_char ["d"%char] k) eqn:Ed. { right. right. by apply details_harmless. }
      fold (confirm_key k). destruct (confirm_key k) eqn:Ec. { left. split_and!; [done..|]. by destruct (apply_selected o u w). }
      right. right. destruct (is_char ["c"%char] k).
      { destruct (supports_comments o u w); [|done]. cbn. split_and!; [done..|]. by apply good_push. }
      by apply common_harmless.
    - right. right. unfold in_usage_mode. destruct (is_arrow k) eqn:Ea; [by apply arrow_harmless|].
      assert (Hpop : good_modes ms /\ ms <> []).
      { rewrite E in Hg. split; [by apply good_pop in Hg|]. intros ->. by destruct Hg as [?|[= ?]]. }
      destruct (is_char ["d"%char] k). { cbn. rewrite E. cbn. tauto. }
      destruct (is_char ["i"%char] k). { cbn. split_and!; [done..|]. by apply good_push. }
      destruct (is_char ["f"%char] k). { cbn. rewrite E. split_and!; [done..|]. cbn. destruct Hpop. by apply good_push. }
      destruct (is_char ["b"%char] k).
      { cbn [set_frame tu_usage]. destruct (shown_usages o (set_frame u 0) w !! tu_usage u); [|done].
        destruct (o_backtrace o n); [|done]. cbn. split_and!; [done..|]. by apply good_push. }
      by apply common_harmless.
    - right. right. unfold in_comment_mode.
      assert (Hpop : good_modes ms /\ ms <> []).
      { rewrite E in Hg. split; [by apply good_pop in Hg|]. intros ->. by destruct Hg as [?|[= ?]]. }
      destruct (bool_decide (k = KEsc)). { cbn. rewrite E. cbn. tauto. }
      destruct Hpop as [Hp1 Hp2].
      destruct (is_arrow k). { cbn. rewrite E. cbn. split_and!; [done..|]. by apply good_push. }
      destruct (bool_decide (k = KEnter)).
      { unfold confirm_comment. destruct (in_value i); cbn; rewrite E; cbn; tauto. }
      cbn. rewrite E. cbn. split_and!; [done..|]. by apply good_push.
    - right. right. unfold in_backtrace_mode. destruct (is_arrow k) eqn:Ea; [by apply arrow_harmless|].
      destruct (is_char ["b"%char; "d"%char] k).
      { cbn. rewrite E. rewrite E in Hg. apply good_pop in Hg. done. }
      by apply common_harmless.
    - unfold in_prompt_mode. case_bool_decide as Ek; [by right; left|]. right. right. by apply common_harmless.
    - right. right. cbn. rewrite E. rewrite E in Hg. apply good_pop in Hg. done.
    - right. right. destruct (is_char ["i"%char] k); [|by apply common_harmless].
      cbn. rewrite E. rewrite E in Hg. apply good_pop in Hg. done.
    - right. right. by apply common_harmless.
  Qed.

  (** ** What happens to the problems *)

  Lemma stored_written (acts : list (act o)) :
    Forall (fun a => exists e, a = Stored e) acts -> written o acts = [] /\ drawn o acts = [].
  Proof.
    induction 1 as [|a acts [e ->] _ [IH1 IH2]]; [done|]. cbn. done.
  Qed.

  Lemma missing_only (p : problem) (c : config) (e : edit) :
    e ∈ fixes o p c -> e = CreateCustomConfig \/ e = CreateRecommendedConfig ->
    exists path, p = PMissingConfiguration path.
  Proof.
    unfold fixes. intros Hin He.
    assert (Hn : forall (A : Type) (f : A -> edit) (l : list A),
      (forall x, f x <> CreateCustomConfig /\ f x <> CreateRecommendedConfig) -> e ∉ map f l).
    { intros A f l Hf (x & -> & _)%elem_of_list_fmap. destruct (Hf x) as [H1 H2]. by destruct He. }
    assert (Hi : forall api l, e ∉ include_fixes c api l).
    { intros api l. unfold include_fixes. destruct (rc_apis (cf_raw c) !! api); [|by intros ?%elem_of_nil].
      intros (x & _ & H)%elem_of_list_omap. destruct (mem_str x _); [done|].
      destruct (existsb _ _); [done|]. injection H as <-. by destruct He. }
    assert (Hx : forall api l, e ∉ exclude_fixes c api l).
    { intros api l. unfold exclude_fixes. destruct (rc_apis (cf_raw c) !! api); [|by intros ?%elem_of_nil].
      intros (x & _ & H)%elem_of_list_omap. destruct (mem_str x _); [done|].
      destruct (existsb _ _); [|done]. injection H as <-. by destruct He. }
    destruct p as [t|path|p|cs n|cs n|p|u|u r|cs n|p i|sel|sel apis| |api|p api n|p api sym|sel|v];
      cbn [fixes_for_problem] in Hin; try (by apply elem_of_nil in Hin); try (by exists path);
      try (repeat (apply elem_of_cons in Hin as [->|Hin]; [by destruct He|]); by apply elem_of_nil in Hin).
    - apply elem_of_app in Hin as [Hin|Hin]; [|by apply Hx in Hin].
      exfalso. revert Hin. apply Hn. done.
    - apply elem_of_app in Hin as [Hin|Hin]; [by apply Hi in Hin|].
      apply elem_of_app in Hin as [Hin|Hin]; [by apply Hx in Hin|].
      exfalso. revert Hin. apply Hn. done.
    - destruct (bool_decide (sb_kind _ = _)); [by apply elem_of_nil in Hin|].
      apply elem_of_app in Hin as [Hin|Hin].
      + destruct (default false _); [by apply elem_of_nil in Hin|].
        apply elem_of_list_singleton in Hin as ->. by destruct He.
      + apply elem_of_list_singleton in Hin as ->. by destruct He.
    - exfalso. revert Hin. apply Hn. done.
    - destruct (_ && _); [|by apply elem_of_nil in Hin].
      repeat (apply elem_of_cons in Hin as [->|Hin]; [by destruct He|]). by apply elem_of_nil in Hin.
  Qed.

  Lemma replacement_keys (p q : problem) (c : config) (e : edit) :
    e ∈ fixes o p c -> q ∈ replacement_problems o e -> dedup_key q <> dedup_key p.
  Proof.
    intros He Hq.
    assert (e = CreateCustomConfig \/ e = CreateRecommendedConfig) as Hc.
    { destruct e; cbn in Hq; try (by apply elem_of_nil in Hq); auto. }
    destruct (missing_only _ _ _ He Hc) as [path ->].
    destruct Hc as [-> | ->]; cbn in Hq.
    - apply elem_of_cons in Hq as [->|Hq]; [done|]. by apply elem_of_list_fmap in Hq as (api & -> & _).
    - by apply elem_of_list_singleton in Hq as ->.
  Qed.

  Lemma act_resolve_spec (s : store) (es : list store_event) (id : nat) (p : problem) (ps : list problem) :
    history s es -> is_open s id p -> (forall q, q ∈ ps -> dedup_key q <> dedup_key p) ->
    exists s' e, act_resolve o s id ps = Some (s', Stored e) /\ store_step s (SReplace id ps) = Some (s', e) /\
      history s' (es ++ [e]) /\ se_op e = SReplace id ps.
  Proof.
    intros Hh Ho Hk. unfold act_resolve.
    destruct (store_step s (SReplace id ps)) as [[s' e]|] eqn:E.
    - exists s', e. split_and!; [done|done|by eapply history_step|by eapply step_op].
    - exfalso. apply (panics_iff _ _ _ Hh) in E as [[c E]|(j & ps' & E & H)]; [done|].
      injection E as <- <-. destruct H as [H|(q & p' & Hq & Hp & Hd)]; [by destruct (H p)|].
      apply is_open_iff in Ho, Hq. rewrite Ho in Hq. injection Hq as <-. by apply (Hk p').
  Qed.

  Lemma open_nodup (s : store) : NoDup (store_open s).*1.
  Proof.
    unfold store_open. pose proof (open_from_sorted 0 (st_problems s)) as H.
    induction H as [|x l Hl IH Hx]; constructor; [|done].
    intros Hin. rewrite Forall_forall in Hx. apply Hx in Hin. lia.
  Qed.

  Lemma resolve_ids_spec (ids : list nat) : forall (s : store) (es : list store_event),
    history s es -> NoDup ids -> (forall id, id ∈ ids -> exists p, is_open s id p) ->
    exists s' acts, resolve_ids o s ids = Some (s', acts) /\ history s' (es ++ stored o acts) /\
      resolved o acts = ids /\ Forall (fun a => exists e, a = Stored e) acts /\
      Forall (fun e => exists id, se_op e = SReplace id []) (stored o acts) /\
      st_problems s' = foldl (fun l id => <[id := None]> l) (st_problems s) ids.
  Proof.
    induction ids as [|id ids IH]; intros s es Hh Hnd Ho; cbn [resolve_ids].
    - exists s, []. split_and!; try done; [by rewrite app_nil_r|constructor..].
    - apply NoDup_cons in Hnd as [Hni Hnd]. destruct (Ho id) as [p Hp]; [by left|].
      destruct (act_resolve_spec s es id p [] Hh Hp) as (s1 & e & -> & Hstep & Hh1 & Hop);
        [by intros q ?%elem_of_nil|].
      destruct (IH s1 (es ++ [e]) Hh1 Hnd) as (s2 & acts & -> & Hh2 & Hr & Hs & Ho2 & Hps).
      { intros j Hj. destruct (Ho j) as [q Hq]; [by right|]. exists q. apply is_open_iff.
        apply is_open_iff in Hq. rewrite (resolve_problems _ _ _ _ Hstep).
        rewrite list_lookup_insert_ne; [done|]. by intros ->. }
      exists s2, (Stored e :: acts). split_and!; [done|..].
      + cbn. by rewrite <- app_assoc in Hh2.
      + unfold resolved. cbn. rewrite Hop. f_equal. exact Hr.
      + constructor; eauto.
      + cbn. constructor; eauto.
      + cbn [foldl]. by rewrite <- (resolve_problems _ _ _ _ Hstep).
  Qed.

  Lemma none_lookup (ids : list nat) : forall (l : list (option problem)) (j : nat),
    foldl (fun l id => <[id := None]> l) l ids !! j =
    if bool_decide (j ∈ ids) then (fun _ => None) <$> l !! j else l !! j.
  Proof.
    induction ids as [|id ids IH]; intros l j; cbn [foldl]; [done|]. rewrite IH.
    destruct (decide (j = id)) as [->|Hj].
    - rewrite (bool_decide_eq_true_2 (id ∈ id :: ids)) by by left.
      destruct (l !! id) as [x|] eqn:E.
      + rewrite list_lookup_insert by (by eapply lookup_lt_Some). by case_bool_decide.
      + rewrite list_insert_ge by (by apply lookup_ge_None). rewrite E. by case_bool_decide.
    - rewrite list_lookup_insert_ne by done.
      destruct (decide (j ∈ ids)) as [H|H].
      + rewrite !bool_decide_eq_true_2; [done|by right|done].
      + rewrite !bool_decide_eq_false_2; [done|by intros [?|?]%elem_of_cons|done].
  Qed.

  Lemma empty_ids_elem (c : config) (d : o_doc o) (l : list (nat * problem)) (id : nat) :
    id ∈ empty_ids o c d l <-> exists p, (id, p) ∈ l /\ changes_nothing_now o c d p = true.
  Proof.
    unfold empty_ids. rewrite elem_of_list_fmap. split.
    - intros ([j p] & -> & H). apply elem_of_list_In, filter_In in H as [H1 H2].
      apply elem_of_list_In in H1. eauto.
    - intros (p & H1 & H2). exists (id, p). split; [done|]. apply elem_of_list_In, filter_In.
      split; [by apply elem_of_list_In|done].
  Qed.

  Lemma empty_ids_nodup (c : config) (d : o_doc o) (l : list (nat * problem)) :
    NoDup l.*1 -> NoDup (empty_ids o c d l).
  Proof.
    unfold empty_ids. induction l as [|[id p] l IH]; [constructor|]. cbn [fmap list_fmap List.filter].
    intros [H1 H2]%NoDup_cons. destruct (changes_nothing_now o c d _); [|by apply IH].
    cbn. apply NoDup_cons. split; [|by apply IH]. intros H. apply H1. cbn.
    apply elem_of_list_fmap in H as (x & -> & Hx). apply elem_of_list_In, filter_In in Hx as [Hx _].
    apply elem_of_list_fmap. exists x. split; [done|]. by apply elem_of_list_In.
  Qed.

  Lemma resolve_empty_spec (c : config) (d : o_doc o) (s : store) (es : list store_event) :
    history s es ->
    exists s' acts, resolve_empty o c d s = Some (s', acts) /\ history s' (es ++ stored o acts) /\
      Forall (fun a => exists e, a = Stored e) acts /\
      Forall (fun e => exists id, se_op e = SReplace id []) (stored o acts) /\
      (forall id, id ∈ resolved o acts <-> exists p, is_open s id p /\ changes_nothing_now o c d p = true) /\
      (forall id p, is_open s' id p <-> is_open s id p /\ changes_nothing_now o c d p = false).
  Proof.
    intros Hh. unfold resolve_empty.
    set (ids := rev (empty_ids o c d (store_open s))).
    assert (Hids : forall id, id ∈ ids <-> exists p, is_open s id p /\ changes_nothing_now o c d p = true).
    { intros id. unfold ids. rewrite elem_of_list_In, <- in_rev, <- elem_of_list_In. apply empty_ids_elem. }
    destruct (resolve_ids_spec ids s es Hh) as (s' & acts & -> & Hh' & Hr & Hs & Ho & Hps).
    { unfold ids. apply NoDup_ListNoDup, NoDup_rev, NoDup_ListNoDup. apply empty_ids_nodup, open_nodup. }
    { intros id Hin. apply Hids in Hin as (p & Hp & _). eauto. }
    exists s', acts. split_and!; try done.
    - by rewrite Hr.
    - intros id p. rewrite !is_open_iff, Hps, none_lookup. case_bool_decide as Hi.
      + split.
        * destruct (st_problems s !! id); done.
        * intros [H1 H2]. apply Hids in Hi as (p' & Hp' & Ht). apply is_open_iff in Hp'.
          rewrite H1 in Hp'. injection Hp' as <-. by rewrite Ht in H2.
      + split; [|by intros [? _]]. intros H1. split; [done|].
        destruct (changes_nothing_now o c d p) eqn:E; [|done]. destruct Hi. apply Hids.
        exists p. split; [by apply is_open_iff|done].
  Qed.

  (** ** Applying the selected fix *)

  Lemma edits_selected (u : tui) (w : world o) (e : edit) :
    edits o u w !! tu_edit u = Some e ->
    exists id p, selected o u w = Some (id, p) /\ is_open (w_store w) id p /\
      fixes o p (w_config w) !! tu_edit u = Some e.
  Proof.
    unfold edits. destruct (selected o u w) as [[id p]|] eqn:E; [|done]. intros H.
    exists id, p. split_and!; [done| |done]. unfold is_open. by eapply elem_of_list_lookup_2.
  Qed.

  (** What becomes of a request to apply a fix. *)
  Lemma apply_selected_spec (u : tui) (w : world o) (es : list store_event) :
    history (w_store w) es ->
    (edits o u w !! tu_edit u = None /\ apply_selected o u w = Handled u w []) \/
    (apply_selected o u w = Failed u w [] /\ exists e, edits o u w !! tu_edit u = Some e /\
       (o_parse o (w_file w) = None \/
        (exists d, o_parse o (w_file w) = Some d /\ o_apply o e (tu_comment u) d = None) \/
        w_writable w = false)) \/
    (exists e id p d d' s' ev acts,
       edits o u w !! tu_edit u = Some e /\ selected o u w = Some (id, p) /\
       fixes o p (w_config w) !! tu_edit u = Some e /\
       o_parse o (w_file w) = Some d /\ o_apply o e (tu_comment u) d = Some d' /\ w_writable w = true /\
       apply_selected o u w =
         Handled u (set_store o (set_file o w (o_print o d')) s')
           (Wrote (o_print o d') :: Stored ev :: acts) /\
       se_op ev = SReplace id (replacement_problems o e) /\
       Forall (fun a => exists e, a = Stored e) acts /\
       history s' (es ++ ev :: stored o acts) /\
       exists s1, store_step (w_store w) (SReplace id (replacement_problems o e)) = Some (s1, ev) /\
         (forall j, j ∈ resolved o acts <->
            exists q, is_open s1 j q /\ changes_nothing_now o (w_config w) d' q = true) /\
         (forall j q, is_open s' j q <-> is_open s1 j q /\ changes_nothing_now o (w_config w) d' q = false)).
  Proof.
    intros Hh. unfold apply_selected.
    destruct (edits o u w !! tu_edit u) as [e|] eqn:Ee; [|by left]. right.
    destruct (edits_selected _ _ _ Ee) as (id & p & Hsel & Hopen & Hfix).
    destruct (o_parse o (w_file w)) as [d|] eqn:Ep; [|left; split; [done|]; eauto].
    destruct (o_apply o e (tu_comment u) d) as [d'|] eqn:Ea; [|left; split; [done|]; eauto 10].
    destruct (w_writable w) eqn:Ew; cbn [negb]; [|left; split; [done|]; eauto].
    right. rewrite Hsel.
    destruct (act_resolve_spec (w_store w) es id p (replacement_problems o e) Hh Hopen)
      as (s1 & ev & -> & Hstep & Hh1 & Hop).
    { intros q Hq. eapply replacement_keys; [|exact Hq]. by eapply elem_of_list_lookup_2. }
    destruct (resolve_empty_spec (w_config w) d' s1 (es ++ [ev]) Hh1)
      as (s2 & acts & -> & Hh2 & Hs & _ & Hr & Ho).
    exists e, id, p, d, d', s2, ev, acts. split_and!; try done.
    - by rewrite <- app_assoc in Hh2.
    - exists s1. done.
  Qed.

  (** ** Accepting all single fixes *)

  Definition sole (c : config) (p : problem) : option edit :=
    match fixes o p c with [e] => Some e | _ => None end.
  Definition singles_of (c : config) (l : list (nat * problem)) : list (nat * edit) :=
    omap (fun e : nat * problem => (fun x => (e.1, x)) <$> sole c e.2) l.
  Definition others_of (c : config) (l : list (nat * problem)) : list (nat * problem) :=
    filter (fun e : nat * problem => sole c e.2 = None) l.

  Lemma first_single_spec (c : config) (l : list (nat * problem)) :
    match first_single_edit o c l with
    | None => singles_of c l = [] /\ others_of c l = l
    | Some (id, x) => exists before p rest, l = before ++ (id, p) :: rest /\ x ∈ fixes o p c /\
        singles_of c l = (id, x) :: singles_of c (before ++ rest) /\
        others_of c l = others_of c (before ++ rest)
    end.
  Proof.
    induction l as [|[id p] l IH]; cbn [first_single_edit]; [done|].
    destruct (sole c p) as [x|] eqn:E.
    - unfold sole in E. destruct (fixes o p c) as [|x' [|]] eqn:Ef; [done| |done]. injection E as <-.
      exists [], p, l. split_and!; [done|rewrite Ef; by left| |].
      + unfold singles_of. cbn. unfold sole. by rewrite Ef.
      + unfold others_of. rewrite filter_cons. cbn. unfold sole. rewrite Ef. by rewrite decide_False.
    - assert (Hs : forall l', singles_of c ((id, p) :: l') = singles_of c l').
      { intros l'. unfold singles_of. cbn. by rewrite E. }
      assert (Ho : forall l', others_of c ((id, p) :: l') = (id, p) :: others_of c l').
      { intros l'. unfold others_of. rewrite filter_cons. cbn. by rewrite decide_True by done. }
      assert (match fixes o p c with [e] => Some (id, e) | _ => first_single_edit o c l end
              = first_single_edit o c l) as ->.
      { unfold sole in E. by destruct (fixes o p c) as [|x' [|]]. }
      destruct (first_single_edit o c l) as [[id' x]|].
      + destruct IH as (b & q & r & -> & Hx & H1 & H2). exists ((id, p) :: b), q, r.
        cbn [app]. rewrite !Hs, !Ho, H1, H2. done.
      + rewrite Hs, Ho. destruct IH as [-> ->]. done.
  Qed.

  Lemma accept_singles_spec (fuel : nat) (c : config) : forall (s : store) (es : list store_event) (d : o_doc o),
    history s es -> length (store_open s) <= fuel ->
    exists s' acts r, accept_singles o fuel c s d = Some (s', acts, r) /\ history s' (es ++ stored o acts) /\
      Forall (fun a => exists e, a = Stored e) acts /\
      Forall (fun e => exists id, se_op e = SReplace id []) (stored o acts) /\
      applied o (map snd (singles_of c (store_open s))) d = r /\
      (resolved o acts) `prefix_of` (singles_of c (store_open s)).*1 /\
      (r <> None -> resolved o acts = (singles_of c (store_open s)).*1 /\
         store_open s' = others_of c (store_open s)).
  Proof.
    induction fuel as [|fuel IH]; intros s es d Hh Hlen; cbn [accept_singles];
      pose proof (first_single_spec c (store_open s)) as HF;
      destruct (first_single_edit o c (store_open s)) as [[id x]|].
    - destruct HF as (b & p & r & E & _). rewrite E, app_length in Hlen. cbn in Hlen. lia.
    - destruct HF as [-> ->]. exists s, [], (Some d). cbn. rewrite app_nil_r. split_and!; try done; apply Forall_nil_2.
    - destruct HF as (b & p & r & E & Hx & H1 & H2). rewrite H1, H2. cbn [map applied fmap list_fmap].
      destruct (o_apply o x None d) as [d'|] eqn:Ea; cbn [snd]; rewrite Ea.
      + assert (Hopen : is_open s id p). { unfold is_open. rewrite E. apply elem_of_app. right. left. }
        destruct (act_resolve_spec s es id p [] Hh Hopen) as (s1 & e & -> & Hstep & Hh1 & Hop);
          [by intros q ?%elem_of_nil|].
        pose proof (resolve_open_mid _ _ _ _ _ _ _ E Hstep) as Ho1.
        destruct (IH s1 (es ++ [e]) d' Hh1) as (s2 & acts & rr & -> & Hh2 & Hs & Hops & Hap & Hpre & Hok).
        { rewrite Ho1. rewrite E, app_length in Hlen. cbn in Hlen. rewrite app_length. lia. }
        rewrite Ho1 in *. exists s2, (Stored e :: acts), rr. split_and!; try done.
        * cbn. by rewrite <- app_assoc in Hh2.
        * constructor; eauto.
        * cbn. constructor; eauto.
        * unfold resolved. cbn. rewrite Hop. cbn. by apply prefix_cons.
        * intros Hr. destruct (Hok Hr) as [Hok1 Hok2].
          unfold resolved. cbn. rewrite Hop. split; [|done]. f_equal. exact Hok1.
      + exists s, [], None. cbn. rewrite app_nil_r. split_and!; [done|done|apply Forall_nil_2|apply Forall_nil_2|done|apply prefix_nil|done].
    - destruct HF as [-> ->]. exists s, [], (Some d). cbn. rewrite app_nil_r. split_and!; try done; apply Forall_nil_2.
  Qed.
End proofs.
