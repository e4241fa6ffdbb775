From Verif Require Import Base BaseFacts ApiMapModel ConfigModel ProblemModel StoreModel StoreSpec StoreProofs
  TomlModel EditorModel UiProofs TermModel TermSpec TermProofs TermRunProofs.

(** ** What can be on top of what *)

Inductive base : list mode -> Prop :=
| base_problem : base [SelectProblem]
| base_edit : base [SelectEdit; SelectProblem]
| base_usage : base [SelectUsage; SelectProblem]
| base_backtrace f : base [Backtrace f; SelectUsage; SelectProblem]
| base_comment i : base [SetComment i; SelectEdit; SelectProblem]
| base_prompt : base [PromptAutoAccept; SelectProblem]
| base_tree : base [ShowPackageTree; SelectProblem]
| base_diagnostics : base [ShowInternalDiagnostics; SelectUsage; SelectProblem].

Inductive shape : list mode -> Prop :=
| shape_nil : shape []
| shape_base m : base m -> shape m
| shape_help m : shape m -> m <> [] -> shape (Help :: m).

Lemma position_filter (P : str -> Prop) `{!forall x, Decision (P x)} (l : list str) : NoDup l -> NoDup (filter P l).
Proof. apply NoDup_filter. Qed.

Lemma remember_nodup (l : list str) (s : str) : NoDup l -> NoDup (remember_comment l s).
Proof.
  intros H. unfold remember_comment. case_bool_decide; [done|].
  apply NoDup_app. split_and!; [by apply NoDup_filter| |apply NoDup_singleton].
  intros x Hx%elem_of_list_filter ->%elem_of_list_singleton. tauto.
Qed.

Lemma remember_elem (l : list str) (s c : str) : c ∈ remember_comment l s <-> c = s \/ c ∈ l.
Proof.
  unfold remember_comment. case_bool_decide as E.
  - split; [by right|]. intros [->|H]; [|done]. rewrite last_lookup in E. by eapply elem_of_list_lookup_2.
  - rewrite elem_of_app, elem_of_list_filter, elem_of_list_singleton.
    destruct (decide (c = s)); tauto.
Qed.

Section proofs.
  Context (o : outside).

  Lemma apply_ui (u : tui) (w : world o) :
    match apply_selected o u w with
    | Handled u' _ _ => u' = u
    | Failed u' _ acts => u' = u /\ acts = []
    | _ => True
    end.
  Proof.
    unfold apply_selected. destruct (edits o u w !! tu_edit u) as [e|]; [|done].
    destruct (o_parse o (w_file w)) as [d|]; [|done].
    destruct (o_apply o e (tu_comment u) d) as [d'|]; [|done].
    destruct (w_writable w); [|done]. cbn. destruct (selected o u w) as [[id p]|]; [|done].
    destruct (act_resolve o (w_store w) id (replacement_problems o e)) as [[s a]|]; [|done].
    by destruct (resolve_empty o (w_config w) d' s) as [[s' acts]|].
  Qed.

  Lemma accept_ui (u : tui) (w : world o) :
    match accept_all_single_edits o u w with
    | Handled u' _ _ | Failed u' _ _ => u' = u
    | _ => True
    end.
  Proof.
    unfold accept_all_single_edits. destruct (o_parse o (w_file w)) as [d|]; [|done].
    destruct (accept_singles o _ _ _ d) as [[[s acts] [d'|]]|]; [|done..]. by destruct (w_writable w).
  Qed.

  (** What a key does to the interface itself. *)
  Definition tidy (u : tui) (k : key) (r : handled o) : Prop :=
    match r with
    | Handled u' _ acts | Failed u' _ acts =>
        shape (tu_modes u') /\ (tu_accept u = true -> tu_accept u' = true) /\
        (tu_accept u' = true -> tu_accept u = true \/ head (tu_modes u) = Some PromptAutoAccept /\ k = KEnter) /\
        ((tu_comment u' = tu_comment u /\ tu_previous u' = tu_previous u /\
          (written o acts = [] \/ tu_accept u' = true)) \/
         (tu_comment u' = None /\ tu_previous u' = tu_previous u) \/
         (exists i, head (tu_modes u) = Some (SetComment i) /\ k = KEnter /\ u' = confirm_comment u i))
    | Crash | Hang => True
    end.

  Lemma handled_tidy (u u' : tui) (k : key) (w : world o) :
    shape (tu_modes u') -> tu_accept u' = tu_accept u -> tu_comment u' = tu_comment u ->
    tu_previous u' = tu_previous u -> tidy u k (Handled u' w []).
  Proof.
    intros H1 H2 H3 H4. cbn. rewrite H2, H3, H4. split_and!; [done|by auto|by auto|by left; auto].
  Qed.
  Lemma failed_tidy (u u' : tui) (k : key) (w : world o) :
    shape (tu_modes u') -> tu_accept u' = tu_accept u -> tu_comment u' = tu_comment u ->
    tu_previous u' = tu_previous u -> tidy u k (Failed u' w []).
  Proof. exact (handled_tidy u u' k w). Qed.

  Ltac same_tidy := first [apply handled_tidy|apply failed_tidy].

  Lemma common_tidy (u : tui) (w : world o) (k : key) :
    shape (tu_modes u) -> tu_modes u <> [] -> tidy u k (common_key o u w k).
  Proof.
    intros Hs Hne. unfold common_key. destruct (is_char ["p"%char] k); [by same_tidy|].
    destruct (is_char ["h"%char; "?"%char] k).
    { destruct (tu_modes u) as [|m ms] eqn:E; [done|].
      assert (Hh : tidy u k (Handled (push u Help) w [])).
      { same_tidy; [|done..]. cbn. rewrite E. by apply shape_help. }
      destruct m; try done. same_tidy; [|done..]. cbn. rewrite E. cbn.
      inversion Hs as [|? Hb|]; subst; [inversion Hb|done]. }
    destruct (bool_decide (k = KEsc)); [|by same_tidy].
    destruct (Nat.leb 2 (length (tu_modes u))); [|by same_tidy].
    same_tidy; [|done..]. cbn.
    destruct (tu_modes u) as [|m ms]; [done|]. cbn. inversion Hs as [|? Hb|]; subst; [|done].
    inversion Hb; subst; repeat constructor.
  Qed.

  Lemma arrow_tidy (u : tui) (w : world o) (k : key) (n len : nat) (set : nat -> tui) :
    (forall n', shape (tu_modes (set n')) /\ tu_accept (set n') = tu_accept u /\
       tu_comment (set n') = tu_comment u /\ tu_previous (set n') = tu_previous u) ->
    tidy u k (arrow o w k n len set).
  Proof.
    intros Hset. unfold arrow. destruct (update_counter n (bool_decide (k = KUp)) len) as [n'|]; [|done].
    destruct (Hset n') as (H1 & H2 & H3 & H4). by same_tidy.
  Qed.

  Lemma details_tidy (u : tui) (w : world o) (k : key) :
    shape (tu_modes u) -> tidy u k (details_key o u w).
  Proof.
    intros Hs. unfold details_key, enter_usage_mode. destruct (shown_usages o u w); [by same_tidy|].
    destruct (back_to_problems (tu_modes u)) as [m|] eqn:E; [|done].
    same_tidy; [|done..]. cbn.
    assert (m = [SelectProblem]) as ->; [|repeat constructor].
    revert m E. induction Hs as [|ms Hb|ms Hs IH]; intros m; [done| |].
    - inversion Hb; subst; cbn; by intros [= <-].
    - intros Hb. by apply IH.
  Qed.

  Lemma key_tidy (u : tui) (w : world o) (k : key) : shape (tu_modes u) -> tidy u k (handle_key o u w k).
  Proof.
    intros Hs. destruct (tu_modes u) as [|m ms] eqn:E.
    { unfold handle_key. rewrite E. same_tidy; [|done..]. by rewrite E. }
    assert (Hne : tu_modes u <> []) by by rewrite E.
    assert (Hs' : shape (tu_modes u)) by by rewrite E.
    assert (Hq : shape (tu_modes (set_modes u []))) by constructor.
    inversion Hs as [|? Hb|? Hs2]; subst.
    2:{ unfold handle_key. rewrite E. destruct (is_char ["q"%char] k); [by same_tidy|].
        by apply common_tidy. }
    assert (Hpop : shape ms) by (inversion Hb; subst; repeat constructor).
    assert (Hpop' : shape (tu_modes (pop u))) by (cbn; by rewrite E).
    unfold handle_key. rewrite E. inversion Hb; subst;
      try (destruct (is_char ["q"%char] k); [by same_tidy|]).
    - unfold in_problem_mode. destruct (is_arrow k); [by apply arrow_tidy|].
      destruct (is_char ["f"%char] k).
      { destruct (edits o u w); [by same_tidy|]. same_tidy; [|done..]. cbn. rewrite E. repeat constructor. }
      destruct (is_char ["d"%char] k); [by apply details_tidy|].
      destruct (is_char ["t"%char] k). { same_tidy; [|done..]. cbn. rewrite E. repeat constructor. }
      destruct (is_char ["a"%char] k && negb (tu_accept u)).
      { same_tidy; [|done..]. cbn. rewrite E. repeat constructor. }
      by apply common_tidy.
    - unfold in_edit_mode. destruct (is_arrow k); [by apply arrow_tidy|].
      destruct (is_char ["d"%char] k); [by apply details_tidy|].
      destruct (is_char [" "%char; "f"%char] k || bool_decide (k = KEnter)).
      { pose proof (apply_ui u w) as Ha. destruct (apply_selected o u w) as [u' w' acts|u' w' acts| |]; [| |done..].
        - subst u'. cbn [tidy tu_modes set_comment pop set_modes set_problem].
          match goal with |- context [if ?b then _ else _] => destruct b end; cbn; rewrite E;
            (split_and!; [done|by auto|by auto|]); right; left; done.
        - destruct Ha as [-> ->]. by same_tidy. }
      destruct (is_char ["c"%char] k).
      { destruct (supports_comments o u w); [|by same_tidy].
        same_tidy; [|done..]. cbn. rewrite E. repeat constructor. }
      by apply common_tidy.
    - unfold in_usage_mode. destruct (is_arrow k); [by apply arrow_tidy|].
      destruct (is_char ["d"%char] k); [by same_tidy|].
      destruct (is_char ["i"%char] k). { same_tidy; [|done..]. cbn. rewrite E. repeat constructor. }
      destruct (is_char ["f"%char] k). { same_tidy; [|done..]. cbn. rewrite E. repeat constructor. }
      destruct (is_char ["b"%char] k).
      { cbn [set_frame tu_usage]. destruct (shown_usages o (set_frame u 0) w !! tu_usage u) as [n|]; [|by same_tidy].
        destruct (o_backtrace o n); [|by same_tidy].
        same_tidy; [|done..]. cbn. rewrite E. repeat constructor. }
      by apply common_tidy.
    - unfold in_backtrace_mode. destruct (is_arrow k); [by apply arrow_tidy|].
      destruct (is_char ["b"%char; "d"%char] k); [by same_tidy|]. by apply common_tidy.
    - unfold in_comment_mode. destruct (bool_decide (k = KEsc)); [by same_tidy|].
      destruct (is_arrow k). { same_tidy; [|done..]. cbn. rewrite E. repeat constructor. }
      case_bool_decide as Ek.
      { cbn [tidy]. split_and!.
        - unfold confirm_comment. destruct (in_value i); cbn; by rewrite E.
        - unfold confirm_comment. by destruct (in_value i).
        - unfold confirm_comment. left. by destruct (in_value i).
        - right. right. exists i. by rewrite E. }
      same_tidy; [|done..]. cbn. rewrite E. repeat constructor.
    - unfold in_prompt_mode. case_bool_decide as Ek; [|by apply common_tidy].
      pose proof (accept_ui (set_accept u) w) as Ha.
      destruct (accept_all_single_edits o (set_accept u) w) as [u' w' acts|u' w' acts| |]; [| |done..]; subst u';
        cbn; rewrite E; (split_and!; [done|by auto|by auto|by left; auto]).
    - by same_tidy.
    - destruct (is_char ["i"%char] k); [by same_tidy|by apply common_tidy].
  Qed.

  (** ** What is remembered of a run *)

  Lemma continues_snoc (s0 s s' : term o) (tr : list (step o * list (act o))) (a : step o) (acts : list (act o)) :
    continues o s0 tr s -> term_step o s a = Stepped s' acts -> continues o s0 (tr ++ [(a, acts)]) s'.
  Proof.
    intros [l H] Hs. exists (l ++ [a]). rewrite run_app, H. by rewrite (proj2 (run_one _ _ _ _ _) Hs).
  Qed.

  Lemma agreed_snoc (s s' : term o) (tr : list (step o * list (act o))) (a : step o) (acts : list (act o)) :
    agreed o tr s -> term_step o s a = Stepped s' acts -> agreed o (tr ++ [(a, acts)]) s'.
  Proof.
    intros (l0 & s0 & tr0 & s1 & ac & tr1 & H1 & H2 & H3 & H4 & H5 & ->) Hs.
    exists l0, s0, tr0, s1, ac, (tr1 ++ [(a, acts)]). split_and!; try done.
    - by eapply continues_snoc.
    - by rewrite <- app_assoc.
  Qed.

  Lemma entered_snoc (s s' : term o) (tr : list (step o * list (act o))) (a : step o) (acts : list (act o))
      (c : str) (P P' : list (step o * list (act o)) -> Prop) :
    (forall t, P t -> P' (t ++ [(a, acts)])) ->
    entered o tr s c P -> term_step o s a = Stepped s' acts -> entered o (tr ++ [(a, acts)]) s' c P'.
  Proof.
    intros HP (l0 & s0 & tr0 & i & s1 & ac & tr1 & H1 & H2 & H3 & H4 & H5 & H6 & H7 & -> & H8) Hs.
    exists l0, s0, tr0, i, s1, ac, (tr1 ++ [(a, acts)]). split_and!; try done; try apply H2.
    - by eapply continues_snoc.
    - by rewrite <- app_assoc.
    - by apply HP.
  Qed.

  (** Nothing was written since then, unless fixes are accepted automatically. *)
  Definition unwritten (s : term o) (tr : list (step o * list (act o))) : Prop :=
    tu_accept (ts_ui s) = true \/ written o (acts_of o tr) = [].

  Definition memory (s : term o) (tr : list (step o * list (act o))) : Prop :=
    shape (tu_modes (ts_ui s)) /\
    (tu_accept (ts_ui s) = true -> agreed o tr s) /\
    NoDup (tu_previous (ts_ui s)) /\
    (forall c, c ∈ tu_previous (ts_ui s) -> entered o tr s c (fun _ => True)) /\
    (forall c, tu_comment (ts_ui s) = Some c -> entered o tr s c (unwritten s)).

  (** What a step does to the interface itself. *)
  Lemma step_ui (s s' : term o) (a : step o) (acts : list (act o)) :
    term_step o s a = Stepped s' acts ->
    (ts_ui s' = ts_ui s /\ (written o acts = [] \/ tu_accept (ts_ui s) = true)) \/
    (exists k r, takes_key o s /\ a = TGo (PollKey k) /\ handle_key o (ts_ui s) (ts_world s) k = r /\
       (r = Handled (ts_ui s') (ts_world s') acts \/ r = Failed (ts_ui s') (ts_world s') acts)).
  Proof.
    intros Hs. destruct a as [c ps|c|t wr| |p]; cbn [term_step] in Hs.
    - destruct ps as [|p ps]; [done|].
      destruct (store_step (w_store (ts_world s)) (SAdd c (p :: ps))) as [[st e]|]; [|done].
      injection Hs as <- <-. left. cbn. auto.
    - injection Hs as <- <-. left. cbn. auto.
    - injection Hs as <- <-. left. cbn. auto.
    - injection Hs as <- <-. left. cbn. auto.
    - destruct (ts_at s) eqn:Eat; [| | | |done].
      + left. destruct (ts_events s); [destruct (ts_shutdown s); [|done]|]; injection Hs as <- <-; cbn; auto.
      + left. unfold at_top in Hs. destruct (tu_modes (ts_ui s)) eqn:Em.
        * destruct (store_abort (w_store (ts_world s))) as [st sent] eqn:Ea.
          injection Hs as <- <-. split; [done|]. left. by destruct (ts_redraw s).
        * injection Hs as <- <-. split; [done|]. left. by destruct (ts_redraw s).
      + left. unfold at_event in Hs. destruct (ts_events s) as [|n].
        { destruct (ts_shutdown s); injection Hs as <- <-; cbn; auto. }
        unfold problems_added in Hs. destruct (tu_accept (ts_ui s)); [|injection Hs as <- <-; cbn; auto].
        pose proof (accept_ui (ts_ui s) (ts_world s)) as H.
        destruct (accept_all_single_edits o (ts_ui s) (ts_world s)) as [u w ac|u w ac| |]; [..|done|done];
          subst u; injection Hs as <- <-; cbn; auto.
      + unfold at_key in Hs. destruct p as [| |k]; [left; injection Hs as <- <-; cbn; auto..|].
        destruct (ts_error s) eqn:Ee.
        * left. destruct (is_char ["q"%char] k); [|injection Hs as <- <-; cbn; auto].
          destruct (store_abort (w_store (ts_world s))) as [st sent]. injection Hs as <- <-. cbn. auto.
        * right. exists k, (handle_key o (ts_ui s) (ts_world s) k). split; [done|]. split; [done|]. split; [done|].
          destruct (handle_key o (ts_ui s) (ts_world s) k) as [u w ac|u w ac| |]; [..|done|done];
            injection Hs as <- <-; cbn; auto.
  Qed.

  Lemma reached_memory (l : list (step o)) (s : term o) (tr : list (step o * list (act o))) :
    reached o l s tr -> memory s tr.
  Proof.
    revert l s tr. apply (reached_ind o (fun l s tr => memory s tr)).
    - intros f w c. split_and!; cbn; [repeat constructor|done|constructor| |done]. by intros x ?%elem_of_nil.
    - intros l s tr a s' acts Hr (M1 & M2 & M3 & M4 & M5) Hs.
      assert (Hold : forall c, c ∈ tu_previous (ts_ui s) -> entered o (tr ++ [(a, acts)]) s' c (fun _ => True)).
      { intros c Hc. eapply entered_snoc; [|by apply M4|exact Hs]. done. }
      assert (Hkeep : forall c, tu_comment (ts_ui s) = Some c ->
        (tu_accept (ts_ui s) = true -> tu_accept (ts_ui s') = true) ->
        (written o acts = [] \/ tu_accept (ts_ui s') = true) -> entered o (tr ++ [(a, acts)]) s' c (unwritten s')).
      { intros c Hc H1 H2. eapply entered_snoc; [|by apply M5|exact Hs].
        intros t [Ht|Ht]; [left; by apply H1|]. destruct H2 as [H2|H2]; [|by left]. right.
        by rewrite acts_of_app, acts_of_one, written_app, Ht, H2. }
      destruct (step_ui _ _ _ _ Hs) as [[Hu Hw]|(k & r & Hk & -> & Hh & Hres)].
      + unfold memory. rewrite Hu. split_and!; try done.
        * intros H. eapply agreed_snoc; [by apply M2|done].
        * intros c Hc. apply Hkeep; rewrite ?Hu; auto.
      + pose proof (key_tidy (ts_ui s) (ts_world s) k M1) as HT. rewrite Hh in HT.
        assert (HT' : tidy (ts_ui s) k (Handled (ts_ui s') (ts_world s') acts)) by (destruct Hres as [E|E]; rewrite E in HT; exact HT).
        destruct HT' as (T1 & T2 & T3 & T4). clear HT Hh.
        split; [done|]. split.
        { intros Hacc. destruct (T3 Hacc) as [Ho|[Hp ->]].
          - eapply agreed_snoc; [by apply M2|done].
          - exists l, s, tr, s', acts, []. split_and!; try done; try apply Hk. by exists []. }
        destruct T4 as [(T4 & T5 & T6)|[[T4 T5]|(i & Hi & -> & T4)]].
        * rewrite T4, T5. split_and!; try done. intros c Hc. by apply Hkeep.
        * rewrite T4, T5. done.
        * assert (Hent : forall (P : list (step o * list (act o)) -> Prop), in_value i <> [] -> P [] ->
            entered o (tr ++ [(TGo (PollKey KEnter), acts)]) s' (in_value i) P).
          { intros P Hi' HP. exists l, s, tr, i, s', acts, []. split_and!; try done; try apply Hk. by exists []. }
          rewrite T4. unfold confirm_comment. destruct (in_value i) as [|x v] eqn:Ei; cbn.
          -- split_and!; done.
          -- split_and!.
             ++ by apply remember_nodup.
             ++ intros c [->|Hc]%remember_elem; [by apply Hent|by apply Hold].
             ++ intros c [= <-]. apply Hent; [done|]. by right.
  Qed.

  (** ** The selected problem *)

  Lemma open_from_grows (l : list (option problem)) : forall (l' : list (option problem)) (n k id : nat) (p : problem),
    (forall j, l !! j = Some None -> l' !! j = Some None) ->
    (forall j q, l !! j = Some (Some q) -> exists q', l' !! j = Some (Some q') /\ dedup_key q' = dedup_key q) ->
    open_from n l !! k = Some (id, p) ->
    exists p', open_from n l' !! k = Some (id, p') /\ dedup_key p' = dedup_key p.
  Proof.
    induction l as [|x l IH]; intros l' n k id p HN HS; cbn [open_from]; [done|].
    assert (HN' : forall j, l !! j = Some None -> tail l' !! j = Some None).
    { intros j Hj. specialize (HN (S j) Hj). by destruct l'. }
    assert (HS' : forall j q, l !! j = Some (Some q) ->
      exists q', tail l' !! j = Some (Some q') /\ dedup_key q' = dedup_key q).
    { intros j q Hj. destruct (HS (S j) q Hj) as (q' & H1 & H2). exists q'. by destruct l'. }
    destruct x as [q|].
    - destruct (HS 0 q eq_refl) as (q' & H1 & H2). destruct l' as [|y l']; [done|]. injection H1 as ->.
      cbn [open_from]. destruct k as [|k]; cbn.
      + intros [= <- <-]. eauto.
      + intros H. exact (IH l' (S n) k id p HN' HS' H).
    - specialize (HN 0 eq_refl). destruct l' as [|y l']; [done|]. injection HN as ->.
      cbn [open_from]. intros H. exact (IH l' (S n) k id p HN' HS' H).
  Qed.

  Lemma open_add (s s' : store) (es : list store_event) (c : nat) (ps : list problem) (e : store_event) (k id : nat)
      (p : problem) :
    history s es -> store_step s (SAdd c ps) = Some (s', e) -> store_open s !! k = Some (id, p) ->
    exists p', store_open s' !! k = Some (id, p') /\ same_problem p p'.
  Proof.
    intros Hh Hs Hk. pose proof (step_op _ _ _ _ Hs) as Hop. rewrite <- Hop in Hs.
    destruct (step_problems _ _ _ _ Hh Hs) as (s0 & s1 & H0 & (_ & _ & G1 & G2 & _) & H2 & _).
    rewrite Hop in H0. cbn in H0. rewrite H0 in G1, G2. rewrite <- H2 in G1, G2. unfold store_open in *.
    destruct (open_from_grows (st_problems s) (st_problems s') 0 k id p) as (p' & Hp & Hd); [done| |done|].
    - intros j q Hj. destruct (G2 j q Hj) as (q' & H3 & H4 & _). eauto.
    - exists p'. split; [done|]. by apply same_problem_iff.
  Qed.
End proofs.
