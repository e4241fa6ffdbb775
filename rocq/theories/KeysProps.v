(** C240-C243: what the help of the full-screen interface says about keys. *)
From Verif Require Import Base BaseFacts TextModel ApiMapModel ConfigModel ConfigSpec ProblemModel StoreModel
  StoreSpec StoreProofs TomlModel EditorModel EditorSpec UiProofs TermModel TermSpec TermProofs TermRunProofs
  TermKeyProofs EditorProps UiProps TermProps KeysModel KeysSpec.

Lemma fixes_are (o : outside) (s : term o) : edits o (ts_ui s) (ts_world s) = its_fixes o s.
Proof. done. Qed.
Lemma uses_are (o : outside) (s : term o) : shown_usages o (ts_ui s) (ts_world s) = its_uses o s.
Proof. done. Qed.

(** The step that a key leads to. *)
Lemma key_steps (o : outside) (s : term o) (k : key) : takes_key o s ->
  term_step o s (TGo (PollKey k)) =
  match handle_key o (ts_ui s) (ts_world s) k with
  | Handled u w acts => Stepped (with_ui o s u w AtTop true false (ts_events s)) acts
  | Failed u w acts => Stepped (with_ui o s u w AtTop true true (ts_events s)) acts
  | Crash => Crashed
  | Hang => Stuck
  end.
Proof. intros [Hat He]. cbn [term_step]. rewrite Hat. unfold at_key. by rewrite He. Qed.

(** What is below. *)
Lemma below_top (o : outside) (l : list (step o)) (s : term o) (tr : list (step o * list (act o))) (m : mode) :
  reached o l s tr -> on_top o s = Some m ->
  (m = SelectProblem -> tu_modes (ts_ui s) = [SelectProblem]) /\
  (m = SelectEdit \/ m = SelectUsage -> tu_modes (ts_ui s) = [m; SelectProblem]).
Proof.
  intros Hr Ht. pose proof (reached_memory o _ _ _ Hr) as (M1 & _). unfold on_top in Ht.
  destruct M1 as [|ms Hb|ms Hm Hne]; [done| |].
  - destruct Hb; injection Ht as <-; split; try done; intros [?|?]; done.
  - injection Ht as <-. split; [done|]. intros [?|?]; done.
Qed.

Ltac here := unfold on_top, items, cursor, current, open_problems, on_top in *; cbn in *.

Section rows.
  Context (o : outside) (l : list (step o)) (s : term o) (tr : list (step o * list (act o))) (m : mode).
  Context (Hr : reached o l s tr) (Ht : takes_key o s) (Hm : on_top o s = Some m) (Hv : main_view m).

  Lemma three : (m = SelectProblem /\ tu_modes (ts_ui s) = [SelectProblem]) \/
    (m = SelectEdit /\ tu_modes (ts_ui s) = [SelectEdit; SelectProblem]) \/
    (m = SelectUsage /\ tu_modes (ts_ui s) = [SelectUsage; SelectProblem]).
  Proof.
    destruct (below_top o _ _ _ _ Hr Hm) as [B1 B2]. destruct Hv as [->|[->| ->]]; [left|right; left|right; right]; auto.
  Qed.

  Lemma arrow_moves (up : bool) : moves o up s (if up then KUp else KDown).
  Proof.
    intros rows Hi Hc. assert (Hne : rows <> []) by (intros ->; cbn in Hc; lia).
    destruct (C139_arrows o l s tr (if up then KUp else KDown) rows Hr Ht) as
      (s' & Hs & Hw & He & Htop & Hi' & _ & Hmv); [destruct up; auto|done|done|].
    exists s', []. split; [done|]. split; [done|]. split_and!; try done.
    destruct (Hmv Hc) as [Hu Hd]. destruct up; auto.
  Qed.

  Lemma p_toggles : toggles_details o s (KChar "p").
  Proof.
    unfold toggles_details, pressing. rewrite key_steps by done. unfold handle_key.
    destruct three as [[_ E]|[[_ E]|[_ E]]]; rewrite E; cbn;
      (eexists _, _; split; [reflexivity|]; cbn; split_and!; try done; by here).
  Qed.

  Lemma q_quits : quits o s (KChar "q").
  Proof.
    unfold quits, pressing. rewrite key_steps by done. unfold handle_key.
    destruct three as [[_ E]|[[_ E]|[_ E]]]; rewrite E; cbn; (eexists _, _; split; [reflexivity|]; by cbn).
  Qed.

  Lemma h_helps (c : ascii) : c = "h"%char \/ c = "?"%char -> shows_help o s (KChar c).
  Proof.
    intros Hc. unfold shows_help, pressing. rewrite key_steps by done. unfold handle_key, on_top.
    destruct three as [[_ E]|[[_ E]|[_ E]]]; rewrite E; destruct Hc as [->| ->]; cbn; unfold common_key; cbn;
      rewrite E; cbn; (eexists _, _; split; [reflexivity|]); cbn; rewrite ?E; done.
  Qed.

  Lemma d_shows : m = SelectProblem \/ m = SelectEdit -> shows_uses o s (KChar "d").
  Proof.
    intros Hm'. unfold shows_uses, pressing. rewrite key_steps by done.
    assert (E : handle_key o (ts_ui s) (ts_world s) (KChar "d") =
              match its_uses o s with
              | [] => Failed (ts_ui s) (ts_world s) []
              | _ => Handled (set_usage (set_modes (ts_ui s) [SelectUsage; SelectProblem]) 0) (ts_world s) []
              end).
    { unfold handle_key. destruct three as [[-> E]|[[-> E]|[-> E]]]; rewrite E; [..|by destruct Hm'];
        cbn; unfold details_key; rewrite uses_are; (destruct (its_uses o s); [done|]);
        unfold enter_usage_mode; by rewrite E. }
    rewrite E. clear E. destruct (its_uses o s) as [|x xs] eqn:Eu.
    - eexists _, _. split; [reflexivity|]. split; [done|]. intros _. cbn. done.
    - eexists _, _. split; [reflexivity|]. split; [|done]. intros _. unfold its_uses in Eu. cbn.
      split_and!; try done. here. destruct (store_open _ !! _) as [[id p]|]; [|done]. by rewrite Eu.
  Qed.

  Lemma f_shows : m = SelectProblem -> shows_fixes o s (KChar "f").
  Proof.
    intros Hm'. unfold shows_fixes, pressing. rewrite key_steps by done.
    assert (E : handle_key o (ts_ui s) (ts_world s) (KChar "f") =
              match its_fixes o s with
              | [] => Failed (ts_ui s) (ts_world s) []
              | _ => Handled (set_edit (set_modes (ts_ui s) [SelectEdit; SelectProblem]) 0) (ts_world s) []
              end).
    { unfold handle_key. destruct three as [[-> E]|[[-> E]|[-> E]]]; try done. rewrite E. cbn.
      rewrite fixes_are. destruct (its_fixes o s); [done|]. unfold enter_edit_mode, push. by rewrite E. }
    rewrite E. clear E. destruct (its_fixes o s) as [|x xs] eqn:Eu.
    - eexists _, _. split; [reflexivity|]. split; [done|]. intros _. cbn. done.
    - eexists _, _. split; [reflexivity|]. split; [|done]. intros _. unfold its_fixes, offered in Eu. cbn.
      split_and!; try done. here. destruct (store_open _ !! _) as [[id p]|]; [|done]. unfold offered. cbn. by rewrite Eu.
  Qed.

  Lemma f_jumps : m = SelectUsage -> jumps_to_fixes o s (KChar "f").
  Proof.
    intros Hm'. unfold jumps_to_fixes, pressing. rewrite key_steps by done. unfold handle_key.
    destruct three as [[-> E]|[[-> E]|[-> E]]]; try done. rewrite E. cbn.
    eexists _, _. split; [reflexivity|]. unfold its_fixes, lists, opens. cbn. unfold enter_edit_mode, push, pop. here.
    rewrite E. cbn. split_and!; try done. unfold offered. cbn. by destruct (store_open _ !! _) as [[id p]|].
  Qed.

  Lemma t_shows : m = SelectProblem -> shows o ShowPackageTree s (KChar "t").
  Proof.
    intros Hm'. unfold shows, pressing. rewrite key_steps by done. unfold handle_key.
    destruct three as [[-> E]|[[-> E]|[-> E]]]; try done. rewrite E. cbn.
    eexists _, _. split; [reflexivity|]. by here.
  Qed.

  Lemma i_shows : m = SelectUsage -> shows o ShowInternalDiagnostics s (KChar "i").
  Proof.
    intros Hm'. unfold shows, pressing. rewrite key_steps by done. unfold handle_key.
    destruct three as [[-> E]|[[-> E]|[-> E]]]; try done. rewrite E. cbn.
    eexists _, _. split; [reflexivity|]. by here.
  Qed.

  Lemma a_offers : m = SelectProblem -> offers_auto_apply o s (KChar "a").
  Proof.
    intros Hm'. unfold offers_auto_apply, pressing. rewrite key_steps by done. unfold handle_key.
    destruct three as [[-> E]|[[-> E]|[-> E]]]; try done. rewrite E. cbn. unfold in_problem_mode. cbn.
    destruct (tu_accept (ts_ui s)) eqn:Ea; cbn; eexists _, _; (split; [reflexivity|]); split; intros; try done; by here.
  Qed.

  Lemma esc_returns : m = SelectEdit \/ m = SelectUsage -> shows o SelectProblem s KEsc.
  Proof.
    intros Hm'. unfold shows, pressing. rewrite key_steps by done. unfold handle_key.
    destruct three as [[-> E]|[[-> E]|[-> E]]]; [by destruct Hm'|..]; rewrite E; cbn; unfold common_key; cbn; rewrite E; cbn;
      (eexists _, _; split; [reflexivity|]); here; unfold pop; rewrite E; done.
  Qed.

  Lemma d_returns : m = SelectUsage -> shows o SelectProblem s (KChar "d").
  Proof.
    intros Hm'. unfold shows, pressing. rewrite key_steps by done. unfold handle_key.
    destruct three as [[-> E]|[[-> E]|[-> E]]]; try done. rewrite E. cbn.
    eexists _, _. split; [reflexivity|]. unfold opens. here. by rewrite E.
  Qed.

  Lemma c_asks : m = SelectEdit -> asks_for_comment o s (KChar "c").
  Proof.
    intros Hm'. unfold asks_for_comment, pressing. rewrite key_steps by done. unfold handle_key.
    destruct three as [[-> E]|[[-> E]|[-> E]]]; try done. rewrite E. cbn. unfold in_edit_mode. cbn.
    assert (Hs : supports_comments o (ts_ui s) (ts_world s) = true <->
      exists e d, its_fixes o s !! cursor o s = Some e /\ o_parse o (w_file (ts_world s)) = Some d /\
        o_has_comment o e d = true).
    { unfold supports_comments. rewrite fixes_are. unfold cursor. rewrite Hm. split.
      - destruct (its_fixes o s !! tu_edit (ts_ui s)) as [e|]; [|done]. destruct (o_parse o _) as [d|]; [|done].
        intros H. by exists e, d.
      - intros (e & d & -> & -> & H). done. }
    destruct (supports_comments o (ts_ui s) (ts_world s)).
    - eexists _, _. split; [reflexivity|]. split; [|intros H; by destruct H; apply Hs]. intros _.
      eexists (input_of _). split; [by here|done].
    - eexists _, _. split; [reflexivity|]. split; [|done]. intros H. by apply Hs in H.
  Qed.

  Lemma b_shows : m = SelectUsage -> shows_backtrace o s (KChar "b").
  Proof.
    intros Hm' x Hx. unfold pressing. rewrite key_steps by done. unfold handle_key. unfold cursor in Hx. rewrite Hm in Hx.
    destruct three as [[-> E]|[[-> E]|[-> E]]]; try done. rewrite E. cbn. unfold in_usage_mode. cbn.
    change (shown_usages o (set_frame (ts_ui s) 0) (ts_world s)) with (its_uses o s).
    rewrite Hx. destruct (o_backtrace o x) as [f|]; eexists _, _; (split; [reflexivity|]).
    - by here.
    - unfold refuses. here. by rewrite E.
  Qed.

  Lemma enter_applies (k : key) : m = SelectEdit -> confirms k -> applies o s k.
  Proof.
    intros Hm' Hk e He. unfold pressing. rewrite key_steps by done.
    pose proof (reached_inv o _ _ _ Hr) as [Hh Hg].
    destruct three as [[-> E]|[[-> E]|[-> E]]]; try done. unfold cursor in He. rewrite Hm in He.
    assert (Hap : handle_key o (ts_ui s) (ts_world s) k = after_apply o (apply_selected o (ts_ui s) (ts_world s))).
    { unfold handle_key. rewrite E.
      destruct Hk as [->|[->| ->]]; cbn; by destruct (apply_selected o (ts_ui s) (ts_world s)). }
    rewrite Hap. change (its_fixes o s) with (edits o (ts_ui s) (ts_world s)) in He.
    destruct (apply_selected_spec o (ts_ui s) (ts_world s) _ Hh)
      as [[H _]|[[Ea (e' & H & Hf)]|(e' & id & p & d & d' & st & ev & ac & H & _ & _ & Hp & Ha & Hw & Ea & _ & Hst & _)]].
    - by rewrite He in H.
    - rewrite Ea. cbn. eexists _, _. split; [reflexivity|]. right. split; [done|]. rewrite He in H. injection H as <-.
      intros Hw d Hd. destruct Hf as [Hf|[(d0 & Hf & Hf')|Hf]].
      + by rewrite Hd in Hf.
      + rewrite Hd in Hf. by injection Hf as <-.
      + by rewrite Hw in Hf.
    - rewrite He in H. injection H as <-. destruct (stored_written o _ Hst) as [Hn _].
      rewrite Ea. cbn. eexists _, _. split; [reflexivity|]. left. exists d, d'. split_and!; try done.
      + by rewrite written_wrote, Hn.
      + unfold on_top. cbn. destruct (Nat.leb _ _); cbn; by rewrite E.
  Qed.

  (** Every row of the help. *)
  Definition kept (r : str * str) : Prop := forall k, k ∈ keys_named r.1 -> exists M, meaning o r.2 M /\ M s k.

  Lemma kept_one (label text : str) (k : key) (M : term o -> key -> Prop) :
    keys_named label = [k] -> meaning o text M -> M s k -> kept (label, text).
  Proof. intros E Hx HM k' Hk. cbn [fst snd] in *. rewrite E in Hk. apply elem_of_list_singleton in Hk as ->. eauto. Qed.

  Lemma kept_all (label text : str) (ks : list key) (M : term o -> key -> Prop) :
    keys_named label = ks -> meaning o text M -> (forall k, k ∈ ks -> M s k) -> kept (label, text).
  Proof. intros E Hx HM k' Hk. cbn [fst snd] in *. rewrite E in Hk. eauto. Qed.

  Lemma rows_kept : Forall kept (help_rows (Some m)).
  Proof.
    assert (Hlast : Forall kept
      [(lit "p", lit "Toggle display of package details"); (lit "q", lit "Quit");
       (lit "h/?", lit "Show mode-specific help")]).
    { repeat apply Forall_cons_2; [..|apply Forall_nil_2].
      - eapply kept_one; [vm_compute; reflexivity|apply m_package|apply p_toggles].
      - eapply kept_one; [vm_compute; reflexivity|apply m_quit|apply q_quits].
      - eapply (kept_all _ _ [KChar "h"; KChar "?"]); [vm_compute; reflexivity|apply m_help|].
        intros k Hk. rewrite elem_of_cons, elem_of_list_singleton in Hk. destruct Hk as [->| ->]; apply h_helps; auto. }
    unfold help_rows. destruct Hv as [Em|[Em|Em]]; rewrite Em; apply Forall_app; (split; [|done]);
      repeat apply Forall_cons_2; try apply Forall_nil_2.
    - eapply kept_one; [vm_compute; reflexivity|apply m_fixes|by apply f_shows].
    - eapply kept_one; [vm_compute; reflexivity|apply m_details|apply d_shows; auto].
    - eapply kept_one; [vm_compute; reflexivity|apply m_tree|by apply t_shows].
    - eapply kept_one; [vm_compute; reflexivity|apply m_previous_problem|apply (arrow_moves true)].
    - eapply kept_one; [vm_compute; reflexivity|apply m_next_problem|apply (arrow_moves false)].
    - eapply kept_one; [vm_compute; reflexivity|apply m_auto|by apply a_offers].
    - eapply (kept_all _ _ [KChar " "; KEnter; KChar "f"]); [vm_compute; reflexivity|apply m_apply|].
      intros k Hk. apply enter_applies; [done|]. rewrite !elem_of_cons, elem_of_nil in Hk.
      destruct Hk as [->|[->|[->|[]]]]; unfold confirms; auto.
    - eapply kept_one; [vm_compute; reflexivity|apply m_jump_details|apply d_shows; auto].
    - eapply kept_one; [vm_compute; reflexivity|apply m_comment|by apply c_asks].
    - eapply kept_one; [vm_compute; reflexivity|apply m_previous_edit|apply (arrow_moves true)].
    - eapply kept_one; [vm_compute; reflexivity|apply m_next_edit|apply (arrow_moves false)].
    - eapply kept_one; [vm_compute; reflexivity|apply m_return|apply esc_returns; auto].
    - eapply kept_one; [vm_compute; reflexivity|apply m_previous_usage|apply (arrow_moves true)].
    - eapply kept_one; [vm_compute; reflexivity|apply m_next_usage|apply (arrow_moves false)].
    - eapply kept_one; [vm_compute; reflexivity|apply m_backtrace|by apply b_shows].
    - eapply kept_one; [vm_compute; reflexivity|apply m_jump_edits|by apply f_jumps].
    - eapply (kept_all _ _ [KChar "d"; KEsc]); [vm_compute; reflexivity|apply m_return|].
      intros k Hk. rewrite elem_of_cons, elem_of_list_singleton in Hk.
      destruct Hk as [->| ->]; [by apply d_returns|apply esc_returns; auto].
    - eapply kept_one; [vm_compute; reflexivity|apply m_diagnostics|by apply i_shows].
  Qed.
End rows.

(** ** C240: the help tells the truth *)

Theorem C240_help :
  forall (o : outside) (l : list (step o)) (s : term o) (tr : list (step o * list (act o))) (m : mode)
         (label text : str) (k : key),
  reached o l s tr -> takes_key o s -> on_top o s = Some m -> main_view m ->
  (label, text) ∈ help_rows (Some m) -> k ∈ keys_named label ->
  exists M, meaning o text M /\ M s k.
Proof.
  intros o l s tr m label text k Hr Ht Hm Hv Hrow Hk.
  pose proof (rows_kept o l s tr m Hr Ht Hm Hv) as H. rewrite Forall_forall in H.
  apply elem_of_list_In in Hrow. apply elem_of_list_In in Hrow. exact (H _ Hrow k Hk).
Qed.
Print Assumptions C240_help.

(** The fixes of the second problem are listed: 'c' leads to the prompt, and Esc back to the problems. *)
Example C240_ex :
  let l := tx_start [tx_macro; tx_export] ++ tx_press [KDown; KChar "f"; KDown] ++ tx_wait in
  let s := (tx_run tx_empty l).1 in
  reached tx l s (tx_run tx_empty l).2 /\ takes_key tx s /\ on_top tx s = Some SelectEdit /\
  nth_error (help_rows (Some SelectEdit)) 2 = Some (lit "c", lit "Add comment to edit (supported edits only)") /\
  keys_named (lit "c") = [KChar "c"] /\ keys_named (lit "space/enter/f") = [KChar " "; KEnter; KChar "f"] /\
  keys_named (lit "h/?") = [KChar "h"; KChar "?"] /\
  on_top tx (tx_next s (KChar "c")).1 = Some (SetComment (Input [] 0)) /\
  on_top tx (tx_next s KEsc).1 = Some SelectProblem /\ cursor tx (tx_next s KEsc).1 = 1 /\
  help_shown (ts_ui (tx_next s (KChar "?")).1) = Some (help_rows (Some SelectEdit)).
Proof. cbv zeta. unfold takes_key. tx_check. Qed.

(** ** C241: the help is complete *)

(** In the views that have a help of their own, keys that it does not list have no effect. *)
Theorem C241_unlisted :
  forall (o : outside) (l : list (step o)) (s : term o) (tr : list (step o * list (act o))) (m : mode) (k : key),
  reached o l s tr -> takes_key o s -> on_top o s = Some m -> main_view m ->
  (forall label text, (label, text) ∈ help_rows (Some m) -> k ∉ keys_named label) ->
  ignored o s k.
Proof.
  intros o l s tr m k Hr Ht Hm Hv Hno.
  assert (Hk : k ∉ concat (map (fun r : str * str => keys_named r.1) (help_rows (Some m)))).
  { intros H. apply elem_of_list_In in H. apply in_concat in H as (ks & H & Hk). apply in_map_iff in H as ([a b] & <- & H).
    apply elem_of_list_In in H. apply elem_of_list_In in Hk. by apply (Hno a b). }
  clear Hno. unfold ignored, pressing. rewrite key_steps by done.
  destruct (three o l s tr m Hr Hm Hv) as [[-> E]|[[-> E]|[-> E]]].
  - assert (Ek : concat (map (fun r : str * str => keys_named r.1) (help_rows (Some SelectProblem))) =
      [KChar "f"; KChar "d"; KChar "t"; KUp; KDown; KChar "a"; KChar "p"; KChar "q"; KChar "h"; KChar "?"])
      by (vm_compute; reflexivity).
    rewrite Ek in Hk. clear Ek. rewrite !not_elem_of_cons in Hk.
    assert (Eh : handle_key o (ts_ui s) (ts_world s) k = Handled (ts_ui s) (ts_world s) []).
    { unfold handle_key. rewrite E. destruct k as [| | | |c|n]; try (exfalso; tauto); cbn;
        unfold in_problem_mode, common_key, is_char; cbn; try done.
      - by rewrite E.
      - assert (Hc : forall x, KChar c <> KChar x -> c <> x) by congruence.
        destruct Hk as (H1 & H2 & H3 & _ & _ & H4 & H5 & H6 & H7 & H8 & _).
        apply Hc in H1, H2, H3, H4, H5, H6, H7, H8.
        rewrite !bool_decide_eq_false_2 by (rewrite ?elem_of_cons, ?elem_of_nil; tauto). done. }
    rewrite Eh. eexists _, _. split; [reflexivity|]. done.
  - assert (Ek : concat (map (fun r : str * str => keys_named r.1) (help_rows (Some SelectEdit))) =
      [KChar " "; KEnter; KChar "f"; KChar "d"; KChar "c"; KUp; KDown; KEsc; KChar "p"; KChar "q"; KChar "h"; KChar "?"])
      by (vm_compute; reflexivity).
    rewrite Ek in Hk. clear Ek. rewrite !not_elem_of_cons in Hk.
    assert (Eh : handle_key o (ts_ui s) (ts_world s) k = Handled (ts_ui s) (ts_world s) []).
    { unfold handle_key. rewrite E. destruct k as [| | | |c|n]; try (exfalso; tauto); cbn;
        unfold in_edit_mode, common_key, is_char; cbn; try done.
      assert (Hc : forall x, KChar c <> KChar x -> c <> x) by congruence.
      destruct Hk as (H1 & _ & H2 & H3 & H4 & _ & _ & _ & H5 & H6 & H7 & H8 & _).
      apply Hc in H1, H2, H3, H4, H5, H6, H7, H8.
      rewrite !bool_decide_eq_false_2 by (rewrite ?elem_of_cons, ?elem_of_nil; first [tauto|congruence]). done. }
    rewrite Eh. eexists _, _. split; [reflexivity|]. done.
  - assert (Ek : concat (map (fun r : str * str => keys_named r.1) (help_rows (Some SelectUsage))) =
      [KUp; KDown; KChar "b"; KChar "f"; KChar "d"; KEsc; KChar "i"; KChar "p"; KChar "q"; KChar "h"; KChar "?"])
      by (vm_compute; reflexivity).
    rewrite Ek in Hk. clear Ek. rewrite !not_elem_of_cons in Hk.
    assert (Eh : handle_key o (ts_ui s) (ts_world s) k = Handled (ts_ui s) (ts_world s) []).
    { unfold handle_key. rewrite E. destruct k as [| | | |c|n]; try (exfalso; tauto); cbn;
        unfold in_usage_mode, common_key, is_char; cbn; try done.
      assert (Hc : forall x, KChar c <> KChar x -> c <> x) by congruence.
      destruct Hk as (_ & _ & H1 & H2 & H3 & _ & H4 & H5 & H6 & H7 & H8 & _).
      apply Hc in H1, H2, H3, H4, H5, H6, H7, H8.
      rewrite !bool_decide_eq_false_2 by (rewrite ?elem_of_cons, ?elem_of_nil; first [tauto|congruence]). done. }
    rewrite Eh. eexists _, _. split; [reflexivity|]. done.
Qed.
Print Assumptions C241_unlisted.

(** 't' among the fixes. *)
Example C241_ex :
  let l := tx_start [tx_macro; tx_export] ++ tx_press [KDown; KChar "f"] ++ tx_wait in
  let s := (tx_run tx_empty l).1 in
  reached tx l s (tx_run tx_empty l).2 /\ takes_key tx s /\ on_top tx s = Some SelectEdit /\
  forallb (fun r : str * str => negb (bool_decide (KChar "t" ∈ keys_named r.1))) (help_rows (Some SelectEdit)) = true /\
  on_top tx (tx_next s (KChar "t")).1 = Some SelectEdit.
Proof. cbv zeta. unfold takes_key. tx_check. Qed.

(** ** C242: Esc leads back *)

(** Unless the interface was quit, the problems are below everything. Esc takes away what is on top, and it
    does not matter what that is; nothing is written. *)
Theorem C242_escape :
  forall (o : outside) (l : list (step o)) (s : term o) (tr : list (step o * list (act o))) (m : mode),
  reached o l s tr -> takes_key o s -> on_top o s = Some m ->
  exists above, tu_modes (ts_ui s) = above ++ [SelectProblem] /\ SelectProblem ∉ above /\
    pressing o s KEsc (fun s' acts =>
      quiet o s s' acts /\ ts_error s' = false /\ current o s' = current o s /\
      tu_comment (ts_ui s') = tu_comment (ts_ui s) /\ tu_accept (ts_ui s') = tu_accept (ts_ui s) /\
      tu_modes (ts_ui s') = tail above ++ [SelectProblem]).
Proof.
  intros o l s tr m Hr Ht Hm. pose proof (reached_memory o _ _ _ Hr) as (M1 & _). unfold on_top in Hm.
  assert (Hab : exists above, tu_modes (ts_ui s) = above ++ [SelectProblem] /\ SelectProblem ∉ above).
  { clear Hr Ht. remember (tu_modes (ts_ui s)) as ms eqn:E. clear E. revert m Hm.
    induction M1 as [|ms Hb|ms Hm' IH Hne]; intros m Hm; [done| |].
    - destruct Hb; [exists []|exists [SelectEdit]|exists [SelectUsage]|exists [Backtrace f; SelectUsage]
        |exists [SetComment i; SelectEdit]|exists [PromptAutoAccept]|exists [ShowPackageTree]
        |exists [ShowInternalDiagnostics; SelectUsage]]; (split; [done|]); rewrite ?not_elem_of_cons;
        split_and?; try done; apply not_elem_of_nil.
    - destruct ms as [|m' ms]; [done|]. destruct (IH m' eq_refl) as (above & E & Hn). exists (Help :: above).
      split; [by rewrite E|]. by apply not_elem_of_cons. }
  destruct Hab as (above & E & Hn). exists above. split; [done|]. split; [done|].
  unfold pressing. rewrite key_steps by done. unfold handle_key. rewrite E in Hm |- *.
  destruct above as [|m' above].
  - cbn. unfold common_key. cbn. rewrite E. cbn. eexists _, _. split; [reflexivity|]. here. by rewrite E.
  - cbn in Hm. injection Hm as <-. apply not_elem_of_cons in Hn as [Hn _]. cbn [app tail].
    assert (Hc : common_key o (ts_ui s) (ts_world s) KEsc = Handled (pop (ts_ui s)) (ts_world s) []).
    { unfold common_key. cbn. rewrite E. cbn. rewrite app_length. cbn. by rewrite Nat.add_1_r. }
    assert (Hp : forall r, r = Handled (pop (ts_ui s)) (ts_world s) [] ->
      exists s' acts, match r with
        | Handled u w acts => Stepped (with_ui o s u w AtTop true false (ts_events s)) acts
        | Failed u w acts => Stepped (with_ui o s u w AtTop true true (ts_events s)) acts
        | Crash => Crashed
        | Hang => Stuck
        end = Stepped s' acts /\
        (quiet o s s' acts /\ ts_error s' = false /\ current o s' = current o s /\
         tu_comment (ts_ui s') = tu_comment (ts_ui s) /\ tu_accept (ts_ui s') = tu_accept (ts_ui s) /\
         tu_modes (ts_ui s') = above ++ [SelectProblem])).
    { intros r ->. eexists _, _. split; [reflexivity|]. here. by rewrite E. }
    apply Hp. destruct m'; try done.
Qed.
Print Assumptions C242_escape.

(** From the help on the frames of a backtrace it takes three times Esc. *)
Example C242_ex :
  let l := tx_start [tx_macro; tx_usage 4] ++ tx_press [KDown; KChar "d"; KChar "b"; KChar "h"] ++ tx_wait in
  let s := (tx_run tx_empty l).1 in
  let l' := l ++ [TGo (PollKey KEsc)] ++ tx_press [KEsc; KEsc] in
  let s' := (tx_run tx_empty l').1 in
  reached tx l s (tx_run tx_empty l).2 /\ takes_key tx s /\ on_top tx s = Some Help /\
  tu_modes (ts_ui s) = [Help; Backtrace [4; 5]; SelectUsage; SelectProblem] /\
  reached tx l' s' (tx_run tx_empty l').2 /\ on_top tx s' = Some SelectProblem /\
  current tx s' = Some (1, tx_usage 4).
Proof. cbv zeta. unfold takes_key. tx_check. Qed.

(** ** C243: the help of other views *)

(** The help for a backtrace lists neither the arrow keys, which move in it, nor 'b' and 'd', which close it. *)
Theorem C243_other_views_refuted :
  exists (o : outside) (l : list (step o)) (s : term o) (tr : list (step o * list (act o))) (m : mode) (k : key),
    reached o l s tr /\ takes_key o s /\ on_top o s = Some m /\
    (exists s', term_step o s (TGo (PollKey (KChar "h"))) = Stepped s' [] /\
       help_shown (ts_ui s') = Some (help_rows (Some m))) /\
    (forall label text, (label, text) ∈ help_rows (Some m) -> k ∉ keys_named label) /\
    ~ ignored o s k.
Proof.
  set (l := tx_start [tx_usage 4] ++ tx_press [KChar "d"; KChar "b"] ++ tx_wait).
  exists tx, l, (tx_run tx_empty l).1, (tx_run tx_empty l).2, (Backtrace [4; 5]), KDown.
  split; [apply tx_reached; tx_eq|]. split; [split; tx_eq|]. split; [tx_eq|]. split.
  { exists (tx_next (tx_run tx_empty l).1 (KChar "h")).1. split; [|tx_eq].
    assert (Ea : (tx_next (tx_run tx_empty l).1 (KChar "h")).2 = []) by tx_eq.
    etrans; [apply tx_stepped; tx_eq|]. unfold tx_next in *. by rewrite Ea. }
  split.
  - intros label text Hrow Hk.
    assert (H : forallb (fun r : str * str => negb (bool_decide (KDown ∈ keys_named r.1)))
                  (help_rows (Some (Backtrace [4; 5]))) = true) by (vm_compute; reflexivity).
    rewrite forallb_forall in H. apply elem_of_list_In in Hrow. specialize (H _ Hrow). cbn [fst] in H.
    rewrite bool_decide_eq_true_2 in H by done. done.
  - intros (s' & acts & Hs & _ & _ & Hu).
    assert (Hc : tu_frame (ts_ui (tx_next (tx_run tx_empty l).1 KDown).1) = 1) by tx_eq.
    assert (Hc0 : tu_frame (ts_ui (tx_run tx_empty l).1) = 0) by tx_eq.
    unfold tx_next, tx_after in Hc. rewrite Hs in Hc. cbn [fst] in Hc. rewrite Hu in Hc. rewrite Hc0 in Hc. exact (O_S 0 Hc).
Qed.
Print Assumptions C243_other_views_refuted.
