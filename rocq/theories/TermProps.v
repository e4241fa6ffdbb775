(** C131-C145: the full-screen interface. *)
From Verif Require Import Base BaseFacts TextModel ApiMapModel ConfigModel ConfigSpec ProblemModel StoreModel
  StoreSpec StoreProofs TomlModel EditorModel EditorSpec UiProofs TermModel TermSpec TermProofs TermRunProofs
  TermKeyProofs EditorProps UiProps.

Lemma written_wrote (o : outside) (t : o_text o) (e : store_event) (acts : list (act o)) :
  written o (Wrote t :: Stored e :: acts) = t :: written o acts.
Proof. done. Qed.

(** ** An outside world for the examples *)

Global Instance item_eq_dec : EqDecision item.
Proof.
  hnf. fix go 1. intros x y. unfold Decision.
  destruct x as [a|a|a| |a|a|a], y as [b|b|b| |b|b|b]; try (right; discriminate); try (by left);
    [destruct (decide (a = b)) | destruct (decide (a = b)) | destruct (decide (a = b))
    | destruct (@list_eq_dec item go a b)
    | destruct (@list_eq_dec (str * item) (@prod_eq_dec str _ item go) a b)
    | destruct (@list_eq_dec (str * item) (@prod_eq_dec str _ item go) a b)];
    [left|right|left|right|left|right|left|right|left|right|left|right]; congruence.
Defined.

(** A parsed file is a table and the comments in the order in which they were attached; a text is a
    parsed file, or not TOML. The usage with the number 0 refers to [std::fs::a] and [std::fs::b], all
    others to [std::fs::b]. *)
Definition tx_prefixes (from : bool) (l : list api_usage) : option (list str) :=
  if from then None
  else Some (if forallb (fun u => Nat.eqb (us_rest u) 0) l
             then [lit "std"; lit "std::fs"; lit "std::fs::a"; lit "std::fs::b"]
             else [lit "std"; lit "std::fs"; lit "std::fs::b"]).
Definition tx : outside := {|
  o_text := option (table * list str);
  o_text_eq := _;
  o_doc := table * list str;
  o_parse t := t;
  o_print d := Some d;
  o_apply e c d := match apply_edit any_kind ∅ e d.1 with
                   | Some t => Some (t, d.2 ++ match c with Some s => [s] | None => [] end)
                   | None => None
                   end;
  o_failed_in _ := sandbox_default;
  o_exported := no_export;
  o_prefixes := tx_prefixes;
  o_std_apis := [lit "fs"; lit "net"];
  o_usages p := match p with PDisallowedApiUsage u => map us_rest (au_usages u) | _ => [] end;
  o_backtrace n := Some [n; S n];
  o_type_key k i := match k with KChar c => input_of (in_value i ++ [c]) | _ => i end;
  o_has_comment _ _ := true |}.

Definition tx_config : config :=
  Config (RawConfig 2 false [] {[lit "fs" := ApiConfig [lit "std::fs"] [] []]} ∅ sandbox_default
            sandbox_default) ∅ ∅.
Definition tx_empty : o_text tx := Some ([], []).

(** Of these problems the first and the second have one fix each, the others several. *)
Definition tx_macro : problem := PIsProcMacro ed_pkg.
Definition tx_unsafe : problem := PDisallowedUnsafe (CrateSel (PkgId (lit "bar") [1; 0; 0]) Primary) 0.
Definition tx_export : problem := PPossibleExportedApi ed_pkg (lit "net") (lit "foo::net").
Definition tx_export2 : problem := PPossibleExportedApi ed_pkg (lit "fs") (lit "foo::fs").
Definition tx_usage (n : nat) : problem :=
  PDisallowedApiUsage (ApiUsages ed_pkg All (lit "fs") [ApiUsage [lit "std"; lit "fs"] None n]).

(** Runs: client 0 submits problems, and the interface notices; it draws and waits for a key; keys are
    pressed one after the other. *)
Definition tx_start (ps : list problem) : list (step tx) := [TSubmit 0 ps; TGo PollNothing].
Definition tx_wait : list (step tx) := [TGo PollNothing; TGo PollNothing].
Definition tx_press (ks : list key) : list (step tx) :=
  concat (map (fun k => tx_wait ++ [TGo (PollKey k)]) ks).
Definition tx_chars (s : string) : list key := map KChar (lit s).

Definition tx_run (file : o_text tx) (l : list (step tx)) : term tx * list (step tx * list (act tx)) :=
  default (term_init tx file true tx_config, []) (term_run tx (term_init tx file true tx_config) l).
Definition tx_possible (file : o_text tx) (l : list (step tx)) : bool :=
  match term_run tx (term_init tx file true tx_config) l with Some _ => true | None => false end.
Lemma tx_reached (file : o_text tx) (l : list (step tx)) :
  tx_possible file l = true -> reached tx l (tx_run file l).1 (tx_run file l).2.
Proof.
  unfold tx_possible, tx_run. intros H. exists file, true, tx_config.
  destruct (term_run _ _ _) as [[s tr]|]; [done|discriminate].
Qed.

(** What is on the screen if nothing changed since it was drawn. *)
Fixpoint tx_shown (back : list (step tx * list (act tx))) : option (screen tx) :=
  match back with
  | [] => None
  | (a, acts) :: back' =>
      match last (drawn tx acts), a with
      | Some sc, _ => Some sc
      | None, (TShutdown | TGo _) => match drawn tx acts with [] => tx_shown back' | _ => None end
      | _, _ => None
      end
  end.
Lemma tx_up_to_date (tr : list (step tx * list (act tx))) (sc : screen tx) :
  tx_shown (rev tr) = Some sc -> up_to_date tx tr sc.
Proof.
  intros H. rewrite <- (rev_involutive tr). remember (rev tr) as back eqn:E. clear E tr.
  induction back as [|[a acts] back IH]; [discriminate|]. cbn [rev]. cbn [tx_shown] in H.
  destruct (last (drawn tx acts)) as [sc'|] eqn:El.
  - injection H as ->. exists (rev back), a, acts, []. split_and!; [done|done|]. apply Forall_nil_2.
  - assert (undisturbed tx a /\ drawn tx acts = [] /\ tx_shown back = Some sc) as (Hu & Hd & Hs).
    { destruct a; try discriminate; destruct (drawn tx acts); try discriminate; done. }
    destruct (IH Hs) as (tr1 & a' & acts' & tr2 & -> & Hl & Hf).
    exists tr1, a', acts', (tr2 ++ [(a, acts)]). split_and!; [by rewrite <- app_assoc|done|].
    apply Forall_app. split; [done|]. by repeat constructor.
Qed.
Definition tx_no_screen : screen tx := Screen [] 0 None None false.
Definition tx_screen (file : o_text tx) (l : list (step tx)) : screen tx :=
  default tx_no_screen (tx_shown (rev (tx_run file l).2)).
Lemma tx_screen_shown (file : o_text tx) (l : list (step tx)) :
  (match tx_shown (rev (tx_run file l).2) with Some _ => true | None => false end) = true ->
  up_to_date tx (tx_run file l).2 (tx_screen file l).
Proof.
  intros H. apply tx_up_to_date. unfold tx_screen. by destruct (tx_shown _).
Qed.
(* Comparing in the virtual machine: reading the texts back, with their types, takes too long. *)
Ltac tx_eq := match goal with |- ?a = ?b => exact (eq_refl b <: a = b) end.
Ltac tx_check :=
  split_and!; first [apply tx_reached; tx_eq | apply tx_screen_shown; tx_eq | tx_eq].
Definition tx_after (s : term tx) (a : step tx) : term tx * list (act tx) :=
  match term_step tx s a with Stepped s' acts => (s', acts) | _ => (s, []) end.
Definition tx_next (s : term tx) (k : key) : term tx * list (act tx) := tx_after s (TGo (PollKey k)).
Lemma tx_stepped (s : term tx) (a : step tx) :
  (match term_step tx s a with Stepped _ _ => true | _ => false end) = true ->
  term_step tx s a = Stepped (tx_after s a).1 (tx_after s a).2.
Proof. unfold tx_after. by destruct (term_step tx s a). Qed.

(** ** C131: what is written is what was shown *)

Theorem C131_written_was_shown :
  forall (o : outside) (l : list (step o)) (s s' : term o) (tr : list (step o * list (act o))) (k : key)
         (acts : list (act o)) (sc : screen o) (t : o_text o),
  reached o l s tr -> ts_at s = AtKey -> up_to_date o tr sc -> sc_top sc <> Some PromptAutoAccept ->
  term_step o s (TGo (PollKey k)) = Stepped s' acts -> Wrote t ∈ acts ->
  confirms k /\ sc_error sc = false /\ sc_top sc = Some SelectEdit /\
  sc_preview sc = Some (PreviewDiff (w_file (ts_world s)) t) /\
  written o acts = [t] /\ w_file (ts_world s') = t /\
  exists id p e i j d d', current o s = Some (id, p) /\ offered o s p !! j = Some e /\
    sc_rows sc !! i = Some (RowProblem p) /\ sc_index sc = i + 1 + j /\
    highlighted o sc = Some (RowEdit e) /\
    o_parse o (w_file (ts_world s)) = Some d /\ o_apply o e (tu_comment (ts_ui s)) d = Some d' /\
    t = o_print o d' /\ id ∈ resolved o acts.
Proof.
  intros o l s s' tr k acts sc t Hr Hat Hup Htop Hs Hw.
  pose proof (screen_is o _ _ _ _ Hr Hup Hat) as ->. pose proof (reached_inv o _ _ _ Hr) as [Hh Hg].
  apply elem_written in Hw as Hw'.
  destruct (ts_error s) eqn:Ee.
  { destruct (error_key o _ _ _ _ Hat Ee Hs) as (_ & Hn & _). rewrite Hn in Hw'. by apply elem_of_nil in Hw'. }
  destruct (key_step o _ _ _ _ Hat Ee Hs) as (u & w & Hk).
  destruct (handle_key_cases o (ts_ui s) (ts_world s) k Hg) as [(Ht & Hc & Hap)|[(Ht & _)|Hharm]].
  - apply confirm_key_spec in Hc. cbn in Htop.
    destruct (apply_selected_spec o (ts_ui s) (ts_world s) _ Hh) as [[_ E]|[[E _]|E]].
    + exfalso. rewrite Hap, E in Hk. destruct Hk as [[[= <- <- <-] _]|[? _]]; [|done]. by apply elem_of_nil in Hw.
    + exfalso. rewrite Hap, E in Hk. destruct Hk as [[? _]|[[= <- <- <-] _]]; [done|]. by apply elem_of_nil in Hw.
    + destruct E as (e & id & p & d & d' & st & ev & ac & He & Hsel & Hfix & Hp & Ha & Hwr & E & Hop & Hst & _).
      rewrite Hap, E in Hk. destruct Hk as [[Hk ->]|[? _]]; [|done]. cbn in Hk. injection Hk as <- <- <-.
      destruct (stored_written o _ Hst) as [Hn _].
      assert (Ht' : t = o_print o d').
      { rewrite written_wrote, Hn in Hw'. by apply elem_of_list_singleton in Hw'. }
      assert (Hmode : SelectEdit ∈ tu_modes (ts_ui s)).
      { destruct (tu_modes (ts_ui s)); [done|]. injection Ht as ->. left. }
      assert (Hem : edit_mode (ts_ui s) = true) by by apply bool_decide_eq_true.
      split; [done|]. split; [done|]. split; [done|]. split.
      { cbn. unfold edit_preview. by rewrite Hem, He, Hp, Ha, Ht'. }
      split; [by rewrite written_wrote, Hn, Ht'|]. split; [done|].
      exists id, p, e, (tu_problem (ts_ui s)), (tu_edit (ts_ui s)), d, d'. split_and!; try done.
      * cbn. destruct (rows_lookup o (ts_ui s) (ts_world s) (store_open (w_store (ts_world s))) 0 (id, p) 0)
          as [H _]; [lia|by rewrite Nat.sub_0_r|]. by rewrite Nat.sub_0_r in H.
      * cbn. unfold row_index. rewrite Hem. lia.
      * by apply highlighted_edit.
      * unfold resolved. cbn. rewrite Hop. cbn. left.
  - by destruct Htop.
  - exfalso. destruct Hk as [[Hk _]|[Hk _]]; rewrite Hk in Hharm; destruct Hharm as (_ & -> & _);
      by apply elem_of_nil in Hw.
Qed.
Print Assumptions C131_written_was_shown.

(** Confirming the fix whose effect is shown writes what is shown, if the file can be written. *)
Theorem C131_confirmed_is_written :
  forall (o : outside) (l : list (step o)) (s : term o) (tr : list (step o * list (act o))) (k : key)
         (sc : screen o) (original updated : o_text o),
  reached o l s tr -> ts_at s = AtKey -> up_to_date o tr sc -> w_writable (ts_world s) = true ->
  confirms k -> sc_error sc = false -> sc_top sc = Some SelectEdit ->
  sc_preview sc = Some (PreviewDiff original updated) ->
  exists s' acts, term_step o s (TGo (PollKey k)) = Stepped s' acts /\ original = w_file (ts_world s) /\
    Wrote updated ∈ acts /\ ts_error s' = false.
Proof.
  intros o l s tr k sc a b Hr Hat Hup Hwr Hk He Ht Hp.
  pose proof (screen_is o _ _ _ _ Hr Hup Hat) as ->. pose proof (reached_inv o _ _ _ Hr) as [Hh Hg].
  cbn in He, Ht, Hp.
  assert (Hmode : SelectEdit ∈ tu_modes (ts_ui s)).
  { destruct (tu_modes (ts_ui s)); [done|]. injection Ht as ->. left. }
  unfold edit_preview in Hp. rewrite (proj2 (bool_decide_eq_true _) Hmode : edit_mode (ts_ui s) = true) in Hp.
  destruct (edits o (ts_ui s) (ts_world s) !! tu_edit (ts_ui s)) as [e|] eqn:Ee; [|done].
  destruct (o_parse o (w_file (ts_world s))) as [d|] eqn:Ep; [|done].
  destruct (o_apply o e (tu_comment (ts_ui s)) d) as [d'|] eqn:Ea; [|done]. injection Hp as <- <-.
  cbn [term_step]. rewrite Hat. unfold at_key. rewrite He.
  assert (Hap : handle_key o (ts_ui s) (ts_world s) k = after_apply o (apply_selected o (ts_ui s) (ts_world s))).
  { destruct (handle_key_cases o (ts_ui s) (ts_world s) k Hg) as [(_ & _ & H)|[(H & _)|Hharm]]; [done| |].
    - pose proof (eq_trans (eq_sym Ht) H). done.
    - unfold handle_key. destruct (tu_modes (ts_ui s)) as [|m ms]; [done|]. injection Ht as ->.
      destruct Hk as [->|[->| ->]]; cbn; by destruct (apply_selected o (ts_ui s) (ts_world s)). }
  rewrite Hap.
  destruct (apply_selected_spec o (ts_ui s) (ts_world s) _ Hh)
    as [[H _]|[[_ (e' & H & Hf)]|(e' & id & p & d0 & d0' & st & ev & ac & H & _ & _ & Hp & Ha & _ & E & _)]].
  - by rewrite Ee in H.
  - exfalso. rewrite Ee in H. injection H as <-. destruct Hf as [Hf|[(d0 & Hf & Hf')|Hf]].
    + by rewrite Ep in Hf.
    + rewrite Ep in Hf. injection Hf as <-. by rewrite Ea in Hf'.
    + by rewrite Hwr in Hf.
  - rewrite Ee in H. injection H as <-. rewrite Ep in Hp. injection Hp as <-. rewrite Ea in Ha. injection Ha as <-.
    rewrite E. cbn. eexists _, _. split_and!; [done|done|left|done].
Qed.
Print Assumptions C131_confirmed_is_written.

(** The second problem and the second of its fixes are selected. *)
Example C131_ex :
  let l := tx_start [tx_macro; tx_export] ++ tx_press [KDown; KChar "f"; KDown] ++ tx_wait in
  let s := (tx_run tx_empty l).1 in
  let sc := tx_screen tx_empty l in
  let t : o_text tx :=
    Some ([(lit "api", Table [(lit "net", Table [(lit "no_auto_detect", Array [Text (lit "foo")])])])], []) in
  reached tx l s (tx_run tx_empty l).2 /\ takes_key tx s /\ up_to_date tx (tx_run tx_empty l).2 sc /\
  w_writable (ts_world s) = true /\ sc_error sc = false /\ sc_top sc = Some SelectEdit /\
  sc_rows sc = [RowProblem tx_macro; RowProblem tx_export; RowEdit (ExtendApi (lit "net") (lit "foo::net"));
                RowEdit (NoDetectApi (lit "net") (lit "foo"))] /\
  highlighted tx sc = Some (RowEdit (NoDetectApi (lit "net") (lit "foo"))) /\
  sc_preview sc = Some (PreviewDiff tx_empty t) /\
  written tx (tx_next s KEnter).2 = [t] /\ ts_error (tx_next s KEnter).1 = false /\
  open_problems tx (tx_next s KEnter).1 = [(0, tx_macro)].
Proof. cbv zeta. unfold takes_key. tx_check. Qed.

(** ** C132: nothing is written unasked *)

Theorem C132_asked :
  forall (o : outside) (l : list (step o)) (s s' : term o) (tr : list (step o * list (act o))) (a : step o)
         (acts : list (act o)) (t : o_text o),
  reached o l s tr -> term_step o s a = Stepped s' acts -> Wrote t ∈ acts ->
  (exists k, a = TGo (PollKey k) /\ confirms k /\ takes_key o s /\ on_top o s = Some SelectEdit) \/
  agreed o (tr ++ [(a, acts)]) s'.
Proof.
  intros o l s s' tr a acts t Hr Hs Hw. apply elem_written in Hw.
  pose proof (reached_inv o _ _ _ Hr) as [Hh Hg]. pose proof (reached_memory o _ _ _ Hr) as (M1 & M2 & _).
  destruct (step_ui o _ _ _ _ Hs) as [[_ [Hn|Ha]]|(k & r & Hk & -> & Hr' & Hres)].
  - rewrite Hn in Hw. by apply elem_of_nil in Hw.
  - right. eapply agreed_snoc; [by apply M2|done].
  - destruct (handle_key_cases o (ts_ui s) (ts_world s) k Hg) as [(Ht & Hc & Hap)|[(Ht & -> & Hap)|Hharm]].
    + left. exists k. split_and!; [done|by apply confirm_key_spec|done|done].
    + right. exists l, s, tr, s', acts, []. split_and!; try done; try apply Hk. by exists [].
    + exfalso. rewrite Hr' in Hharm. destruct Hres as [E|E]; rewrite E in Hharm; destruct Hharm as (_ & -> & _);
        by apply elem_of_nil in Hw.
Qed.
Print Assumptions C132_asked.

(** Accepting was agreed to; a later submission leads to a change of the file without a key. *)
Example C132_ex :
  let l := tx_start [tx_export] ++ tx_press [KChar "a"; KEnter] ++ tx_wait
           ++ [TSubmit 1 [tx_macro]; TGo PollNothing; TGo PollNothing] in
  let s := (tx_run tx_empty l).1 in
  reached tx l s (tx_run tx_empty l).2 /\ ts_at s = AtEvent /\
  written tx (tx_after s (TGo PollNothing)).2 =
    [Some ([(lit "pkg", Table [(lit "foo", Table [(lit "allow_proc_macro", Flag true)])])], [])] /\
  received (stored tx (tx_after s (TGo PollNothing)).2) 1 = [Continue].
Proof. cbv zeta. tx_check. Qed.

(** ** C133: what becomes of the problems when a fix is confirmed *)

(** If the selected fix cannot be applied or the file not be written, an error is shown, and everything
    else stays as it was. *)
Theorem C133_failed :
  forall (o : outside) (l : list (step o)) (s : term o) (tr : list (step o * list (act o))) (k : key)
         (r : row),
  reached o l s tr -> takes_key o s -> confirms k -> on_top o s = Some SelectEdit ->
  items o s ≫= (.!! cursor o s) = Some r ->
  exists s' acts, term_step o s (TGo (PollKey k)) = Stepped s' acts /\
    (written o acts = [] ->
       ts_error s' = true /\ acts = [] /\ ts_world s' = ts_world s /\ ts_ui s' = ts_ui s).
Proof.
  intros o l s tr k r Hr [Hat He] Hk Ht Hrow. pose proof (reached_inv o _ _ _ Hr) as [Hh Hg].
  unfold items, cursor in Hrow. rewrite Ht in Hrow. cbn in Hrow. unfold on_top in Ht.
  assert (Hap : handle_key o (ts_ui s) (ts_world s) k = after_apply o (apply_selected o (ts_ui s) (ts_world s))).
  { unfold handle_key. destruct (tu_modes (ts_ui s)) as [|m ms]; [done|]. injection Ht as ->.
    destruct Hk as [->|[->| ->]]; cbn; by destruct (apply_selected o (ts_ui s) (ts_world s)). }
  cbn [term_step]. rewrite Hat. unfold at_key. rewrite He, Hap.
  destruct (apply_selected_spec o (ts_ui s) (ts_world s) _ Hh)
    as [[H _]|[[E _]|(e' & id & p & d0 & d0' & st & ev & ac & H & _ & _ & Hp & Ha & _ & E & _)]].
  - exfalso. unfold edits, selected in H. unfold current, open_problems in Hrow.
    destruct (store_open (w_store (ts_world s)) !! tu_problem (ts_ui s)) as [[id p]|]; [|done].
    rewrite list_lookup_fmap in Hrow. unfold fixes in H. unfold offered in Hrow. rewrite H in Hrow. done.
  - rewrite E. cbn. eexists _, _. by split.
  - rewrite E. cbn. eexists _, _. split; [done|]. done.
Qed.
Print Assumptions C133_failed.

(** [pkg] is not a table, so that the fix fails. *)
Example C133_failed_ex :
  let file : o_text tx := Some ([(lit "pkg", Text (lit "x"))], []) in
  let l := tx_start [tx_macro] ++ tx_press [KChar "f"] ++ tx_wait in
  let s := (tx_run file l).1 in
  reached tx l s (tx_run file l).2 /\ takes_key tx s /\ on_top tx s = Some SelectEdit /\
  items tx s ≫= (.!! cursor tx s) = Some (RowEdit (AllowProcMacro (lit "foo", All))) /\
  (tx_next s KEnter).2 = [] /\ ts_error (tx_next s KEnter).1 = true /\
  open_problems tx (tx_next s KEnter).1 = [(0, tx_macro)].
Proof. cbv zeta. unfold takes_key. tx_check. Qed.

(** If it succeeds, the problem is closed, together with exactly those that have a fix that would not
    change the new text any more. *)
Theorem C133_closed :
  forall (o : outside) (l : list (step o)) (s s' : term o) (tr : list (step o * list (act o))) (k : key)
         (acts : list (act o)) (t : o_text o) (id : nat) (p : problem),
  reached o l s tr -> takes_key o s -> on_top o s = Some SelectEdit -> current o s = Some (id, p) ->
  (forall path, p <> PMissingConfiguration path) ->
  term_step o s (TGo (PollKey k)) = Stepped s' acts -> Wrote t ∈ acts ->
  exists d, o_print o d = t /\
    forall id' q, (id', q) ∈ open_problems o s' <->
      (id', q) ∈ open_problems o s /\ id' <> id /\ ~ settled o s d q.
Proof.
  intros o l s s' tr k acts t id p Hr [Hat Hne] Ht Hcur Hmiss Hs Hw.
  pose proof (reached_inv o _ _ _ Hr) as [Hh Hg].
  destruct (key_step o _ _ _ _ Hat Hne Hs) as (u & w & Hk).
  destruct (handle_key_cases o (ts_ui s) (ts_world s) k Hg) as [(_ & Hc & Hap)|[(Ht' & _)|Hharm]].
  - destruct (apply_selected_spec o (ts_ui s) (ts_world s) _ Hh) as [[_ E]|[[E _]|E]].
    + exfalso. rewrite Hap, E in Hk. destruct Hk as [[[= <- <- <-] _]|[? _]]; [|done]. by apply elem_of_nil in Hw.
    + exfalso. rewrite Hap, E in Hk. destruct Hk as [[? _]|[[= <- <- <-] _]]; [done|]. by apply elem_of_nil in Hw.
    + destruct E as (e & id0 & p0 & d & d' & st & ev & ac & He & Hsel & Hfix & Hp & Ha & Hwr & E & Hop & Hst & Hh' &
        s1 & Hs1 & _ & Hopen).
      pose proof (eq_trans (eq_sym Hcur) Hsel) as Eq. injection Eq as <- <-.
      rewrite Hap, E in Hk. destruct Hk as [[Hk ->]|[? _]]; [|done]. cbn in Hk. injection Hk as <- <- <-.
      exists d'. split.
      { apply elem_written in Hw. destruct (stored_written o _ Hst) as [Hn _]. rewrite written_wrote, Hn in Hw.
        by apply elem_of_list_singleton in Hw. }
      assert (Hrep : replacement_problems o e = []).
      { assert (Hne' : e <> CreateCustomConfig /\ e <> CreateRecommendedConfig).
        { split; intros ->; apply elem_of_list_lookup_2 in Hfix;
            (destruct (missing_only o p (w_config (ts_world s)) _ Hfix) as [path Hpath]; [by auto|]);
            by destruct (Hmiss path). }
        destruct Hne' as [N1 N2]. by destruct e. }
      rewrite Hrep in Hs1. pose proof (resolve_problems _ _ _ _ Hs1) as Hps.
      intros id' q. specialize (Hopen id' q).
      assert (Hb : is_open s1 id' q <-> is_open (w_store (ts_world s)) id' q /\ id' <> id).
      { rewrite !is_open_iff, Hps. destruct (decide (id' = id)) as [->|Hd].
        - rewrite list_lookup_insert_Some. split; [|tauto]. intros [(_ & ? & _)|(? & _)]; done.
        - rewrite list_lookup_insert_ne by done. tauto. }
      transitivity (is_open st id' q); [done|]. rewrite Hopen, Hb, <- changes_settled, not_true_iff_false.
      unfold open_problems, is_open. tauto.
  - exfalso. pose proof (eq_trans (eq_sym Ht) Ht'). done.
  - exfalso. destruct Hk as [[Hk _]|[Hk _]]; rewrite Hk in Hharm; destruct Hharm as (_ & -> & _);
      by apply elem_of_nil in Hw.
Qed.
Print Assumptions C133_closed.

(** Allowing an API for the whole package also closes the problem with its build script. *)
Example C133_closed_ex :
  let build := PDisallowedApiUsage (ApiUsages ed_pkg Build (lit "fs") []) in
  let l := tx_start [build; tx_usage 0; tx_export] ++ tx_press [KDown; KChar "f"] ++ tx_wait in
  let s := (tx_run tx_empty l).1 in
  reached tx l s (tx_run tx_empty l).2 /\ takes_key tx s /\ on_top tx s = Some SelectEdit /\
  current tx s = Some (1, tx_usage 0) /\
  written tx (tx_next s KEnter).2 =
    [Some ([(lit "pkg", Table [(lit "foo", Table [(lit "allow_apis", Array [Text (lit "fs")])])])], [])] /\
  open_problems tx s = [(0, build); (1, tx_usage 0); (2, tx_export)] /\
  open_problems tx (tx_next s KEnter).1 = [(2, tx_export)].
Proof. cbv zeta. unfold takes_key. tx_check. Qed.

(** ** C134: accepting all fixes that have no alternative *)

Theorem C134_accepted :
  forall (o : outside) (l : list (step o)) (s : term o) (tr : list (step o * list (act o))) (a : step o),
  reached o l s tr ->
  (takes_key o s /\ on_top o s = Some PromptAutoAccept /\ a = TGo (PollKey KEnter) \/
   ts_at s = AtEvent /\ ts_events s <> 0 /\ tu_accept (ts_ui s) = true /\ exists p, a = TGo p) ->
  exists s' acts, term_step o s a = Stepped s' acts /\ tu_accept (ts_ui s') = true /\
    ((exists d d', o_parse o (w_file (ts_world s)) = Some d /\ applied o (map snd (singles o s)) d = Some d' /\
        written o acts = [o_print o d'] /\ w_file (ts_world s') = o_print o d' /\
        resolved o acts = (singles o s).*1 /\ open_problems o s' = others o s) \/
     (written o acts = [] /\ w_file (ts_world s') = w_file (ts_world s) /\ ts_error s' = true /\
      (o_parse o (w_file (ts_world s)) = None \/
       (exists d, o_parse o (w_file (ts_world s)) = Some d /\ applied o (map snd (singles o s)) d = None) \/
       w_writable (ts_world s) = false))).
Proof.
  intros o l s tr a Hr Ha. pose proof (reached_inv o _ _ _ Hr) as [Hh Hg].
  destruct Ha as [([Hat He] & Ht & ->)|(Hat & Hev & Hacc & p & ->)]; cbn [term_step]; rewrite Hat.
  - unfold at_key. rewrite He.
    assert (Hap : handle_key o (ts_ui s) (ts_world s) KEnter =
      match accept_all_single_edits o (set_accept (ts_ui s)) (ts_world s) with
      | Handled u' w' acts => Handled (pop u') w' acts
      | r => r
      end).
    { unfold on_top in Ht. unfold handle_key. destruct (tu_modes (ts_ui s)) as [|m ms]; [done|].
      injection Ht as ->. done. }
    rewrite Hap. clear Hap.
    destruct (accept_all_spec o (set_accept (ts_ui s)) (ts_world s) _ Hh)
      as (st & acts & Hh' & Hst & _ & _ & [[-> Hf]|(d & d' & Hp & Hwr & Happ & Hres & Hop & ->)]);
      destruct (stored_written o _ Hst) as [Hn _].
    + eexists _, _. split; [done|]. split; [done|]. right. done.
    + eexists _, _. split; [done|]. split; [done|]. left. exists d, d'. split_and!; try done.
      * by rewrite written_app, Hn.
      * unfold resolved. rewrite stored_app. cbn. by rewrite app_nil_r.
  - unfold at_event. destruct (ts_events s) as [|n]; [done|]. unfold problems_added. rewrite Hacc.
    destruct (accept_all_spec o (ts_ui s) (ts_world s) _ Hh)
      as (st & acts & Hh' & Hst & _ & _ & [[-> Hf]|(d & d' & Hp & Hwr & Happ & Hres & Hop & ->)]);
      destruct (stored_written o _ Hst) as [Hn _].
    + eexists _, _. split; [done|]. split; [done|]. right. done.
    + eexists _, _. split; [done|]. split; [done|]. left. exists d, d'. split_and!; try done.
      * by rewrite written_app, Hn.
      * unfold resolved. rewrite stored_app. cbn. by rewrite app_nil_r.
Qed.
Print Assumptions C134_accepted.

Example C134_ex :
  let l := tx_start [tx_macro; tx_export; tx_unsafe] ++ tx_press [KChar "a"] ++ tx_wait in
  let s := (tx_run tx_empty l).1 in
  reached tx l s (tx_run tx_empty l).2 /\ takes_key tx s /\ on_top tx s = Some PromptAutoAccept /\
  singles tx s = [(0, AllowProcMacro (lit "foo", All)); (2, AllowUnsafe (lit "bar", All))] /\
  written tx (tx_next s KEnter).2 =
    [Some ([(lit "pkg", Table [(lit "foo", Table [(lit "allow_proc_macro", Flag true)]);
                               (lit "bar", Table [(lit "allow_unsafe", Flag true)])])], [])] /\
  resolved tx (tx_next s KEnter).2 = [0; 2] /\
  open_problems tx (tx_next s KEnter).1 = [(1, tx_export)].
Proof. cbv zeta. unfold takes_key. tx_check. Qed.

(** ** C135: quitting *)

Lemma quit_stays (o : outside) (tr : list (step o * list (act o))) : forall (s s' : term o),
  tu_modes (ts_ui s) = [] -> tu_accept (ts_ui s) = false -> continues o s tr s' ->
  tu_modes (ts_ui s') = [] /\ tu_accept (ts_ui s') = false /\ written o (acts_of o tr) = [] /\
  Forall (fun e => forall id ps, se_op e <> SReplace id ps) (stored o (acts_of o tr)).
Proof.
  induction tr as [|[a acts] tr IH]; intros s s' Hm Ha [l Hr]; pose proof (run_steps o _ _ _ _ Hr) as <-; cbn in Hr.
  - injection Hr as <-. split_and!; try done. apply Forall_nil_2.
  - destruct (term_step o s a) as [s1 acts1| | |] eqn:Es; [|done..].
    destruct (term_run o s1 (map fst tr)) as [[s2 tr2]|] eqn:Er; [|done]. injection Hr as -> -> ->.
    assert (Hone : tu_modes (ts_ui s1) = [] /\ tu_accept (ts_ui s1) = false /\ written o acts = [] /\
      Forall (fun e => forall id ps, se_op e <> SReplace id ps) (stored o acts)).
    { destruct (step_ui o _ _ _ _ Es) as [[Hu [Hw|Hw]]|(k & r & Hk & -> & Hh & Hres)].
      - rewrite Hu. split_and!; try done. clear IH Er.
        destruct a as [c ps|c|t wr| |p]; cbn [term_step] in Es.
        + destruct ps as [|p ps]; [done|].
          destruct (store_step (w_store (ts_world s)) (SAdd c (p :: ps))) as [[st e]|] eqn:E; [|done].
          injection Es as <- <-. cbn. apply Forall_singleton. intros id ps'.
          by rewrite (step_op _ _ _ _ E).
        + injection Es as <- <-. apply Forall_nil_2.
        + injection Es as <- <-. apply Forall_nil_2.
        + injection Es as <- <-. apply Forall_nil_2.
        + destruct (ts_at s) eqn:Eat; [| | | |done].
          * destruct (ts_events s); [destruct (ts_shutdown s); [|done]|]; injection Es as <- <-; apply Forall_nil_2.
          * unfold at_top in Es. rewrite Hm in Es.
            destruct (store_abort (w_store (ts_world s))) as [st sent]. injection Es as _ <-.
            destruct (ts_redraw s); cbn; by apply Forall_singleton.
          * unfold at_event in Es. destruct (ts_events s) as [|n].
            { destruct (ts_shutdown s); injection Es as <- <-; apply Forall_nil_2. }
            unfold problems_added in Es. rewrite Ha in Es. injection Es as <- <-. apply Forall_nil_2.
          * unfold at_key in Es. destruct p as [| |k]; [injection Es as <- <-; apply Forall_nil_2..|].
            destruct (ts_error s).
            -- destruct (is_char ["q"%char] k); [|injection Es as <- <-; apply Forall_nil_2].
               destruct (store_abort (w_store (ts_world s))) as [st sent]. injection Es as _ <-.
               by apply Forall_singleton.
            -- unfold handle_key in Es. rewrite Hm in Es. injection Es as <- <-. apply Forall_nil_2.
      - by rewrite Ha in Hw.
      - unfold handle_key in Hh. rewrite Hm in Hh. subst r. destruct Hres as [H|H]; [|done].
        injection H as <- _ <-. split_and!; try done. apply Forall_nil_2. }
    destruct Hone as (H1 & H2 & H3 & H4).
    destruct (IH s1 s' H1 H2) as (I1 & I2 & I3 & I4); [by exists (map fst tr)|].
    split; [done|]. split; [done|].
    change (acts_of o ((a, acts) :: tr)) with (acts ++ acts_of o tr).
    rewrite written_app, stored_app, H3, I3, Forall_app. done.
Qed.

Lemma event_step (s : store) (es : list store_event) (e : store_event) :
  history s es -> e ∈ es -> exists sa sb, store_step sa (se_op e) = Some (sb, e).
Proof.
  intros [ops H]. revert H. generalize store_init. revert es.
  induction ops as [|op ops IH]; intros es s0; cbn.
  - intros [= _ <-] ?%elem_of_nil. done.
  - destruct (store_step s0 op) as [[sb x]|] eqn:E; [|done].
    destruct (store_run sb ops) as [[sc es']|] eqn:E'; [|done]. intros Heq Hin.
    injection Heq as -> <-. apply elem_of_cons in Hin as [->|Hin].
    + exists s0, sb. by rewrite (step_op _ _ _ _ E).
    + eapply IH; [exact E'|done].
Qed.

(** Quitting changes nothing, and after that nothing is written and nobody is told to go on any more. *)
Theorem C135_nothing :
  forall (o : outside) (l : list (step o)) (s s1 s2 : term o) (tr tr2 : list (step o * list (act o)))
         (acts1 : list (act o)),
  reached o l s tr -> takes_key o s -> (forall i, on_top o s <> Some (SetComment i)) ->
  tu_accept (ts_ui s) = false ->
  term_step o s (TGo (PollKey (KChar "q"))) = Stepped s1 acts1 -> continues o s1 tr2 s2 ->
  acts1 = [] /\ written o (acts_of o tr2) = [] /\
  (forall c, Continue ∉ received (stored o (acts_of o tr2)) c).
Proof.
  intros o l s s1 s2 tr tr2 acts1 Hr [Hat He] Ht Hacc Hs Hc.
  assert (H1 : tu_modes (ts_ui s1) = [] /\ tu_accept (ts_ui s1) = false /\ acts1 = []).
  { destruct (key_step o _ _ _ _ Hat He Hs) as (u & w & Hk). unfold handle_key in Hk. unfold on_top in Ht.
    destruct (tu_modes (ts_ui s)) as [|m ms] eqn:Em.
    - destruct Hk as [[[= <- <- <-] ->]|[? _]]; [|done]. cbn. done.
    - destruct m as [| | |i| | | | |]; try (by destruct (Ht i));
        cbn in Hk; (destruct Hk as [[[= <- <- <-] ->]|[? _]]; [|done]); cbn; done. }
  destruct H1 as (H1 & H2 & ->). split; [done|].
  destruct (quit_stays o tr2 s1 s2 H1 H2 Hc) as (_ & _ & Hw & Hst). split; [done|].
  intros c Hin. apply elem_received in Hin as (e & Hein & Hsent).
  pose proof (reached_snoc o _ _ _ _ _ _ Hr Hs) as Hr1. destruct Hc as [l2 Hl2].
  pose proof (reached_app o _ _ _ _ _ _ Hr1 Hl2) as Hr2. apply reached_inv in Hr2 as [Hh _].
  rewrite acts_of_app, stored_app in Hh.
  rewrite Forall_forall in Hst. specialize (Hst e Hein).
  assert (exists sa sb, store_step sa (se_op e) = Some (sb, e)) as (sa & sb & Hstep).
  { eapply event_step; [exact Hh|]. apply elem_of_app. by right. }
  destruct (se_op e) as [c' ps|id ps|] eqn:Eop; [| |].
  - cbn in Hstep. destruct (store_add sa c' ps) as [[st ids]|]; [|done]. injection Hstep as _ <-.
    by apply elem_of_nil in Hsent.
  - by destruct (Hst id ps).
  - cbn in Hstep. injection Hstep as _ <-. cbn in Hsent.
    apply elem_of_list_In, in_concat in Hsent as (x & Hx & Hin). apply in_map_iff in Hx as (n & <- & _).
    destruct (ne_sender n); [|done]. destruct Hin as [[= _]|[]].
Qed.
Print Assumptions C135_nothing.

Lemma clients_elem (es : list store_event) (c : nat) :
  c ∈ clients es -> exists es1 e es2 ps, es = es1 ++ e :: es2 /\ se_op e = SAdd c ps.
Proof.
  intros (e & Hin & H)%elem_of_list_omap. apply elem_of_list_split in Hin as (es1 & es2 & ->).
  destruct (se_op e) as [c' ps| |] eqn:E; [|done..]. injection H as ->. eauto 10.
Qed.

(** The interface then soon stops cargo, and everybody who waits is told to give up. *)
Theorem C135_everybody :
  forall (o : outside) (l : list (step o)) (s s1 s2 s3 : term o) (tr tr2 : list (step o * list (act o)))
         (acts1 acts3 : list (act o)) (p : polled) (c : nat),
  reached o l s tr -> takes_key o s -> (forall i, on_top o s <> Some (SetComment i)) ->
  tu_accept (ts_ui s) = false ->
  term_step o s (TGo (PollKey (KChar "q"))) = Stepped s1 acts1 ->
  (exists s1' acts1', term_step o s1 (TGo p) = Stepped s1' acts1' /\ StoppedCargo ∈ acts1') /\
  (continues o s1 tr2 s2 -> ts_at s2 = AtTop -> term_step o s2 (TGo p) = Stepped s3 acts3 ->
   let es := stored o (acts_of o (tr ++ tr2)) in
   let es' := es ++ stored o acts3 in
   NoDup (clients es') -> c ∈ clients es ->
   (received es c = [] /\ received es' c = [GiveUp]) \/ received es' c = received es c).
Proof.
  intros o l s s1 s2 s3 tr tr2 acts1 acts3 p c Hr [Hat He] Ht Hacc Hs.
  assert (H1 : tu_modes (ts_ui s1) = [] /\ tu_accept (ts_ui s1) = false /\ acts1 = [] /\ ts_at s1 = AtTop).
  { destruct (key_step o _ _ _ _ Hat He Hs) as (u & w & Hk). unfold handle_key in Hk. unfold on_top in Ht.
    destruct (tu_modes (ts_ui s)) as [|m ms] eqn:Em.
    - destruct Hk as [[[= <- <- <-] ->]|[? _]]; [|done]. cbn. done.
    - destruct m as [| | |i| | | | |]; try (by destruct (Ht i));
        cbn in Hk; (destruct Hk as [[[= <- <- <-] ->]|[? _]]; [|done]); cbn; done. }
  destruct H1 as (H1 & H2 & -> & Hat1). split.
  { cbn [term_step]. rewrite Hat1. unfold at_top. rewrite H1.
    destruct (store_abort (w_store (ts_world s1))) as [st sent]. eexists _, _. split; [done|]. cbn. left. }
  intros Hc Hat2 Hs3. cbv zeta. intros Hnd Hin.
  destruct (quit_stays o tr2 s1 s2 H1 H2 Hc) as (Hm2 & _).
  pose proof (reached_snoc o _ _ _ _ _ _ Hr Hs) as Hr1. destruct Hc as [l2 Hl2].
  pose proof (reached_app o _ _ _ _ _ _ Hr1 Hl2) as Hr2.
  pose proof (reached_snoc o _ _ _ _ _ _ Hr2 Hs3) as Hr3.
  apply reached_inv in Hr2 as [Hh2 _]. apply reached_inv in Hr3 as [Hh3 _].
  assert (Eq : acts_of o (tr ++ [(TGo (PollKey (KChar "q")), [])]) = acts_of o tr).
  { rewrite acts_of_app. apply app_nil_r. }
  rewrite acts_of_app, acts_of_one, stored_app in Hh3.
  rewrite acts_of_app, stored_app, Eq in Hh2, Hh3.
  rewrite acts_of_app, stored_app in Hin, Hnd |- *.
  set (es := stored o (acts_of o tr) ++ stored o (acts_of o tr2)) in *.
  cbn [term_step] in Hs3. rewrite Hat2 in Hs3. unfold at_top in Hs3. rewrite Hm2 in Hs3.
  destruct (store_abort (w_store (ts_world s2))) as [st sent] eqn:Ea. injection Hs3 as _ Hacts3.
  assert (Hst : stored o acts3 = [StoreEvent SAbort [] sent]) by (rewrite <- Hacts3; by destruct (ts_redraw s2)).
  rewrite Hst in Hh3, Hnd |- *.
  assert (Hnd' : NoDup (clients es)).
  { unfold clients in Hnd. rewrite omap_app in Hnd. by apply NoDup_app in Hnd as [? _]. }
  apply clients_elem in Hin as (es1 & e & es2 & ps & Ees & Hop).
  assert (Ees' : es ++ [StoreEvent SAbort [] sent] = es1 ++ e :: (es2 ++ [StoreEvent SAbort [] sent])).
  { by rewrite Ees, <- app_assoc. }
  destruct (client_inv_holds _ _ Hh3 Hnd _ _ _ _ _ Ees' Hop) as [(_ & _ & Hno)|[(_ & E & _)|(_ & E & _)]].
  - exfalso. apply (Hno (StoreEvent SAbort [] sent)); [|done]. apply elem_of_app. right. left.
  - destruct (client_inv_holds _ _ Hh2 Hnd' _ _ _ _ _ Ees Hop) as [(_ & E' & _)|[(_ & E' & _)|(_ & E' & _)]].
    + exfalso. unfold received in E, E'. rewrite map_app, concat_app, omap_app, E' in E. cbn in E.
      assert (Hx : Continue ∈ omap (fun m : message => if bool_decide (m.1 = c) then Some m.2 else None) (sent ++ [])).
      { rewrite E. left. }
      rewrite app_nil_r in Hx. apply elem_of_list_omap in Hx as ([c' o'] & Hin & Hx). cbn in Hx.
      case_bool_decide; [|done]. injection Hx as ->. injection Ea as _ <-.
      apply elem_of_list_In, in_concat in Hin as (x & Hx & Hin). apply in_map_iff in Hx as (n & <- & _).
      destruct (ne_sender n); [|done]. destruct Hin as [[= _]|[]].
    + right. by rewrite E, E'.
    + exfalso. unfold received in E, E'. rewrite map_app, concat_app, omap_app, E' in E. done.
  - destruct (client_inv_holds _ _ Hh2 Hnd' _ _ _ _ _ Ees Hop) as [(_ & E' & _)|[(_ & E' & _)|(_ & E' & _)]].
    + by left.
    + exfalso. unfold received in E, E'. rewrite map_app, concat_app, omap_app, E' in E. done.
    + right. by rewrite E, E'.
Qed.
Print Assumptions C135_everybody.

(** Client 0 was answered before; client 1 waits; client 2 comes when the interface has quit. *)
Example C135_ex :
  let l := tx_start [tx_macro] ++ tx_press [KChar "f"; KEnter] ++ tx_wait ++ [TSubmit 1 [tx_export]]
           ++ tx_press [KOther 0] ++ tx_wait in
  let l2 := [TSubmit 2 [tx_unsafe]] in
  let quit := [TGo (PollKey (KChar "q"))] in
  let s := (tx_run tx_empty l).1 in
  let s2 := (tx_run tx_empty (l ++ quit ++ l2)).1 in
  let es := stored tx (acts_of tx (tx_run tx_empty (l ++ quit ++ l2)).2) in
  reached tx l s (tx_run tx_empty l).2 /\ takes_key tx s /\ on_top tx s = Some SelectProblem /\
  tu_accept (ts_ui s) = false /\
  ts_at (tx_run tx_empty (l ++ quit)).1 = AtTop /\ ts_at s2 = AtTop /\
  let es' := es ++ stored tx (tx_after s2 (TGo PollNothing)).2 in
  clients es' = [0; 1; 2] /\
  received es 0 = [Continue] /\ received es' 0 = [Continue] /\
  received es 1 = [] /\ received es' 1 = [GiveUp] /\ received es 2 = [] /\ received es' 2 = [GiveUp].
Proof. cbv zeta. unfold takes_key. tx_check. Qed.

(** ** C136: no crash while there is something to select *)

Theorem C136_crash :
  forall (o : outside) (l : list (step o)) (s : term o) (tr : list (step o * list (act o))) (a : step o),
  reached o l s tr ->
  term_step o s a <> Stuck /\
  (term_step o s a = Crashed ->
     takes_key o s /\ items o s = Some [] /\ (a = TGo (PollKey KUp) \/ a = TGo (PollKey KDown))).
Proof.
  intros o l s tr a Hr. pose proof (reached_inv o _ _ _ Hr) as Hi. pose proof (step_inv o s tr a Hi) as H.
  destruct (term_step o s a) as [s' acts| | |]; [done..| |done]. split; [done|]. intros _.
  destruct H as (k & -> & Hat & He & Hk & Hl). split; [done|]. split.
  - unfold list_at in Hl. unfold items, on_top, current, open_problems.
    destruct (head (tu_modes (ts_ui s))) as [m|]; [|done].
    destruct m; try done; injection Hl as Hl.
    + apply nil_length_inv in Hl. by rewrite Hl.
    + unfold edits, selected in Hl. destruct (store_open (w_store (ts_world s)) !! tu_problem (ts_ui s)) as [[id p]|];
        [|done]. apply nil_length_inv in Hl. unfold fixes in Hl. unfold offered. by rewrite Hl.
    + unfold shown_usages, selected in Hl.
      destruct (store_open (w_store (ts_world s)) !! tu_problem (ts_ui s)) as [[id p]|];
        [|done]. apply nil_length_inv in Hl. by rewrite Hl.
    + apply nil_length_inv in Hl. by rewrite Hl.
  - destruct k; try done; auto.
Qed.
Print Assumptions C136_crash.

(** An arrow key among two problems is harmless; the only crash is in C143. *)
Example C136_ex :
  let l := tx_start [tx_macro; tx_export] ++ tx_wait in
  let s := (tx_run tx_empty l).1 in
  reached tx l s (tx_run tx_empty l).2 /\ takes_key tx s /\
  items tx s = Some [RowProblem tx_macro; RowProblem tx_export] /\
  cursor tx (tx_next s KUp).1 = 1.
Proof. cbv zeta. unfold takes_key. tx_check. Qed.

(** ** C137: comments *)

(** The comment that is attached to a fix was entered by the user, after the last fix was applied. The
    earlier comments that are offered are all different and were all entered by the user. *)
Theorem C137_entered :
  forall (o : outside) (l : list (step o)) (s : term o) (tr : list (step o * list (act o))),
  reached o l s tr ->
  (forall c, tu_comment (ts_ui s) = Some c ->
     entered o tr s c (fun tr1 => tu_accept (ts_ui s) = true \/ written o (acts_of o tr1) = [])) /\
  NoDup (tu_previous (ts_ui s)) /\
  (forall c, c ∈ tu_previous (ts_ui s) -> entered o tr s c (fun _ => True)).
Proof.
  intros o l s tr Hr. destruct (reached_memory o _ _ _ Hr) as (_ & _ & M3 & M4 & M5). done.
Qed.
Print Assumptions C137_entered.

(** A comment is typed, confirmed, and attached to the fix. *)
Example C137_ex :
  let l := tx_start [tx_macro; tx_export]
           ++ tx_press ([KChar "f"; KChar "c"] ++ tx_chars "why" ++ [KEnter]) ++ tx_wait in
  let s := (tx_run tx_empty l).1 in
  reached tx l s (tx_run tx_empty l).2 /\ takes_key tx s /\ on_top tx s = Some SelectEdit /\
  tu_comment (ts_ui s) = Some (lit "why") /\ tu_previous (ts_ui s) = [lit "why"] /\
  written tx (tx_next s KEnter).2 =
    [Some ([(lit "pkg", Table [(lit "foo", Table [(lit "allow_proc_macro", Flag true)])])], [lit "why"])] /\
  tu_comment (ts_ui (tx_next s KEnter).1) = None.
Proof. cbv zeta. unfold takes_key. tx_check. Qed.

(** ** C138: the selection stays *)

Theorem C138_stays :
  forall (o : outside) (l : list (step o)) (s s' : term o) (tr : list (step o * list (act o))) (a : step o)
         (acts : list (act o)) (id : nat) (p : problem),
  reached o l s tr -> tu_accept (ts_ui s) = false -> term_step o s a = Stepped s' acts ->
  (forall k, a = TGo (PollKey k) -> ~ takes_key o s) -> current o s = Some (id, p) ->
  on_top o s' = on_top o s /\ cursor o s' = cursor o s /\
  exists p', current o s' = Some (id, p') /\ same_problem p p'.
Proof.
  intros o l s s' tr a acts id p Hr Hacc Hs Hnk Hcur. pose proof (reached_inv o _ _ _ Hr) as [Hh Hg].
  destruct (step_ui o _ _ _ _ Hs) as [[Hu _]|(k & r & Hk & -> & _)]; [|by destruct (Hnk k)].
  unfold on_top, cursor, on_top, current, open_problems. rewrite Hu. split; [done|]. split; [done|].
  unfold current, open_problems in Hcur.
  assert (Hsame : st_problems (w_store (ts_world s')) = st_problems (w_store (ts_world s)) ->
    exists p', store_open (w_store (ts_world s')) !! tu_problem (ts_ui s) = Some (id, p') /\ same_problem p p').
  { intros E. exists p. split; [|constructor]. unfold store_open in *. by rewrite E. }
  destruct a as [c ps|c|t wr| |q]; cbn [term_step] in Hs.
  - destruct ps as [|q ps]; [done|].
    destruct (store_step (w_store (ts_world s)) (SAdd c (q :: ps))) as [[st e]|] eqn:E; [|done].
    injection Hs as <- _. cbn. by eapply open_add.
  - injection Hs as <- <-. by apply Hsame.
  - injection Hs as <- <-. by apply Hsame.
  - injection Hs as <- <-. by apply Hsame.
  - destruct (ts_at s) eqn:Eat; [| | | |done].
    + destruct (ts_events s); [destruct (ts_shutdown s); [|done]|]; injection Hs as <- <-; by apply Hsame.
    + unfold at_top in Hs. destruct (tu_modes (ts_ui s)).
      * destruct (store_abort (w_store (ts_world s))) as [st sent] eqn:Ea. injection Hs as <- _.
        apply Hsame. cbn. by injection Ea as <- _.
      * injection Hs as <- _. by apply Hsame.
    + unfold at_event in Hs. destruct (ts_events s) as [|n].
      { destruct (ts_shutdown s); injection Hs as <- <-; by apply Hsame. }
      unfold problems_added in Hs. rewrite Hacc in Hs. injection Hs as <- <-. by apply Hsame.
    + unfold at_key in Hs. destruct q as [| |k]; [injection Hs as <- <-; by apply Hsame..|].
      destruct (ts_error s) eqn:Ee; [|by destruct (Hnk k)].
      destruct (is_char ["q"%char] k); [|injection Hs as <- <-; by apply Hsame].
      destruct (store_abort (w_store (ts_world s))) as [st sent] eqn:Ea. injection Hs as <- _.
      apply Hsame. cbn. by injection Ea as <- _.
Qed.
Print Assumptions C138_stays.

(** Another usage of the API is added to the selected problem, and another problem to the list. *)
Example C138_ex :
  let l := tx_start [tx_macro; tx_usage 0] ++ tx_press [KDown; KChar "f"; KDown] ++ tx_wait in
  let s := (tx_run tx_empty l).1 in
  reached tx l s (tx_run tx_empty l).2 /\ tu_accept (ts_ui s) = false /\
  current tx s = Some (1, tx_usage 0) /\
  let s' := (tx_after s (TSubmit 1 [tx_usage 1; tx_export])).1 in
  current tx s' =
    Some (1, PDisallowedApiUsage (ApiUsages ed_pkg All (lit "fs")
               [ApiUsage [lit "std"; lit "fs"] None 0; ApiUsage [lit "std"; lit "fs"] None 1])) /\
  map fst (open_problems tx s') = [0; 1; 2] /\ on_top tx s' = Some SelectEdit /\ cursor tx s' = 1.
Proof. cbv zeta. tx_check. Qed.

(** ** C139: the arrow keys and the highlighted line *)

(** The line that the keys act on is highlighted. *)
Theorem C139_highlighted :
  forall (o : outside) (l : list (step o)) (s : term o) (tr : list (step o * list (act o))) (sc : screen o)
         (r : row),
  reached o l s tr -> up_to_date o tr sc -> takes_key o s ->
  items o s ≫= (.!! cursor o s) = Some r ->
  (forall f, on_top o s = Some (Backtrace f) ->
     exists id p, current o s = Some (id, p) /\ tu_usage (ts_ui s) < length (o_usages o p)) ->
  highlighted o sc = Some r.
Proof.
  intros o l s tr sc r Hr Hup [Hat He] Hrow Hbt.
  pose proof (screen_is o _ _ _ _ Hr Hup Hat) as ->. pose proof (reached_memory o _ _ _ Hr) as (M1 & _).
  unfold items, cursor, on_top, current, open_problems in *.
  remember (tu_modes (ts_ui s)) as ms eqn:E in M1. destruct M1 as [|ms Hb|ms Hm Hne];
    [by rewrite <- E in Hrow| |by rewrite <- E in Hrow].
  destruct Hb as [| | |f|i| | |]; rewrite <- E in Hrow, Hbt; cbn in Hrow; try done.
  - rewrite list_lookup_fmap in Hrow.
    destruct (store_open (w_store (ts_world s)) !! tu_problem (ts_ui s)) as [[id p]|] eqn:Es; [|done].
    injection Hrow as <-. apply (highlighted_problem o _ _ _ (id, p)); [| |done];
      rewrite <- E; rewrite elem_of_list_singleton; done.
  - destruct (store_open (w_store (ts_world s)) !! tu_problem (ts_ui s)) as [[id p]|] eqn:Es; [|done].
    rewrite list_lookup_fmap in Hrow. destruct (offered o s p !! tu_edit (ts_ui s)) as [e|] eqn:Eo; [|done].
    injection Hrow as <-. apply highlighted_edit; [rewrite <- E; left|].
    unfold edits, selected. by rewrite Es.
  - destruct (store_open (w_store (ts_world s)) !! tu_problem (ts_ui s)) as [[id p]|] eqn:Es; [|done].
    rewrite list_lookup_fmap in Hrow. destruct (o_usages o p !! tu_usage (ts_ui s)) as [x|] eqn:Eo; [|done].
    injection Hrow as <-. apply highlighted_usage; [| | |].
    + rewrite <- E. rewrite elem_of_cons, elem_of_list_singleton. by intros [?|?].
    + rewrite <- E. left.
    + unfold frames_shown. by rewrite <- E.
    + unfold shown_usages, selected. by rewrite Es.
  - rewrite list_lookup_fmap in Hrow. destruct (f !! tu_frame (ts_ui s)) as [y|] eqn:Ef; [|done].
    injection Hrow as <-. destruct (Hbt f eq_refl) as (id & p & Es & Hlt).
    destruct (lookup_lt_is_Some_2 _ _ Hlt) as [x Hx].
    apply (highlighted_frame o _ _ _ f x y).
    + rewrite <- E. rewrite !elem_of_cons, elem_of_nil. naive_solver.
    + rewrite <- E. right. left.
    + unfold frames_shown. by rewrite <- E.
    + unfold shown_usages, selected. by rewrite Es.
    + done.
Qed.
Print Assumptions C139_highlighted.

(** An arrow key moves to the next or previous element of the list, from one end to the other; nothing
    else changes. *)
Theorem C139_arrows :
  forall (o : outside) (l : list (step o)) (s : term o) (tr : list (step o * list (act o))) (k : key)
         (rows : list row),
  reached o l s tr -> takes_key o s -> k = KUp \/ k = KDown -> items o s = Some rows -> rows <> [] ->
  exists s', term_step o s (TGo (PollKey k)) = Stepped s' [] /\ ts_world s' = ts_world s /\
    ts_error s' = false /\ on_top o s' = on_top o s /\ items o s' = Some rows /\
    cursor o s' < length rows /\
    (cursor o s < length rows ->
       (k = KUp -> cursor o s' = if Nat.eqb (cursor o s) 0 then length rows - 1 else cursor o s - 1) /\
       (k = KDown -> cursor o s' = if Nat.eqb (S (cursor o s)) (length rows) then 0 else S (cursor o s))).
Proof.
  intros o l s tr k rows Hr [Hat He] Hk Hi Hne.
  assert (Hka : is_arrow k = true) by by destruct Hk; subst k.
  assert (Hq : is_char ["q"%char] k = false) by by destruct Hk; subst k.
  assert (Hmod : forall n len, len <> 0 -> exists n', update_counter n (bool_decide (k = KUp)) len = Some n' /\
    n' < len /\ (n < len -> (k = KUp -> n' = if Nat.eqb n 0 then len - 1 else n - 1) /\
                            (k = KDown -> n' = if Nat.eqb (S n) len then 0 else S n))).
  { intros n len Hl. unfold update_counter. destruct len as [|len]; [done|]. eexists. split; [done|].
    split; [by apply Nat.mod_upper_bound|]. intros Hn. split; intros ->.
    - rewrite bool_decide_eq_true_2 by done. destruct (Nat.eqb_spec n 0) as [->|Hn0].
      + rewrite Nat.mod_small; lia.
      + replace (n + S len - 1) with (n - 1 + 1 * S len) by lia. rewrite Nat.mod_add by lia.
        apply Nat.mod_small. lia.
    - rewrite bool_decide_eq_false_2 by done. destruct (Nat.eqb_spec (S n) (S len)) as [En|En].
      + replace (n + S len + 1) with (0 + 2 * S len) by lia. rewrite Nat.mod_add by lia.
        apply Nat.mod_small. lia.
      + replace (n + S len + 1) with (S n + 1 * S len) by lia. rewrite Nat.mod_add by lia.
        apply Nat.mod_small. lia. }
  cbn [term_step]. rewrite Hat. unfold at_key. rewrite He. unfold handle_key.
  unfold items, on_top in Hi.
  destruct (tu_modes (ts_ui s)) as [|m ms] eqn:Em; [done|]. cbn [head hd_error] in Hi.
  destruct m as [| | | |f| | | |]; try done; rewrite Hq; injection Hi as Hi.
  - unfold in_problem_mode. rewrite Hka. unfold arrow. rewrite store_len_spec.
    assert (Hlen : length (open_problems o s) = length rows) by by rewrite <- Hi, map_length.
    destruct (Hmod (tu_problem (ts_ui s)) (length (store_open (w_store (ts_world s))))) as (n' & -> & Hn' & Hmv).
    { change (length (open_problems o s) <> 0). rewrite Hlen. by destruct rows. }
    change (length (store_open (w_store (ts_world s)))) with (length (open_problems o s)) in Hn', Hmv.
    rewrite Hlen in Hn', Hmv.
    eexists. split; [done|]. unfold items, cursor, on_top, current; cbn; rewrite Em; cbn. split_and!; try done.
    by rewrite <- Hi.
  - unfold in_edit_mode. rewrite Hka. unfold arrow.
    assert (Hlen : length (edits o (ts_ui s) (ts_world s)) = length rows).
    { unfold edits, selected. rewrite <- Hi. unfold current, open_problems, offered, fixes.
      destruct (store_open (w_store (ts_world s)) !! tu_problem (ts_ui s)) as [[id p]|]; [|done]. by rewrite map_length. }
    destruct (Hmod (tu_edit (ts_ui s)) (length (edits o (ts_ui s) (ts_world s)))) as (n' & -> & Hn' & Hmv).
    { rewrite Hlen. by destruct rows. }
    rewrite Hlen in Hn', Hmv.
    eexists. split; [done|]. unfold items, cursor, on_top; cbn; rewrite Em; cbn. split_and!; try done.
    by rewrite <- Hi.
  - unfold in_usage_mode. rewrite Hka. unfold arrow.
    assert (Hlen : length (shown_usages o (ts_ui s) (ts_world s)) = length rows).
    { unfold shown_usages, selected. rewrite <- Hi. unfold current, open_problems.
      destruct (store_open (w_store (ts_world s)) !! tu_problem (ts_ui s)) as [[id p]|]; [|done]. by rewrite map_length. }
    destruct (Hmod (tu_usage (ts_ui s)) (length (shown_usages o (ts_ui s) (ts_world s)))) as (n' & -> & Hn' & Hmv).
    { rewrite Hlen. by destruct rows. }
    rewrite Hlen in Hn', Hmv.
    eexists. split; [done|]. unfold items, cursor, on_top; cbn; rewrite Em; cbn. split_and!; try done.
    by rewrite <- Hi.
  - unfold in_backtrace_mode. rewrite Hka. unfold arrow.
    assert (Hlen : length f = length rows) by by rewrite <- Hi, map_length.
    destruct (Hmod (tu_frame (ts_ui s)) (length f)) as (n' & -> & Hn' & Hmv).
    { rewrite Hlen. by destruct rows. }
    rewrite Hlen in Hn', Hmv.
    eexists. split; [done|]. unfold items, cursor, on_top; cbn; rewrite Em; cbn. split_and!; try done.
    by rewrite <- Hi.
Qed.
Print Assumptions C139_arrows.

(** The second frame of the backtrace of the second usage of the second problem. *)
Example C139_ex :
  let p := PDisallowedApiUsage (ApiUsages ed_pkg All (lit "fs")
             [ApiUsage [lit "std"; lit "fs"] None 4; ApiUsage [lit "std"; lit "fs"] None 7]) in
  let l := tx_start [tx_macro; p]
           ++ tx_press [KDown; KChar "d"; KDown; KChar "b"; KDown] ++ tx_wait in
  let s := (tx_run tx_empty l).1 in
  let sc := tx_screen tx_empty l in
  reached tx l s (tx_run tx_empty l).2 /\ up_to_date tx (tx_run tx_empty l).2 sc /\ takes_key tx s /\
  on_top tx s = Some (Backtrace [7; 8]) /\ items tx s = Some [RowFrame 7; RowFrame 8] /\ cursor tx s = 1 /\
  current tx s = Some (1, p) /\ tu_usage (ts_ui s) = 1 /\
  sc_rows sc = [RowProblem tx_macro; RowProblem p; RowUsage 4; RowUsage 7; RowFrame 7; RowFrame 8] /\
  highlighted tx sc = Some (RowFrame 8) /\ cursor tx (tx_next s KDown).1 = 0.
Proof. cbv zeta. unfold takes_key. tx_check. Qed.

(** ** C140: what is written need not be what was shown *)

(** Another usage is added to the selected problem after the screen was drawn: a fix that was offered is
    not offered any more, and the next one has taken its place. *)
Theorem C140_refuted :
  exists (o : outside) (l : list (step o)) (s s' : term o) (tr : list (step o * list (act o)))
         (sc : screen o) (k : key) (acts : list (act o)) (shown t : o_text o),
    reached o l s tr /\ takes_key o s /\ last (drawn o (acts_of o tr)) = Some sc /\
    sc_top sc = Some SelectEdit /\ sc_preview sc = Some (PreviewDiff (w_file (ts_world s)) shown) /\
    confirms k /\ term_step o s (TGo (PollKey k)) = Stepped s' acts /\ written o acts = [t] /\ t <> shown.
Proof.
  set (l := tx_start [tx_usage 0] ++ tx_press [KChar "f"; KDown] ++ tx_wait ++ [TSubmit 1 [tx_usage 1]]).
  set (s := (tx_run tx_empty l).1).
  set (text := fun e : edit => (fun t => (t, []) : o_doc tx) <$> apply_edit any_kind ∅ e []).
  exists tx, l, s, (tx_next s KEnter).1, (tx_run tx_empty l).2,
    (default tx_no_screen (last (drawn tx (acts_of tx (tx_run tx_empty l).2)))), KEnter, (tx_next s KEnter).2,
    (text (ExcludeFromApi (lit "fs") (lit "std::fs::a"))), (text (ExcludeFromApi (lit "fs") (lit "std::fs::b"))).
  split_and!.
  - apply tx_reached. tx_eq.
  - split; tx_eq.
  - assert (H : match last (drawn tx (acts_of tx (tx_run tx_empty l).2)) with Some _ => true | None => false end
                = true) by tx_eq.
    by destruct (last _).
  - tx_eq.
  - tx_eq.
  - by left.
  - apply tx_stepped. tx_eq.
  - tx_eq.
  - apply (bool_decide_unpack _). vm_compute. exact I.
Qed.
Print Assumptions C140_refuted.

(** ** C141: a client is told to go on although its problem was not fixed *)

(** The only fix of the problem of client 1 fails, so that nothing is written; but the problem of client
    0 has been closed by then. *)
Theorem C141_refuted :
  exists (o : outside) (l : list (step o)) (s s' : term o) (tr : list (step o * list (act o)))
         (acts : list (act o)) (c : nat) (p : problem),
    reached o l s tr /\ takes_key o s /\ on_top o s = Some PromptAutoAccept /\
    term_step o s (TGo (PollKey KEnter)) = Stepped s' acts /\
    TSubmit c [p] ∈ l /\ received (stored o (acts_of o (tr ++ [(TGo (PollKey KEnter), acts)]))) c = [Continue] /\
    written o (acts_of o (tr ++ [(TGo (PollKey KEnter), acts)])) = [] /\ ts_error s' = true /\
    (forall id, (id, p) ∉ open_problems o s').
Proof.
  set (file := Some ([(lit "pkg", Table [(lit "bar", Text (lit "x"))])], []) : o_text tx).
  set (l := tx_start [tx_macro] ++ [TSubmit 1 [tx_unsafe]] ++ [TGo PollNothing; TGo PollNothing]
            ++ tx_press [KChar "a"] ++ tx_wait).
  set (s := (tx_run file l).1).
  exists tx, l, s, (tx_next s KEnter).1, (tx_run file l).2, (tx_next s KEnter).2, 0, tx_macro.
  split_and!.
  - apply tx_reached. tx_eq.
  - split; tx_eq.
  - tx_eq.
  - apply tx_stepped. tx_eq.
  - apply elem_of_list_here.
  - tx_eq.
  - tx_eq.
  - tx_eq.
  - assert (E : open_problems tx (tx_next s KEnter).1 = [(1, tx_unsafe)]) by tx_eq.
    rewrite E. intros id Hin. apply elem_of_list_singleton in Hin. discriminate.
Qed.
Print Assumptions C141_refuted.

(** ** C142: the file is changed after quitting *)

Theorem C142_refuted :
  exists (o : outside) (l : list (step o)) (s s1 s2 : term o) (tr tr2 : list (step o * list (act o)))
         (acts1 : list (act o)) (t : o_text o) (c : nat),
    reached o l s tr /\ takes_key o s /\ on_top o s = Some SelectProblem /\
    term_step o s (TGo (PollKey (KChar "q"))) = Stepped s1 acts1 /\ continues o s1 tr2 s2 /\
    StoppedCargo ∈ acts_of o (take 1 tr2) /\
    written o (acts_of o (drop 1 tr2)) = [t] /\ t <> w_file (ts_world s1) /\
    received (stored o (acts_of o (drop 1 tr2))) c = [Continue].
Proof.
  set (l := tx_start [tx_export] ++ tx_press [KChar "a"; KEnter] ++ tx_wait).
  set (s := (tx_run tx_empty l).1).
  set (s1 := (tx_next s (KChar "q")).1).
  set (l2 := [TGo PollNothing; TSubmit 1 [tx_macro]; TGo PollNothing] : list (step tx)).
  set (r := default (s1, []) (term_run tx s1 l2)).
  exists tx, l, s, s1, r.1, (tx_run tx_empty l).2, r.2, (tx_next s (KChar "q")).2,
    ((fun t => (t, []) : o_doc tx) <$> apply_edit any_kind ∅ (AllowProcMacro (lit "foo", All))
       (match written tx (acts_of tx (tx_run tx_empty l).2) with Some d :: _ => d.1 | _ => [] end)), 1.
  split_and!.
  - apply tx_reached. tx_eq.
  - split; tx_eq.
  - tx_eq.
  - apply tx_stepped. tx_eq.
  - assert (H : match term_run tx s1 l2 with Some _ => true | _ => false end = true)
      by tx_eq.
    exists l2. subst r. by destruct (term_run tx s1 l2) as [[]|].
  - assert (H : existsb (fun a : act tx => match a with StoppedCargo => true | _ => false end)
                  (acts_of tx (take 1 r.2)) = true) by tx_eq.
    apply existsb_exists in H as (a & Hin & Ha). apply elem_of_list_In in Hin. by destruct a.
  - tx_eq.
  - apply (bool_decide_unpack _). vm_compute. exact I.
  - tx_eq.
Qed.
Print Assumptions C142_refuted.

(** ** C143: an arrow key when no problem is left *)

Theorem C143_refuted :
  exists (o : outside) (l : list (step o)) (s : term o) (tr : list (step o * list (act o))) (k : key),
    reached o l s tr /\ takes_key o s /\ k = KDown /\ on_top o s = Some SelectProblem /\
    (forall e, e ∈ tr -> undisturbed o e.1 \/ exists c ps, e.1 = TSubmit c ps) /\
    term_step o s (TGo (PollKey k)) = Crashed.
Proof.
  set (l := tx_start [tx_macro] ++ tx_press [KChar "f"; KEnter] ++ tx_wait).
  exists tx, l, (tx_run tx_empty l).1, (tx_run tx_empty l).2, KDown.
  split_and!.
  - apply tx_reached. tx_eq.
  - split; tx_eq.
  - done.
  - tx_eq.
  - intros e He.
    assert (H : forallb (fun e : step tx * list (act tx) =>
                  match e.1 with TReload _ | TFile _ _ => false | _ => true end) (tx_run tx_empty l).2 = true)
      by tx_eq.
    rewrite forallb_forall in H. apply elem_of_list_In in He. apply H in He.
    destruct (e.1) as [c ps| | | |]; try discriminate; [right; by exists c, ps|by left|by left].
  - tx_eq.
Qed.
Print Assumptions C143_refuted.

(** ** C144: a comment meant for the fix of one problem is attached to that of another *)

Theorem C144_refuted :
  exists (o : outside) (l0 : list (step o)) (s0 s1 s s' : term o) (tr0 tr1 : list (step o * list (act o)))
         (acts0 acts : list (act o)) (i : input) (c : str) (id id' : nat) (p p' : problem) (e : edit)
         (d d' : o_doc o),
    reached o l0 s0 tr0 /\ takes_key o s0 /\ on_top o s0 = Some (SetComment i) /\ in_value i = c /\ c <> [] /\
    current o s0 = Some (id, p) /\ term_step o s0 (TGo (PollKey KEnter)) = Stepped s1 acts0 /\
    continues o s1 tr1 s /\ written o (acts_of o tr1) = [] /\
    current o s = Some (id', p') /\ p' <> p /\ offered o s p' = [e] /\ e ∉ offered o s p /\
    term_step o s (TGo (PollKey KEnter)) = Stepped s' acts /\
    o_parse o (w_file (ts_world s)) = Some d /\ o_apply o e (Some c) d = Some d' /\
    o_apply o e None d <> Some d' /\ written o acts = [o_print o d'].
Proof.
  set (l0 := tx_start [tx_export; tx_macro]
             ++ tx_press ([KChar "f"; KChar "c"] ++ tx_chars "why") ++ tx_wait).
  set (s0 := (tx_run tx_empty l0).1). set (s1 := (tx_next s0 KEnter).1).
  set (l1 := tx_press [KEsc; KDown; KChar "f"] ++ tx_wait).
  set (r := default (s1, []) (term_run tx s1 l1)).
  set (e := AllowProcMacro (lit "foo", All)).
  exists tx, l0, s0, s1, r.1, (tx_next r.1 KEnter).1, (tx_run tx_empty l0).2, r.2, (tx_next s0 KEnter).2,
    (tx_next r.1 KEnter).2, (input_of (lit "why")), (lit "why"), 0, 1, tx_export, tx_macro, e, ([], []),
    (edited_doc e [], [lit "why"]).
  split_and!.
  - apply tx_reached. tx_eq.
  - split; tx_eq.
  - tx_eq.
  - reflexivity.
  - discriminate.
  - tx_eq.
  - apply tx_stepped. tx_eq.
  - assert (H : match term_run tx s1 l1 with Some _ => true | _ => false end = true)
      by tx_eq.
    exists l1. subst r. by destruct (term_run tx s1 l1) as [[]|].
  - tx_eq.
  - tx_eq.
  - discriminate.
  - tx_eq.
  - assert (E : offered tx r.1 tx_export =
                [ExtendApi (lit "net") (lit "foo::net"); NoDetectApi (lit "net") (lit "foo")])
      by tx_eq.
    rewrite E. intros H. apply elem_of_cons in H as [H|H]; [discriminate|].
    apply elem_of_list_singleton in H. discriminate.
  - apply tx_stepped. tx_eq.
  - tx_eq.
  - tx_eq.
  - vm_compute. discriminate.
  - tx_eq.
Qed.
Print Assumptions C144_refuted.

(** ** C145: accepting fixes moves the selection to another problem *)

Theorem C145_refuted :
  exists (o : outside) (l : list (step o)) (s s' : term o) (tr : list (step o * list (act o)))
         (acts : list (act o)) (id id' : nat) (p p' : problem),
    reached o l s tr /\ takes_key o s /\ on_top o s = Some PromptAutoAccept /\
    current o s = Some (id, p) /\ term_step o s (TGo (PollKey KEnter)) = Stepped s' acts /\
    (id, p) ∈ open_problems o s' /\ current o s' = Some (id', p') /\ id' <> id /\ p' <> p.
Proof.
  set (l := tx_start [tx_macro; tx_export; tx_export2] ++ tx_press [KDown; KChar "a"] ++ tx_wait).
  set (s := (tx_run tx_empty l).1).
  exists tx, l, s, (tx_next s KEnter).1, (tx_run tx_empty l).2, (tx_next s KEnter).2, 1, 2, tx_export,
    tx_export2.
  split_and!.
  - apply tx_reached. tx_eq.
  - split; tx_eq.
  - tx_eq.
  - tx_eq.
  - apply tx_stepped. tx_eq.
  - assert (E : open_problems tx (tx_next s KEnter).1 = [(1, tx_export); (2, tx_export2)]) by tx_eq.
    rewrite E. apply elem_of_list_here.
  - tx_eq.
  - discriminate.
  - discriminate.
Qed.
Print Assumptions C145_refuted.
