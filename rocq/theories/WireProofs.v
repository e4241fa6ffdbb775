From Coq Require Import NArith.
From Verif Require Import Base BaseFacts TextModel IoModel LaunchSpec WireModel WireSpec.

(** ** The shown command line *)

Definition lexes (s : option lex_state) (text : str) : option lex_state :=
  fold_left (fun s c => match s with Some s => lex_char s c | None => None end) text s.

Lemma lexes_app (s : option lex_state) (a b : str) : lexes s (a ++ b) = lexes (lexes s a) b.
Proof. apply fold_left_app. Qed.

Definition is_meaningless (c : ascii) : bool :=
  bool_decide (c ∈ lit "abcdefghijklmnopqrstuvwxyzABCDEFGHIJKLMNOPQRSTUVWXYZ0123456789-_./:=,+@%").

Lemma meaningless_char (w : option (list piece)) (ts : list token) (c : ascii) :
  meaningless c -> lex_char (LexState Plain w ts) c = Some (LexState Plain (Some (default [] w ++ [Char c])) ts).
Proof.
  intros H.
  assert (Hc : (negb (Ascii.eqb c " ") && negb (Ascii.eqb c line_end) && negb (Ascii.eqb c ";") &&
    negb (Ascii.eqb c double_quote) && negb (Ascii.eqb c "#") &&
    negb (bool_decide (c ∈ ["$"%char; "`"%char; backslash; "'"%char; "|"%char; "&"%char; "("%char; ")"%char;
                                "<"%char; ">"%char; "*"%char; "?"%char; "~"%char; "{"%char; "}"%char])))%bool = true).
  { revert c H. unfold meaningless. apply Forall_forall. apply (bool_decide_unpack _).
    vm_compute. exact I. }
  repeat (apply andb_true_iff in Hc as [Hc ?]). repeat match goal with H : negb _ = true |- _ => apply negb_true_iff in H end.
  unfold lex_char. cbn [lx_mode lx_word lx_tokens].
  repeat match goal with H : _ = false |- _ => rewrite H; clear H end. reflexivity.
Qed.

Lemma bare_text (text : str) (w : list piece) (ts : list token) :
  (forall c, c ∈ text -> meaningless c) ->
  lexes (Some (LexState Plain (Some w) ts)) text = Some (LexState Plain (Some (w ++ map Char text)) ts).
Proof.
  revert w. induction text as [|c text IH]; intros w H.
  - by rewrite app_nil_r.
  - cbn [lexes fold_left]. rewrite meaningless_char by (apply H; left). cbn [default].
    change (lexes (Some (LexState Plain (Some (w ++ [Char c])) ts)) text = Some (LexState Plain (Some (w ++ map Char (c :: text))) ts)).
    rewrite IH by (intros; apply H; by right). by rewrite <- app_assoc.
Qed.

Lemma bare_word (text : str) (ts : list token) :
  (forall c, c ∈ text -> meaningless c) -> text <> [] ->
  lexes (Some (LexState Plain None ts)) text = Some (LexState Plain (Some (map Char text)) ts).
Proof.
  intros H Hne. destruct text as [|c text]; [done|].
  cbn [lexes fold_left]. rewrite meaningless_char by (apply H; left). cbn [default].
  change (lexes (Some (LexState Plain (Some [Char c]) ts)) text = Some (LexState Plain (Some (map Char (c :: text))) ts)).
  by rewrite bare_text by (intros; apply H; by right).
Qed.

Lemma quoted_char (c : ascii) (w : list piece) (ts : list token) :
  quotes_help c ->
  lexes (Some (LexState Quoted (Some w) ts)) (debug_char c) = Some (LexState Quoted (Some (w ++ [Char c])) ts).
Proof.
  intros (H32 & H127 & Hd & Hb & _). unfold debug_char.
  destruct (Nat.eqb_spec (nat_of_ascii c) 0); [lia|]. destruct (Nat.eqb_spec (nat_of_ascii c) 9); [lia|].
  destruct (Nat.eqb_spec (nat_of_ascii c) 10); [lia|]. destruct (Nat.eqb_spec (nat_of_ascii c) 13); [lia|].
  destruct (Nat.eqb_spec (nat_of_ascii c) 34) as [E|E34].
  { assert (c = double_quote) as -> by (rewrite <- (ascii_nat_embedding c), E; reflexivity). reflexivity. }
  destruct (Nat.eqb_spec (nat_of_ascii c) 92) as [E|E92].
  { assert (c = backslash) as -> by (rewrite <- (ascii_nat_embedding c), E; reflexivity). reflexivity. }
  destruct (Nat.ltb_spec (nat_of_ascii c) 32); [lia|]. destruct (Nat.eqb_spec (nat_of_ascii c) 127); [lia|].
  cbn [lexes fold_left orb]. unfold lex_char. cbn [lx_mode]. unfold lex_quoted.
  destruct (Ascii.eqb_spec c double_quote) as [->|_]; [by destruct E34|].
  destruct (Ascii.eqb_spec c "`") as [->|_]; [done|].
  destruct (Ascii.eqb_spec c backslash) as [->|_]; [by destruct E92|].
  destruct (Ascii.eqb_spec c "$") as [->|_]; [done|]. reflexivity.
Qed.

Lemma quoted_text (text : str) (w : list piece) (ts : list token) :
  (forall c, c ∈ text -> quotes_help c) ->
  lexes (Some (LexState Quoted (Some w) ts)) (concat (map debug_char text)) =
    Some (LexState Quoted (Some (w ++ map Char text)) ts).
Proof.
  revert w. induction text as [|c text IH]; intros w H.
  - by rewrite app_nil_r.
  - cbn [map concat]. rewrite lexes_app, quoted_char by (apply H; left).
    rewrite IH by (intros; apply H; by right). by rewrite <- app_assoc.
Qed.

Lemma quoted_word (text : str) (ts : list token) :
  (forall c, c ∈ text -> quotes_help c) ->
  lexes (Some (LexState Plain None ts)) (debug_text text) = Some (LexState Plain (Some (map Char text)) ts).
Proof.
  intros H. unfold debug_text. rewrite !lexes_app.
  change (lexes (Some (LexState Plain None ts)) ["034"%char]) with (Some (LexState Quoted (Some []) ts)).
  by rewrite quoted_text.
Qed.

Lemma existsb_char (c : ascii) (s : str) : existsb (fun x => Ascii.eqb x c) s = true <-> c ∈ s.
Proof.
  rewrite existsb_exists. split.
  - intros (x & Hin & He). apply Ascii.eqb_eq in He as ->. by apply elem_of_list_In.
  - intros Hin. exists c. split; [by apply elem_of_list_In|apply Ascii.eqb_refl].
Qed.

Lemma shown_arg (arg : str) (w : list piece) (ts : list token) :
  ordinary arg ->
  lexes (Some (LexState Plain (Some w) ts)) (show_arg arg) =
    Some (LexState Plain (Some (map Char arg)) (ts ++ [Word w])).
Proof.
  intros H. unfold show_arg.
  destruct (existsb (fun c => Ascii.eqb c " "%char) arg || existsb (fun c => Ascii.eqb c "034"%char) arg || str_eqb arg []) eqn:E;
    rewrite lexes_app;
    change (lexes (Some (LexState Plain (Some w) ts)) [" "%char]) with (Some (LexState Plain None (ts ++ [Word w]))).
  - apply quoted_word. destruct H as [H|[_ H]]; [|done].
    rewrite !orb_true_iff, !existsb_char in E. destruct E as [[E|E]|E].
    + exfalso. apply H in E. revert E. unfold meaningless. apply (bool_decide_unpack _). vm_compute. exact I.
    + exfalso. apply H in E. revert E. unfold meaningless. apply (bool_decide_unpack _). vm_compute. exact I.
    + apply str_eqb_spec in E as ->. intros c Hc. by apply elem_of_nil in Hc.
  - rewrite !orb_false_iff in E. destruct E as [[E1 E2] E3]. apply not_true_iff_false in E1, E2, E3.
    rewrite existsb_char in E1, E2. rewrite str_eqb_spec in E3.
    destruct H as [H|[[->|[Hs|Hq]] _]]; [|done..]. by apply bare_word.
Qed.

Lemma shown_args (args : list str) (w : list piece) (ts : list token) :
  (forall a, a ∈ args -> ordinary a) ->
  exists w' ts', lexes (Some (LexState Plain (Some w) ts)) (concat (map show_arg args)) = Some (LexState Plain (Some w') ts') /\
    ts' ++ [Word w'] = ts ++ map Word (w :: map (map Char) args).
Proof.
  revert w ts. induction args as [|a args IH]; intros w ts H.
  - by exists w, ts.
  - cbn [map concat]. rewrite lexes_app, shown_arg by (apply H; left).
    destruct (IH (map Char a) (ts ++ [Word w])) as (w' & ts' & E & E'); [intros; apply H; by right|].
    exists w', ts'. split; [done|]. rewrite E'. by rewrite <- app_assoc.
Qed.

Lemma commands_words (ws : list (list piece)) (current : list (list piece)) :
  current ++ ws <> [] -> commands (map Word ws ++ [Separator]) current = [current ++ ws].
Proof.
  revert current. induction ws as [|w ws IH]; intros current H.
  - rewrite app_nil_r in *. by destruct current.
  - cbn [map app commands]. rewrite IH by (destruct current; done). by rewrite <- app_assoc.
Qed.

Lemma expand_chars (vars : str -> str) (cmd : list str) : expand vars [] (map (map Char) cmd) = Some cmd.
Proof.
  assert (Hw : forall w, word_text vars (map Char w) = Some w).
  { induction w as [|c w IH]; [done|]. cbn [map word_text]. by rewrite IH. }
  induction cmd as [|w cmd IH]; [done|]. cbn [map expand]. rewrite IH.
  destruct (decide (map Char w = [Arguments])) as [E|_]; [by destruct w as [|? []]|]. by rewrite Hw.
Qed.

Lemma command_shown (vars : str -> str) (program : str) (args : list str) :
  program <> [] -> (forall c, c ∈ program -> meaningless c) -> (forall a, a ∈ args -> ordinary a) ->
  bash_runs vars (show_command program args) [program :: args].
Proof.
  intros Hne Hp Ha. unfold bash_runs, show_command.
  destruct (shown_args args (map Char program) [] Ha) as (w & ts & E & E').
  exists (ts ++ [Word w; Separator]). split.
  - unfold lex. change (match lexes (Some (LexState Plain None [])) ((program ++ concat (map show_arg args)) ++ [line_end]) with
      | Some (LexState Plain None ts) => Some ts | _ => None end = Some (ts ++ [Word w; Separator])).
    rewrite !lexes_app, (bare_word program []) by done. rewrite E.
    change (lexes (Some (LexState Plain (Some w) ts)) [line_end]) with (Some (LexState Plain None ((ts ++ [Word w]) ++ [Separator]))).
    cbn. by rewrite <- app_assoc.
  - change [Word w; Separator] with ([Word w] ++ [Separator]). rewrite app_assoc, E'. cbn [app].
    rewrite commands_words by done. cbn [app]. constructor; [|constructor].
    exact (expand_chars vars (program :: args)).
Qed.

(** ** Output *)

Lemma output_run_snoc (es : list output_event) (e : output_event) :
  output_run (es ++ [e]) = (s ← output_run es; output_step s e).
Proof. unfold output_run. by rewrite fold_left_app. Qed.

Definition held (p : pipe) : str := default [] (pi_held p).

Lemma output_invariant (es : list output_event) (s : output_state) :
  output_run es = Some s ->
  forall t, printed es t = shown_of (os_shown s) t ++ held (os_pipe s t) ++ pi_waiting (os_pipe s t) /\
    (pi_ended (os_pipe s t) = true -> pi_held (os_pipe s t) = None /\ pi_waiting (os_pipe s t) = [] /\ pi_closed (os_pipe s t) = true).
Proof.
  revert s. induction es as [|e es IH] using rev_ind; intros s.
  { intros [= <-] t. by split. }
  rewrite output_run_snoc. destruct (output_run es) as [s0|]; [|done]. cbn [mbind option_bind]. intros Hs t.
  destruct (IH s0 eq_refl t) as [Hp He]. clear IH.
  assert (Hpr : printed (es ++ [e]) t = printed es t ++ match e with Printed t' b => if decide (t' = t) then b else [] | _ => [] end).
  { unfold printed. rewrite map_app, concat_app. cbn. by rewrite app_nil_r. }
  rewrite Hpr, Hp. clear Hpr Hp.
  destruct e as [t' b|t'| | |t' n|t'|t']; cbn [output_step] in Hs.
  - destruct (pi_closed (os_pipe s0 t')) eqn:Ec; [done|]. injection Hs as <-. cbn [os_shown os_pipe set_pipe].
    destruct (decide (t = t')) as [->|Hne].
    + rewrite decide_True by done. unfold held. cbn. rewrite <- !app_assoc. split; [done|].
      intros H. destruct (He H) as (_ & _ & Hc). congruence.
    + rewrite decide_False by done. rewrite app_nil_r. by split.
  - injection Hs as <-. cbn [os_shown os_pipe set_pipe]. rewrite app_nil_r. destruct (decide (t = t')) as [->|Hne].
    + unfold held. cbn. split; [done|]. intros H. destruct (He H) as (? & ? & ?). done.
    + by split.
  - destruct (os_locked s0); [done|]. injection Hs as <-. rewrite app_nil_r. by split.
  - destruct (os_locked s0); [|done]. injection Hs as <-. rewrite app_nil_r. by split.
  - destruct (pi_held (os_pipe s0 t')) eqn:Eh; [done|].
    destruct (negb (pi_ended (os_pipe s0 t')) && _ && _ && _) eqn:Eg; [|done]. injection Hs as <-.
    cbn [os_shown os_pipe set_pipe]. rewrite app_nil_r. destruct (decide (t = t')) as [->|Hne]; [|by split].
    unfold held. cbn. rewrite Eh. cbn. by rewrite take_drop.
  - destruct (pi_held (os_pipe s0 t')) as [b|] eqn:Eh; [|done]. destruct (os_locked s0); [done|].
    injection Hs as <-. cbn [os_shown os_pipe set_pipe]. rewrite app_nil_r.
    assert (Hsh : shown_of (os_shown s0 ++ [(t', b)]) t = shown_of (os_shown s0) t ++ (if decide (t' = t) then b else [])).
    { unfold shown_of. rewrite map_app, concat_app. cbn. by rewrite app_nil_r. }
    rewrite Hsh. destruct (decide (t = t')) as [->|Hne].
    + rewrite decide_True by done. unfold held. cbn. rewrite Eh. cbn. rewrite <- app_assoc. split; [done|].
      intros H. destruct (He H) as (? & _). congruence.
    + rewrite decide_False by done. rewrite app_nil_r. by split.
  - destruct (pi_held (os_pipe s0 t')) eqn:Eh; [done|]. destruct (pi_waiting (os_pipe s0 t')) eqn:Ew; [|done].
    destruct (pi_closed (os_pipe s0 t') && negb (pi_ended (os_pipe s0 t'))) eqn:Eg; [|done]. injection Hs as <-.
    cbn [os_shown os_pipe set_pipe]. rewrite app_nil_r. destruct (decide (t = t')) as [->|Hne]; [|by split].
    unfold held. cbn. rewrite Eh, Ew. by split.
Qed.

(** While the user interface has the terminal, nothing is written to it. *)
Lemma output_locked (s : output_state) (e : output_event) (s' : output_state) :
  os_locked s = true -> output_step s e = Some s' -> os_shown s' = os_shown s.
Proof.
  intros Hl Hs. destruct e; cbn [output_step] in Hs; repeat case_match; simplify_eq; done.
Qed.

(** When cargo is done and the user interface has given back the terminal, the threads can end. *)
Definition steps (s : output_state) (es : list output_event) : option output_state :=
  fold_left (fun s e => s ← s; output_step s e) es (Some s).

Lemma steps_cons (s s' : output_state) (e : output_event) (es : list output_event) :
  output_step s e = Some s' -> steps s (e :: es) = steps s' es.
Proof. intros H. unfold steps. cbn [fold_left mbind option_bind]. by rewrite H. Qed.

Lemma steps_app (s s' : output_state) (es es' : list output_event) :
  steps s es = Some s' -> steps s (es ++ es') = steps s' es'.
Proof. intros H. unfold steps in *. by rewrite fold_left_app, H. Qed.

Lemma drain_pipe (t : channel) (n : nat) (s : output_state) :
  length (pi_waiting (os_pipe s t)) <= n -> pi_closed (os_pipe s t) = true -> os_locked s = false ->
  pi_held (os_pipe s t) = None -> pi_ended (os_pipe s t) = false ->
  exists es s', steps s es = Some s' /\ Forall passing es /\ pi_ended (os_pipe s' t) = true /\ os_locked s' = false /\
    forall t', t' <> t -> os_pipe s' t' = os_pipe s t'.
Proof.
  revert s. induction n as [|n IH]; intros s Hn Hc Hl Hh He.
  - destruct (pi_waiting (os_pipe s t)) eqn:Ew; [|cbn in Hn; lia].
    eexists [SeeEnd t], _. split.
    { erewrite steps_cons; [reflexivity|]. cbn [output_step]. rewrite Hh, Ew, Hc, He. reflexivity. }
    split; [by repeat constructor|]. cbn. rewrite decide_True by done. split; [done|]. split; [done|].
    intros t' Ht. by rewrite decide_False.
  - destruct (pi_waiting (os_pipe s t)) as [|c rest] eqn:Ew.
    { apply IH; try done. rewrite Ew. cbn. lia. }
    set (s1 := set_pipe t (Pipe rest true (Some [c]) false) s).
    set (s2 := set_pipe t (Pipe rest true None false) (OutputState (os_pipe s1) false (os_shown s1 ++ [(t, [c])]))).
    assert (E1 : output_step s (ReadPipe t 1) = Some s1).
    { cbn [output_step]. rewrite Hh, He, Ew, Hc. cbn. by rewrite drop_0. }
    assert (P1 : os_pipe s1 t = Pipe rest true (Some [c]) false) by (unfold s1; cbn; by rewrite decide_True).
    assert (E2 : output_step s1 (PassOn t) = Some s2).
    { cbn [output_step]. rewrite P1. cbn [pi_held]. change (os_locked s1) with (os_locked s). by rewrite Hl. }
    assert (P2 : os_pipe s2 t = Pipe rest true None false) by (unfold s2; cbn; by rewrite decide_True).
    destruct (IH s2) as (es & s' & Hs & Hes & Hend & Hlock & Hoth).
    { rewrite P2. cbn in Hn |- *. lia. }
    { by rewrite P2. } { done. } { by rewrite P2. } { by rewrite P2. }
    exists (ReadPipe t 1 :: PassOn t :: es), s'. split.
    { by rewrite (steps_cons s s1), (steps_cons s1 s2). }
    split; [by repeat constructor|]. split; [done|]. split; [done|].
    intros t' Ht. rewrite (Hoth t' Ht). unfold s2, s1. cbn. by rewrite !decide_False.
Qed.

Lemma drain (t : channel) (s : output_state) :
  pi_closed (os_pipe s t) = true -> os_locked s = false ->
  (pi_ended (os_pipe s t) = true -> pi_held (os_pipe s t) = None) ->
  exists es s', steps s es = Some s' /\ Forall passing es /\ pi_ended (os_pipe s' t) = true /\ os_locked s' = false /\
    forall t', t' <> t -> os_pipe s' t' = os_pipe s t'.
Proof.
  intros Hc Hl He. destruct (pi_ended (os_pipe s t)) eqn:Ee.
  { exists [], s. by split_and!. }
  destruct (pi_held (os_pipe s t)) as [b|] eqn:Eh; [|by apply (drain_pipe t _ s (le_n _))].
  set (s1 := set_pipe t (Pipe (pi_waiting (os_pipe s t)) true None false)
               (OutputState (os_pipe s) false (os_shown s ++ [(t, b)]))).
  assert (E1 : output_step s (PassOn t) = Some s1) by (cbn [output_step]; by rewrite Eh, Hl, Hc, Ee).
  assert (P1 : os_pipe s1 t = Pipe (pi_waiting (os_pipe s t)) true None false) by (unfold s1; cbn; by rewrite decide_True).
  destruct (drain_pipe t _ s1 (le_n _)) as (es & s' & Hs & Hes & Hend & Hlock & Hoth); [by rewrite P1|done|by rewrite P1..|].
  exists (PassOn t :: es), s'. split; [by rewrite (steps_cons s s1)|]. split; [by constructor|]. split; [done|].
  split; [done|]. intros t' Ht. rewrite (Hoth t' Ht). unfold s1. cbn. by rewrite decide_False.
Qed.

Lemma output_ends (es : list output_event) (s : output_state) :
  output_run es = Some s -> (forall t, pi_closed (os_pipe s t) = true) -> os_locked s = false ->
  exists es' s', Forall passing es' /\ output_run (es ++ es') = Some s' /\ output_waited s' = true.
Proof.
  intros Hr Hc Hl.
  destruct (drain Stdout s (Hc Stdout) Hl) as (e1 & s1 & H1 & P1 & End1 & L1 & O1).
  { intros H. by destruct (output_invariant es s Hr Stdout) as [_ Hx]; destruct (Hx H). }
  destruct (drain Stderr s1) as (e2 & s2 & H2 & P2 & End2 & L2 & O2).
  { by rewrite (O1 Stderr). } { done. }
  { rewrite (O1 Stderr) by done. intros H. by destruct (output_invariant es s Hr Stderr) as [_ Hx]; destruct (Hx H). }
  exists (e1 ++ e2), s2. split; [by apply Forall_app|]. split.
  - unfold output_run in *. rewrite fold_left_app, Hr. fold (steps s (e1 ++ e2)). by rewrite (steps_app s s1).
  - unfold output_waited. rewrite End2, (O2 Stdout) by done. by rewrite End1.
Qed.

(** ** Lines *)

Lemma first_line (a b text : str) :
  lines_of a b text ->
  text = [] \/ exists l, nl ∉ l /\ (exists x, text = l ++ nl :: x) /\ exists y, a = l ++ nl :: y \/ b = l ++ nl :: y.
Proof.
  intros [|l a0 b0 t H _|l a0 b0 t H _]; [by left|right; exists l..].
  - split; [done|]. split; [by exists t|]. exists a0. by left.
  - split; [done|]. split; [by exists t|]. exists b0. by right.
Qed.

Lemma cut_at (n : ascii) (l l' x y : str) : l' ++ n :: y = l ++ n :: x -> n ∉ l -> n ∉ l' -> l' = l.
Proof.
  revert l. induction l' as [|c l' IH]; intros [|d l] E Hl Hl'; [done| | |]; cbn [app] in E.
  - injection E as -> _. destruct Hl. left.
  - injection E as -> _. destruct Hl'. left.
  - injection E as -> E. f_equal. apply (IH l E); intros Hin; [apply Hl|apply Hl']; by right.
Qed.
