(** Proofs about starting cargo, the wrappers and the server. *)
From Verif Require Import Base BaseFacts TextModel TextFacts ConfigModel ProblemModel StoreModel DepsModel DepsSpec DepsProofs
  IndexModel IoModel IoProofs LaunchModel LaunchSpec.

(** ** Names of files *)

Lemma after_last_dot_none (s : str) : after_last_dot s = None -> "."%char ∉ s.
Proof.
  induction s as [|c s IH]; cbn [after_last_dot]; [intros _; apply not_elem_of_nil|].
  destruct (after_last_dot s) as [e|]; [done|]. destruct (Ascii.eqb c ".") eqn:E; [done|]. intros _.
  apply not_elem_of_cons. split; [|by apply IH]. intros <-. by rewrite Ascii.eqb_refl in E.
Qed.

Lemma orig_bin_path_spec (path : str) : names_file path -> with_orig path (orig_bin_path path).
Proof.
  intros Hp. destruct (path_split path) as (dir & name & -> & Hd & Hn).
  destruct (Hp dir name Hd Hn eq_refl) as (H1 & H2 & H3).
  unfold orig_bin_path, extension. rewrite file_name_plain by done.
  assert (Hdd : str_eqb name (lit "..") = false) by (apply bool_decide_eq_false; done). rewrite Hdd.
  destruct name as [|c f]; [done|].
  assert (Hw : forall ext, with_extension (dir ++ c :: f) ext =
     match after_last_dot f with
     | Some e => dir ++ take (length (c :: f) - length e - 1) (c :: f) ++ lit "." ++ ext
     | None => dir ++ (c :: f) ++ lit "." ++ ext
     end).
  { intros ext. unfold with_extension. rewrite split_name_spec by done.
    destruct (mem_str (c :: f) [[]; lit "."; lit ".."]) eqn:E; [|done]. apply mem_str_spec in E.
    repeat (apply elem_of_cons in E as [E|E]; [done|]). by apply elem_of_nil in E. }
  destruct (after_last_dot f) as [e|] eqn:E.
  - rewrite Hw. apply after_last_dot_some in E as (a & -> & He). exists dir, (c :: a).
    assert (Ht : take (length (c :: a ++ "."%char :: e) - length e - 1) (c :: a ++ "."%char :: e) = c :: a).
    { change (c :: a ++ "."%char :: e) with ((c :: a) ++ "."%char :: e). rewrite take_app_alt; [done|].
      rewrite app_length. cbn [length]. lia. }
    rewrite Ht.
    change (c :: a ++ "."%char :: e) with ((c :: a) ++ lit "." ++ e) in *.
    rewrite !not_elem_of_app in Hn. destruct Hn as (Hn1 & _ & Hn2).
    split_and!; [done|done|done|]. right. exists e. by split_and!.
  - rewrite Hw. exists dir, (c :: f). split_and!; [done|done|done|]. left. split_and!; [done|done| |done].
    by apply after_last_dot_none.
Qed.

(** Splitting at the last slash, and at the last dot, is unique. *)
Lemma last_sep_unique (x : ascii) (a b a' b' : str) :
  x ∉ b -> x ∉ b' -> a ++ x :: b = a' ++ x :: b' -> a = a' /\ b = b'.
Proof.
  intros Hb Hb'. revert a'. induction a as [|c a IH]; intros [|c' a'] H; cbn [app] in H.
  - by injection H as ->.
  - injection H as <- ->. destruct Hb. apply elem_of_app. right. left.
  - injection H as -> <-. destruct Hb'. apply elem_of_app. right. left.
  - injection H as <- H. by destruct (IH a' H) as [-> ->].
Qed.

Lemma dir_name_unique (d n d' n' : str) :
  dir_part d -> dir_part d' -> "/"%char ∉ n -> "/"%char ∉ n' -> d ++ n = d' ++ n' -> d = d' /\ n = n'.
Proof.
  intros H1 H2 H3 H4 H. pose proof (split_name_spec d n H1 H3) as X. rewrite H, split_name_spec in X by done.
  by injection X as -> ->.
Qed.

Lemma with_orig_inj (p q new : str) : with_orig p new -> with_orig q new -> p = q.
Proof.
  intros (d & s & Hd & Hs & Hs1 & H) (d' & s' & Hd' & Hs' & Hs1' & H').
  assert (Hsl : forall t : str, "/"%char ∉ t -> "/"%char ∉ t ++ lit ".orig").
  { intros t Ht. apply not_elem_of_app. split; [done|]. apply (bool_decide_unpack _). vm_compute. exact I. }
  assert (Hsl' : forall t e : str, "/"%char ∉ t -> "/"%char ∉ e -> "/"%char ∉ t ++ lit ".orig." ++ e).
  { intros t e Ht He. rewrite !not_elem_of_app. split_and!; [done| |done]. apply (bool_decide_unpack _). vm_compute. exact I. }
  assert (Hdot : "."%char ∉ lit "orig") by (apply (bool_decide_unpack _); vm_compute; exact I).
  assert (Hmix : forall t t' e : str, "."%char ∉ tl t -> t' <> [] -> "."%char ∉ e ->
            t ++ lit ".orig" = t' ++ lit ".orig." ++ e -> False).
  { intros t t' e Ht Ht' He X. change (lit ".orig") with ("."%char :: lit "orig") in X.
    change (t' ++ lit ".orig." ++ e) with (t' ++ (lit ".orig" ++ "."%char :: e)) in X. rewrite app_assoc in X.
    apply last_sep_unique in X as [-> _]; [|done|done]. apply Ht. destruct t' as [|c t']; [done|].
    cbn [app tl]. apply elem_of_app. right. left. }
  destruct H as [(-> & _ & Hn & ->)|(e & He & He1 & -> & _ & ->)];
    destruct H' as [(-> & _ & Hn' & X)|(e' & He' & He1' & -> & _ & X)];
    apply dir_name_unique in X as [<- X]; auto.
  - by apply app_inv_tail in X as ->.
  - by destruct (Hmix s s' e').
  - by destruct (Hmix s' s e).
  - change (s ++ lit ".orig." ++ e) with (s ++ (lit ".orig" ++ "."%char :: e)) in X.
    change (s' ++ lit ".orig." ++ e') with (s' ++ (lit ".orig" ++ "."%char :: e')) in X. rewrite !app_assoc in X.
    apply last_sep_unique in X as [X ->]; [|done|done]. by apply app_inv_tail in X as ->.
Qed.

Lemma with_orig_ne (p new : str) : with_orig p new -> new <> p.
Proof.
  intros (d & s & _ & _ & _ & [(-> & _ & _ & ->)|(e & _ & _ & -> & _ & ->)]) H; apply app_inv_head in H;
    apply (f_equal length) in H; rewrite !app_length in H; cbn in H; lia.
Qed.

(** ** The script *)

Definition go (st : lex_state) (s : str) : option lex_state :=
  fold_left (fun s c => match s with Some s => lex_char s c | None => None end) s (Some st).

Lemma go_app (st : lex_state) (a b : str) :
  go st (a ++ b) = match go st a with Some st' => go st' b | None => None end.
Proof.
  unfold go. rewrite fold_left_app. destruct (fold_left _ a (Some st)) as [st'|]; [done|].
  induction b as [|c b IH]; [done|exact IH].
Qed.

Lemma go_quoted (w : list piece) (ts : list token) (s : str) :
  quotable s -> go (LexState Quoted (Some w) ts) s = Some (LexState Quoted (Some (w ++ map Char s)) ts).
Proof.
  revert w. induction s as [|c s IH]; intros w Hs.
  - cbn [map]. rewrite app_nil_r. done.
  - change (c :: s) with ([c] ++ s). rewrite go_app.
    assert (Hc : go (LexState Quoted (Some w) ts) [c] = Some (LexState Quoted (Some (w ++ [Char c])) ts)).
    { assert (Hu : ~ unquotable c) by (apply Hs; left). unfold unquotable in Hu.
      rewrite !elem_of_cons in Hu. unfold go. cbn [fold_left lex_char lx_mode]. unfold lex_quoted.
      destruct (Ascii.eqb c double_quote) eqn:E1; [apply Ascii.eqb_eq in E1; tauto|].
      destruct (Ascii.eqb c "`") eqn:E2; [apply Ascii.eqb_eq in E2; tauto|].
      destruct (Ascii.eqb c backslash) eqn:E3; [apply Ascii.eqb_eq in E3; tauto|].
      destruct (Ascii.eqb c "$") eqn:E4; [apply Ascii.eqb_eq in E4; tauto|]. done. }
    rewrite Hc, IH.
    + by rewrite <- app_assoc.
    + intros x Hx. apply Hs. by right.
Qed.

Lemma word_text_chars (vars : str -> str) (s : str) : word_text vars (map Char s) = Some s.
Proof. induction s as [|c s IH]; [done|]. cbn [map word_text]. by rewrite IH. Qed.

Definition script_tokens (exe bin : str) (kind : crate_kind) : list token :=
  [Separator; Word (plain_word (lit "if")); Word (plain_word (lit "[")); Word (plain_word (lit "-x"));
   Word (map Char exe); Word (plain_word (lit "]")); Separator; Word (plain_word (lit "then")); Separator;
   Word (map Char exe); Word (plain_word (lit "proxy-bin")); Word (plain_word (to_token kind)); Word (map Char bin);
   Word [Arguments]; Separator; Word (plain_word (lit "else")); Separator; Word (map Char bin); Word [Arguments];
   Separator; Word (plain_word (lit "fi")); Separator].

Lemma lex_script (exe bin : str) (kind : crate_kind) :
  quotable exe -> quotable bin -> lex (wrapper_script exe (to_token kind) bin) = Some (script_tokens exe bin kind).
Proof.
  intros He Hb.
  set (A := lit "#!/bin/bash" ++ newline ++ lit "if [ -x " ++ quote).
  set (B := quote ++ lit " ]; then" ++ newline ++ quote).
  set (C := quote ++ lit " proxy-bin " ++ to_token kind ++ lit " " ++ quote).
  set (D := quote ++ lit " " ++ quote ++ lit "$@" ++ quote ++ lit " " ++ newline ++ lit "else" ++ newline ++ quote).
  set (E := quote ++ lit " " ++ quote ++ lit "$@" ++ quote ++ newline ++ lit "fi" ++ newline).
  assert (X : wrapper_script exe (to_token kind) bin = A ++ exe ++ B ++ exe ++ C ++ bin ++ D ++ bin ++ E).
  { unfold wrapper_script, A, B, C, D, E. by rewrite <- !app_assoc. }
  unfold lex. change (fold_left _ ?s (Some ?st)) with (go st s). rewrite X. clear X.
  Ltac run_part P :=
    match goal with
    | |- context [go ?st P] =>
        let r := eval vm_compute in (go st P) in
        replace (go st P) with r by (vm_compute; reflexivity)
    end.
  rewrite go_app. run_part A. rewrite go_app, (go_quoted _ _ _ He). cbn [app].
  rewrite go_app. run_part B. rewrite go_app, (go_quoted _ _ _ He). cbn [app].
  rewrite go_app. subst C. destruct kind;
    (match goal with |- context [go ?st (quote ++ lit " proxy-bin " ++ ?t)] => run_part (quote ++ lit " proxy-bin " ++ t) end;
     rewrite go_app, (go_quoted _ _ _ Hb); cbn [app];
     rewrite go_app; run_part D; rewrite go_app, (go_quoted _ _ _ Hb); cbn [app]; run_part E; reflexivity).
Qed.

Lemma expand_quoted (vars : str -> str) (args : list str) (s : str) (ws : list (list piece)) :
  expand vars args (map Char s :: ws) = match expand vars args ws with Some b => Some (s :: b) | None => None end.
Proof.
  cbn [expand]. rewrite decide_False by (destruct s; done). rewrite word_text_chars.
  by destruct (expand vars args ws).
Qed.

Lemma run_script_spec (executable : str -> bool) (vars : str -> str) (exe bin : str) (kind : crate_kind) (args : list str) :
  quotable exe -> quotable bin ->
  run_script executable vars (wrapper_script exe (to_token kind) bin) args =
  Some (if executable exe then exe :: lit "proxy-bin" :: to_token kind :: bin :: args else bin :: args).
Proof.
  intros He Hb. unfold run_script. rewrite lex_script by done.
  unfold script_tokens. cbn [commands app].
  rewrite decide_True by done. unfold plain_word.
  rewrite !expand_quoted. cbn [expand]. rewrite decide_True by done.
  destruct (executable exe); rewrite !expand_quoted; cbn [expand]; rewrite decide_True by done; by rewrite app_nil_r.
Qed.

(** ** Command lines *)

Lemma cargo_words_app (a b : list str) : lit "--" ∉ a -> cargo_words (a ++ b) = a ++ cargo_words b.
Proof.
  induction a as [|w a IH]; intros H; [done|]. apply not_elem_of_cons in H as [H1 H2].
  cbn [app cargo_words]. rewrite decide_False by done. by rewrite IH.
Qed.

Lemma values_after_app (name : str) (a b : list str) : name ∉ a -> values_after name (a ++ b) = values_after name b.
Proof.
  induction a as [|w a IH]; intros H; [done|]. apply not_elem_of_cons in H as [H1 H2].
  cbn [app values_after]. rewrite decide_False by done. by apply IH.
Qed.

Lemma values_after_pair (name v : str) (b : list str) :
  v <> name -> values_after name ([name; v] ++ b) = v :: values_after name b.
Proof. intros H. cbn [app values_after]. rewrite decide_True by done. by rewrite decide_False. Qed.

Lemma values_after_other (name other v : str) (b : list str) :
  other <> name -> v <> name -> values_after name ([other; v] ++ b) = values_after name b.
Proof. intros H1 H2. apply values_after_app. rewrite !not_elem_of_cons. split_and!; [done|done|apply not_elem_of_nil]. Qed.

Lemma harmless_not (w name : str) : name ∈ [lit "--"; lit "--profile"; lit "--target"; lit "--features"; lit "-p"] ->
  harmless w -> w <> name.
Proof. intros Hn Hw ->. by apply Hw. Qed.

Lemma packages_values (l : list str) (b : list str) :
  (forall w, w ∈ l -> harmless w) ->
  values_after (lit "-p") (concat (map (fun p => [lit "-p"; p]) l) ++ b) = l ++ values_after (lit "-p") b.
Proof.
  induction l as [|p l IH]; intros H; [done|]. cbn [map concat]. rewrite <- app_assoc, values_after_pair.
  - cbn [app]. f_equal. apply IH. intros w Hw. apply H. by right.
  - apply harmless_not; [|apply H; left]. apply (bool_decide_unpack _). vm_compute. exact I.
Qed.

Lemma packages_not (l : list str) (name : str) :
  name <> lit "-p" -> name ∉ l -> name ∉ concat (map (fun p => [lit "-p"; p]) l).
Proof.
  intros Hn. induction l as [|p l IH]; intros H; [apply not_elem_of_nil|]. apply not_elem_of_cons in H as [H1 H2].
  cbn [map concat app]. rewrite !not_elem_of_cons. split_and!; [done|done|by apply IH].
Qed.

Lemma values_after_cons (name v : str) (ws : list str) :
  name <> v -> values_after name (name :: v :: ws) = v :: values_after name ws.
Proof. intros H. cbn [values_after]. by rewrite decide_True, decide_False by congruence. Qed.

Lemma values_after_none (name : str) (ws : list str) : name ∉ ws -> values_after name ws = [].
Proof. intros H. rewrite <- (app_nil_r ws). by rewrite values_after_app. Qed.

Lemma cargo_words_in (w : str) (ws : list str) : w ∈ cargo_words ws -> w ∈ ws.
Proof.
  induction ws as [|x ws IH]; [done|]. cbn [cargo_words]. destruct (decide (x = lit "--")); [intros H; by apply elem_of_nil in H|].
  rewrite !elem_of_cons. tauto.
Qed.

Section calls.
  Context (dir tmpdir target_dir exe rustc names : str) (a : launch_args) (c : build_config)
    (sub p f : str) (l : list str).
  Context (Hp : wanted_profile a c p) (Hf : wanted_features a c f) (Hw : wanted_words a c sub l).

  Definition other_words : list str :=
    concat (map (fun x => [lit "-p"; x]) (la_packages a)).
  Definition target_words : list str := match la_target a with Some t => [lit "--target"; t] | None => [] end.
  Definition feature_words : list str := if str_eqb f [] then [] else [lit "--features"; f].

  Lemma build_args :
    cc_args (build_call dir tmpdir target_dir exe rustc names a c) =
    (if la_colour a then [lit "--color=always"] else []) ++ [sub] ++ profile_settings ++ [lit "--profile"; p] ++
    (match la_command a with None => [] | Some _ => l end) ++ other_words ++
    (match la_command a with None => l | Some _ => [] end) ++ target_words ++ feature_words.
  Proof.
    assert (Ep : profile_name a c = p).
    { unfold profile_name. destruct Hp as [->|[[-> ->]|(-> & -> & ->)]]; done. }
    assert (Ef : match la_features a with Some f => f | None => join (lit ",") (bc_features c) end = f).
    { destruct Hf as [->|[-> ->]]; done. }
    unfold build_call, cargo_command. rewrite Ef, Ep. unfold other_words, target_words, feature_words.
    unfold wanted_words in Hw. destruct (la_command a) as [[|r|r|]|]; cbn [cc_args];
      destruct Hw as [-> Hl]; rewrite ?Hl; rewrite <- !app_assoc; try done.
    destruct Hl as [-> | [-> ->]]; done.
  Qed.

  Context (Hh : harmless p /\ harmless f /\ (forall w, w ∈ l -> harmless w) /\
    (forall w, w ∈ la_packages a -> harmless w) /\ (forall t, la_target a = Some t -> harmless t)).

  Definition asked : list str := [lit "--"; lit "--profile"; lit "--target"; lit "--features"; lit "-p"].

  Lemma not_in_front (name : str) :
    name ∈ asked -> name ∉ (if la_colour a then [lit "--color=always"] else []) ++ [sub] ++ profile_settings.
  Proof.
    intros Hn. assert (Hs : sub ∈ [lit "build"; lit "test"; lit "run"]).
    { unfold wanted_words in Hw. destruct (la_command a) as [[|r|r|]|]; destruct Hw as [-> _];
        apply (bool_decide_unpack _); vm_compute; exact I. }
    intros Hin.
    assert (Hin' : name ∈ ([lit "--color=always"; lit "build"; lit "test"; lit "run"] ++ profile_settings)).
    { apply elem_of_app in Hin as [Hin|Hin].
      - destruct (la_colour a); [|by apply elem_of_nil in Hin]. apply elem_of_list_singleton in Hin as ->. left.
      - apply elem_of_app in Hin as [Hin|Hin].
        + apply elem_of_list_singleton in Hin as ->. apply elem_of_app. left. by right.
        + apply elem_of_app. by right. }
    revert name Hn Hin Hin'. 
    assert (X : Forall (fun name => name ∉ [lit "--color=always"; lit "build"; lit "test"; lit "run"] ++ profile_settings) asked).
    { apply (bool_decide_unpack _). vm_compute. exact I. }
    intros name Hn _ Hin. rewrite Forall_forall in X. by apply (X name).
  Qed.

  Lemma not_in_words (name : str) (b : bool) :
    name ∈ asked -> name ∉ (if b then l else []).
  Proof.
    intros Hn. destruct b; [|apply not_elem_of_nil]. intros Hin. destruct Hh as (_ & _ & H & _). by apply (H name Hin).
  Qed.

  Lemma word_ne (x y : str) : bool_decide (x = y) = false -> x <> y.
  Proof. apply bool_decide_eq_false. Qed.

  Lemma build_words : cargo_words (cc_args (build_call dir tmpdir target_dir exe rustc names a c)) =
    cc_args (build_call dir tmpdir target_dir exe rustc names a c).
  Proof.
    rewrite build_args. rewrite <- (app_nil_r (_ ++ _)) at 1. rewrite cargo_words_app; [by rewrite app_nil_r|].
    assert (Hd : lit "--" ∈ asked) by left.
    assert (Hn : forall w, harmless w -> lit "--" <> w) by (intros w H E; apply H; rewrite <- E; left).
    destruct Hh as (H1 & H2 & H3 & H4 & H5).
    pose proof (not_in_front _ Hd) as Hfr. rewrite !not_elem_of_app in *. destruct Hfr as (F1 & F2 & F3).
    split_and!; [done|done|done| | | | | |].
    - rewrite !not_elem_of_cons. split_and!; [by apply word_ne; vm_compute|by apply Hn|apply not_elem_of_nil].
    - destruct (la_command a); [apply (not_in_words _ true Hd)|apply not_elem_of_nil].
    - apply packages_not; [by apply word_ne; vm_compute|]. intros Hin. by apply (Hn _ (H4 _ Hin)).
    - destruct (la_command a); [apply not_elem_of_nil|apply (not_in_words _ true Hd)].
    - unfold target_words. destruct (la_target a) as [t|] eqn:Et; [|apply not_elem_of_nil].
      rewrite !not_elem_of_cons. split_and!; [by apply word_ne; vm_compute|by apply Hn, H5|apply not_elem_of_nil].
    - unfold feature_words. destruct (str_eqb f []); [apply not_elem_of_nil|].
      rewrite !not_elem_of_cons. split_and!; [by apply word_ne; vm_compute|by apply Hn|apply not_elem_of_nil].
  Qed.

  Lemma skip_target (name : str) (b : list str) :
    name ∈ asked -> name <> lit "--target" -> values_after name (target_words ++ b) = values_after name b.
  Proof.
    intros Hn Hne. apply values_after_app. unfold target_words. destruct (la_target a) as [t|] eqn:Et; [|apply not_elem_of_nil].
    rewrite !not_elem_of_cons. split_and!; [done| |apply not_elem_of_nil]. intros ->.
    destruct Hh as (_ & _ & _ & _ & H5). by apply (H5 t).
  Qed.

  Lemma skip_features (name : str) :
    name ∈ asked -> name <> lit "--features" -> values_after name feature_words = [].
  Proof.
    intros Hn Hne. rewrite <- (app_nil_r feature_words). rewrite values_after_app; [done|]. unfold feature_words.
    destruct (str_eqb f []); [apply not_elem_of_nil|].
    rewrite !not_elem_of_cons. split_and!; [done| |apply not_elem_of_nil]. intros ->. destruct Hh as (_ & H & _). by apply H.
  Qed.

  Lemma skip_profile (name : str) (b : list str) :
    name ∈ asked -> name <> lit "--profile" -> values_after name ([lit "--profile"; p] ++ b) = values_after name b.
  Proof.
    intros Hn Hne. apply values_after_other; [done|]. intros ->. destruct Hh as (H & _). by apply H.
  Qed.

  Lemma skip_packages (name : str) (b : list str) :
    name ∈ asked -> name <> lit "-p" -> values_after name (other_words ++ b) = values_after name b.
  Proof.
    intros Hn Hne. apply values_after_app. apply packages_not; [done|]. intros Hin.
    destruct Hh as (_ & _ & _ & H & _). by apply (H name).
  Qed.

  Lemma skip_some (name : str) (b : list str) :
    name ∈ asked -> values_after name ((match la_command a with None => [] | Some _ => l end) ++ b) = values_after name b.
  Proof.
    intros Hn. apply values_after_app. destruct (la_command a); [apply (not_in_words _ true Hn)|apply not_elem_of_nil].
  Qed.

  Lemma skip_none (name : str) (b : list str) :
    name ∈ asked -> values_after name ((match la_command a with None => l | Some _ => [] end) ++ b) = values_after name b.
  Proof.
    intros Hn. apply values_after_app. destruct (la_command a); [apply not_elem_of_nil|apply (not_in_words _ true Hn)].
  Qed.

  Lemma skip_front (name : str) (b : list str) :
    name ∈ asked -> values_after name ((if la_colour a then [lit "--color=always"] else []) ++ [sub] ++ profile_settings ++ b)
      = values_after name b.
  Proof.
    intros Hn. pose proof (not_in_front name Hn) as H.
    rewrite (app_assoc [sub]), (app_assoc (if la_colour a then _ else _)). by apply values_after_app.
  Qed.

  Lemma option_values_spec :
    let call := build_call dir tmpdir target_dir exe rustc names a c in
    option_values (lit "--profile") call = [p] /\
    option_values (lit "--target") call = option_list (la_target a) /\
    option_values (lit "--features") call = (if decide (f = []) then [] else [f]) /\
    option_values (lit "-p") call = la_packages a.
  Proof.
    intros call. unfold option_values, call. rewrite build_words, build_args.
    assert (N1 : lit "--profile" ∈ asked) by (apply (bool_decide_unpack _); vm_compute; exact I).
    assert (N2 : lit "--target" ∈ asked) by (apply (bool_decide_unpack _); vm_compute; exact I).
    assert (N3 : lit "--features" ∈ asked) by (apply (bool_decide_unpack _); vm_compute; exact I).
    assert (N4 : lit "-p" ∈ asked) by (apply (bool_decide_unpack _); vm_compute; exact I).
    destruct Hh as (H1 & H2 & H3 & H4 & H5).
    split_and!.
    - rewrite skip_front by done. rewrite values_after_pair by (intros ->; by apply H1).
      rewrite skip_some, skip_packages, skip_none, skip_target, skip_features; try done; by apply word_ne; vm_compute.
    - rewrite skip_front, skip_profile, skip_some, skip_packages, skip_none by (try done; by apply word_ne; vm_compute).
      assert (F : values_after (lit "--target") feature_words = [])
        by (apply skip_features; [done|by apply word_ne; vm_compute]).
      unfold target_words. clear Hh. destruct (la_target a) as [t|].
      + rewrite values_after_pair by (intros ->; by apply (H5 _ eq_refl)). by rewrite F.
      + exact F.
    - rewrite skip_front, skip_profile, skip_some, skip_packages, skip_none, skip_target by (try done; by apply word_ne; vm_compute).
      unfold feature_words, str_eqb. destruct (decide (f = [])) as [->|Hne]; [done|].
      rewrite bool_decide_eq_false_2 by done. rewrite <- (app_nil_r [lit "--features"; f]).
      rewrite values_after_pair; [done|]. intros ->. by apply H2.
    - rewrite skip_front, skip_profile, skip_some by (try done; by apply word_ne; vm_compute).
      unfold other_words. rewrite packages_values by done.
      rewrite skip_none, skip_target, skip_features; try done; try (by apply word_ne; vm_compute). apply app_nil_r.
  Qed.

  Lemma words_kept :
    l `sublist_of` cc_args (build_call dir tmpdir target_dir exe rustc names a c) /\
    names_subcommand (build_call dir tmpdir target_dir exe rustc names a c) sub.
  Proof.
    rewrite build_args || idtac. split.
    - destruct (la_command a).
      + do 4 apply sublist_inserts_l. apply sublist_inserts_r. done.
      + do 6 apply sublist_inserts_l. apply sublist_inserts_r. done.
    - unfold names_subcommand. rewrite build_args.
      exists (if la_colour a then [lit "--color=always"] else []). eexists. split; [reflexivity|]. split.
      + unfold wanted_words in Hw. destruct (la_command a) as [[|r|r|]|]; destruct Hw as [-> _]; done.
      + intros w Hin. destruct (la_colour a); [|by apply elem_of_nil in Hin]. by apply elem_of_list_singleton in Hin as ->.
  Qed.
End calls.

(** ** Linking *)

Lemma with_orig_quotable (path new : str) : with_orig path new -> quotable path -> quotable new.
Proof.
  intros (dir & stem & _ & _ & _ & H) Hq c Hc.
  assert (X : Forall (fun c => ~ unquotable c) (lit ".orig.")) by (unfold unquotable; apply (bool_decide_unpack _); vm_compute; exact I).
  rewrite Forall_forall in X.
  assert (Y : forall c, c ∈ lit ".orig" -> c ∈ lit ".orig.").
  { intros x Hx. change (lit ".orig.") with (lit ".orig" ++ lit "."). apply elem_of_app. by left. }
  destruct H as [(-> & _ & _ & ->)|(ext & _ & _ & -> & _ & ->)]; rewrite !elem_of_app in Hc.
  - destruct Hc as [Hc|[Hc|Hc]]; [apply Hq; rewrite !elem_of_app; tauto..|by apply X, Y].
  - destruct Hc as [Hc|[Hc|[Hc|Hc]]]; [apply Hq; rewrite !elem_of_app; tauto..| |apply Hq; rewrite !elem_of_app; tauto].
    by apply X.
Qed.

(** ** Roles *)

Lemma rustc_path (dir : str) : dir_part dir -> is_path_to_rustc (Some (dir ++ lit "rustc")) = true.
Proof.
  intros Hd. unfold is_path_to_rustc. rewrite file_name_plain; [by vm_compute|done|..];
    apply (bool_decide_unpack _); vm_compute; exact I.
Qed.

Lemma socket_set (dir tmpdir target_dir exe rustc names : str) (a : launch_args) (c : build_config) (env : str -> option str) :
  inherits (build_call dir tmpdir target_dir exe rustc names a c) env ->
  exists x rest, env (lit "CACKLE_SOCKET_PATH") = Some (x :: rest).
Proof.
  intros H. assert (E : env (lit "CACKLE_SOCKET_PATH") = Some (tmpdir ++ lit "/comms/cackle.socket")).
  { apply H. unfold build_call. cbn [cc_env]. apply elem_of_app. right. left. }
  destruct tmpdir as [|x t].
  - exists "/"%char, (lit "comms/cackle.socket"). exact E.
  - exists x, (t ++ lit "/comms/cackle.socket"). exact E.
Qed.

(** ** The server *)

Section server.
  Context {R : Type}.
  Implicit Types (s : server R) (l : list (happening R)).

  Lemma server_run_snoc s l (h : happening R) :
    server_run s (l ++ [h]) = default (server_run s l) (server_step (server_run s l) h).
  Proof. unfold server_run. by rewrite fold_left_app. Qed.

  Lemma decided_snoc l (h : happening R) (i : nat) (r : option outcome) : decided l i r -> decided (l ++ [h]) i r.
  Proof.
    intros (l1 & l2 & q & ok & -> & H). exists l1, (l2 ++ [h]), q, ok. split; [by rewrite <- app_assoc|done].
  Qed.

  Lemma requests_snoc l (h : happening R) :
    requests (l ++ [h]) = requests l ++ match h with Connects (Sends r) => [r] | _ => [] end.
  Proof. unfold requests. rewrite omap_app. f_equal. by destruct h as [|[]| | |]. Qed.

  Definition result_of (st : stage) : option (option outcome) :=
    match st with Working => None | Decided r | Signalled r | Written r _ | Done r _ => Some r end.

  Definition failure (h : R * stage) : bool :=
    match snd h with Done r ok => negb ok || match r with None => true | Some _ => false end | _ => false end.

  Definition signalled (st : stage) : option (option outcome) :=
    match st with Signalled r | Written r _ | Done r _ => Some r | _ => None end.

  Definition waiting (q : list (message R)) : list R :=
    omap (fun m => match m with Sends r => Some r | _ => None end) q.

  Record inv l s : Prop := Inv {
    inv_errors : sv_result s = None -> sv_errors s = length (List.filter failure (sv_handlers s));
    inv_decided : forall i q st r, sv_handlers s !! i = Some (q, st) -> result_of st = Some r -> decided l i r;
    inv_signalled : forall i q st r, sv_handlers s !! i = Some (q, st) -> signalled st = Some r -> answer_of r = GiveUp ->
      sv_killed s = true \/ 0 < sv_abort s;
    inv_killed : sv_killed s = true \/ 0 < sv_abort s -> UserAborts ∈ l \/
      exists i r, decided l i r /\ answer_of r = GiveUp;
    inv_requests : exists rest, requests l = (map fst (sv_handlers s) ++ waiting (sv_queue s)) ++ rest /\
      (sv_result s = None -> rest = []);
    inv_ok : sv_result s = Some BuildOk -> sv_cargo s = Some (Some 0%Z);
    inv_pc : sv_result s <> None -> sv_pc s = AtWait }.

  Lemma failures_insert (hs : list (R * stage)) (i : nat) (h h' : R * stage) :
    hs !! i = Some h -> failure h = false ->
    length (List.filter failure (<[i := h']> hs)) =
      (if failure h' then 1 else 0) + length (List.filter failure hs).
  Proof.
    revert i. induction hs as [|x hs IH]; intros [|i] Hi Hf; [done|done| |].
    - cbn in Hi. injection Hi as ->. cbn [insert list_insert List.filter]. rewrite Hf. by destruct (failure h').
    - change (<[S i := h']> (x :: hs)) with (x :: <[i := h']> hs).
      specialize (IH i Hi Hf). cbn [List.filter]. destruct (failure x); cbn [length]; lia.
  Qed.

  Lemma requests_insert (hs : list (R * stage)) (i : nat) (q : R) (st st' : stage) :
    hs !! i = Some (q, st) -> map fst (<[i := (q, st')]> hs) = map fst hs.
  Proof.
    revert i. induction hs as [|x hs IH]; intros [|i] Hi; [done|done| |].
    - cbn in Hi. by injection Hi as ->.
    - cbn. f_equal. by apply IH.
  Qed.

  Lemma handlers_insert (hs : list (R * stage)) (i j : nat) (h h' : R * stage) :
    <[i := h]> hs !! j = Some h' -> (i = j /\ h' = h) \/ (i <> j /\ hs !! j = Some h').
  Proof.
    intros E. destruct (decide (i = j)) as [->|Hne].
    - left. split; [done|]. destruct (decide (j < length hs)) as [Hl|Hl].
      + rewrite list_lookup_insert in E by done. by injection E.
      + rewrite list_insert_ge in E by lia. apply lookup_lt_Some in E. lia.
    - right. split; [done|]. by rewrite list_lookup_insert_ne in E.
  Qed.

  Lemma inv_keep l s (h : happening R) :
    inv l s -> (sv_result s = None -> forall r, h <> Connects (Sends r)) -> inv (l ++ [h]) s.
  Proof.
    intros [I1 I2 I3 I4 I5 I6 I7] Hh. constructor; [done| |done| | |done|done].
    - intros. by eapply decided_snoc, I2.
    - intros X. destruct (I4 X) as [Y|(i & r & Y & Z)]; [left; apply elem_of_app; by left|].
      right. exists i, r. split; [by apply decided_snoc|done].
    - destruct I5 as (rest & E & Hr). rewrite requests_snoc, E.
      exists (rest ++ match h with Connects (Sends r) => [r] | _ => [] end). split; [by rewrite !app_assoc|].
      intros Hn. rewrite (Hr Hn). destruct h as [|[r| |]| | |]; try done. by destruct (Hh Hn r).
  Qed.

  Lemma inv_step l (h : happening R) (s := server_run server_init l) :
    inv l s -> inv (l ++ [h]) (default s (server_step s h)).
  Proof.
    intros I. destruct (server_step s h) as [s'|] eqn:E; cbn [default from_option].
    2: { apply inv_keep; [done|]. intros Hn r ->. cbn [server_step] in E. by rewrite Hn in E. }
    change (id s') with s'. destruct h as [|m|st| |i resp ok]; cbn [server_step] in E.
    - (* the loop *)
      pose proof (inv_keep l s Loop I ltac:(done)) as [I1 I2 I3 I4 I5 I6 I7].
      unfold loop_step in E. destruct (sv_result s) eqn:Er; [done|]. clear I6 I7. specialize (I1 eq_refl).
      destruct (sv_pc s).
      + destruct (sv_cargo s) as [st|]; injection E as <-.
        * constructor; cbn [sv_result sv_handlers sv_killed sv_abort sv_queue sv_cargo sv_pc]; [done|done|done|done| | |done].
          -- destruct I5 as (rest & E5 & Hr). exists rest. by split.
          -- intros H. destruct (sv_errors s); [|done]. destruct (bool_decide_reflect (st = Some 0%Z)); [by subst|done].
        * constructor; cbn [sv_result sv_handlers sv_killed sv_abort sv_queue sv_cargo sv_pc sv_errors]; done.
      + injection E as <-. constructor; cbn [sv_result sv_handlers sv_killed sv_abort sv_queue sv_cargo sv_pc sv_errors]; try done.
        * intros i q st r H1 H2 H3. destruct (I3 i q st r H1 H2 H3) as [->|H]; [by left|]. left.
          destruct (sv_killed s); [done|]. by apply Nat.ltb_lt.
        * intros [H|H]; apply I4; [|right; lia]. destruct (sv_killed s); [by left|]. right. by apply Nat.ltb_lt.
      + destruct (sv_queue s) as [|[r| |] queue] eqn:Eq; [| | |done]; injection E as <-;
          constructor; cbn [sv_result sv_handlers sv_killed sv_abort sv_queue sv_cargo sv_pc sv_errors]; try done.
        * intros _. rewrite List.filter_app, app_length. cbn [List.filter failure snd length]. lia.
        * intros i q st r' Hi. destruct (decide (i < length (sv_handlers s))) as [Hl|Hl].
          -- rewrite lookup_app_l in Hi by done. by apply (I2 i q).
          -- rewrite lookup_app_r in Hi by lia. destruct (i - length (sv_handlers s)) as [|[]]; cbn in Hi; try done.
             by injection Hi as _ <-.
        * intros i q st r' Hi. destruct (decide (i < length (sv_handlers s))) as [Hl|Hl].
          -- rewrite lookup_app_l in Hi by done. by apply (I3 i q).
          -- rewrite lookup_app_r in Hi by lia. destruct (i - length (sv_handlers s)) as [|[]]; cbn in Hi; try done.
             by injection Hi as _ <-.
        * destruct I5 as (rest & E5 & Hr). exists rest. split; [|done]. rewrite E5, map_app. cbn [waiting omap list_omap map fst].
          by rewrite <- !app_assoc.
        * destruct I5 as (rest & E5 & Hr). exists rest. by split.
    - (* a connection *)
      destruct (sv_result s) eqn:Er; [done|]. injection E as <-. destruct I as [I1 I2 I3 I4 I5 I6 I7].
      constructor; cbn [sv_result sv_handlers sv_killed sv_abort sv_queue sv_cargo sv_pc sv_errors]; try done.
      + intros _. by apply I1.
      + intros. by eapply decided_snoc, I2.
      + intros X. destruct (I4 X) as [Y|(i & r & Y & Z)]; [left; apply elem_of_app; by left|].
        right. exists i, r. split; [by apply decided_snoc|done].
      + destruct I5 as (rest & E & Hr). rewrite requests_snoc, E, (Hr Er), app_nil_r. exists []. split; [|done].
        rewrite app_nil_r. unfold waiting. rewrite omap_app, <- app_assoc. f_equal. f_equal. by destruct m.
    - (* cargo exits *)
      pose proof (inv_keep l s (CargoExits st) I ltac:(done)) as [I1 I2 I3 I4 I5 I6 I7].
      destruct (sv_cargo s) eqn:Ec; [done|]. injection E as <-.
      constructor; cbn [sv_result sv_handlers sv_killed sv_abort sv_queue sv_cargo sv_pc sv_errors]; try done.
      intros H. specialize (I6 H). done.
    - (* the user aborts *)
      pose proof (inv_keep l s UserAborts I ltac:(done)) as [I1 I2 I3 I4 I5 I6 I7]. injection E as <-.
      constructor; cbn [sv_result sv_handlers sv_killed sv_abort sv_queue sv_cargo sv_pc sv_errors]; try done.
      + intros. right. lia.
      + intros _. left. apply elem_of_app. right. left.
    - (* a handler *)
      pose proof (inv_keep l s (Handler i resp ok) I ltac:(done)) as [I1 I2 I3 I4 I5 I6 I7].
      destruct (sv_handlers s !! i) as [[q st]|] eqn:Ei; [|done].
      assert (Hd : st = Working -> decided (l ++ [Handler i resp ok]) i resp).
      { intros ->. exists l, [], q, ok. by split. }
      assert (Hf : failure (q, st) = false) by (destruct st; done || cbn [handler_step] in E; done).
      destruct (handler_step resp ok st) as [[[st' aborts] errors]|] eqn:Eh; [|done]. injection E as <-.
      constructor; cbn [sv_result sv_handlers sv_killed sv_abort sv_queue sv_cargo sv_pc sv_errors]; try done.
      + intros Hn. rewrite (failures_insert _ i (q, st)) by done. rewrite (I1 Hn). f_equal.
        destruct st; cbn [handler_step] in Eh; try done; injection Eh as <- <- <-; done.
      + intros j q' st1 r Hj Hr. apply handlers_insert in Hj as [[<- [= -> ->]]|[_ Hj]]; [|by apply (I2 j q' st1)].
        destruct st; cbn [handler_step] in Eh; try done; injection Eh as <- <- <-; cbn [result_of] in Hr;
          injection Hr as <-; try (by eapply (I2 i)); by apply Hd.
      + intros j q' st1 r Hj Hr Hg. apply handlers_insert in Hj as [[<- [= -> ->]]|[_ Hj]].
        * destruct st; cbn [handler_step] in Eh; try done; injection Eh as <- <- <-; cbn [signalled] in Hr; try done;
            injection Hr as <-; rewrite ?Hg.
          -- right. lia.
          -- destruct (I3 i q _ _ Ei eq_refl Hg); [by left|right; lia].
          -- destruct (I3 i q _ _ Ei eq_refl Hg); [by left|right; lia].
        * destruct (I3 j q' st1 r Hj Hr Hg); [by left|right; lia].
      + intros X. destruct (decide (aborts = 0)) as [->|Ha].
        { by apply I4. }
        right. exists i. destruct st; cbn [handler_step] in Eh; try done; injection Eh as <- <- <-; try done.
        exists response. split; [by eapply (I2 i)|]. by destruct (answer_of response).
      + destruct I5 as (rest & E5 & Hr). exists rest. split; [|done]. by rewrite (requests_insert _ i q st).
  Qed.

  Lemma server_inv l : inv l (server_run server_init l).
  Proof.
    induction l as [|h l IH] using rev_ind.
    - constructor; cbn; try done; [intros [|]; [done|lia]|]. exists []. by split.
    - rewrite server_run_snoc. by apply inv_step.
  Qed.

  Lemma no_failure (hs : list (R * stage)) :
    length (List.filter failure hs) = 0 <-> forall h, h ∈ hs -> ~ failed (snd h).
  Proof.
    induction hs as [|h hs IH]; [split; [intros _ h Hh; by apply elem_of_nil in Hh|done]|].
    cbn [List.filter]. assert (Hh : failure h = true <-> failed (snd h)).
    { unfold failure, failed. destruct (snd h) as [|r|r|r ok|r ok]; split; try (intros (? & ? & ? & _); done); try done.
      - intros H. exists r, ok. split; [done|]. destruct ok; [|by right]. destruct r; [done|by left].
      - intros (r' & ok' & [= -> ->] & [->| ->]); [by destruct ok'|done]. }
    destruct (failure h) eqn:E.
    - cbn [length]. split; [lia|]. intros H. destruct (H h); [left|]. by apply Hh.
    - rewrite IH. split; [intros H h' Hh'; apply elem_of_cons in Hh' as [->|Hh']; [|by apply H]|].
      + intros Hfa. apply Hh in Hfa. done.
      + intros H h' Hh'. apply H. by right.
  Qed.
End server.
