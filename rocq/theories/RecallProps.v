(** C247 and C248: earlier comments. *)
From Verif Require Import Base BaseFacts ApiMapModel ConfigModel ProblemModel StoreModel TomlModel EditorModel
  TermModel TermSpec TermProofs TermKeyProofs TermProps RecallSpec RecallProofs.

(** ** C247: the arrow keys in the comment prompt *)

(** The earlier comments are the confirmed ones, the latest first, without repetitions. From an empty prompt, one
    of them, or any other text, the arrow keys move among them, whatever else happens in between. *)
Theorem C247_recall :
  forall (o : outside) (file : o_text o) (writable : bool) (c : config) (l1 l2 : list (step o))
         (s1 s2 : term o) (tr1 tr2 : list (step o * list (act o))) (text : str) (arrows : list bool) (n : nat),
  let start := term_init o file writable c in
  let earlier := latest_first (confirmed o (taken o start l1)) in
  term_run o start l1 = Some (s1, tr1) -> prompt o s1 = Some text ->
  n <= length earlier -> text = text_at earlier n \/ n = 0 /\ text ∉ earlier /\ arrows <> [] ->
  term_run o s1 l2 = Some (s2, tr2) ->
  map snd (taken o s1 l2) = map (fun up : bool => if up then KUp else KDown) arrows ->
  prompt o s2 = Some (text_at earlier (foldl (move earlier) n arrows)).
Proof.
  intros o file writable c l1 l2 s1 s2 tr1 tr2 text arrows n start earlier H1 Hp Hn Ht H2 Hk.
  pose proof (reached_previous o _ _ _ _ _ _ H1) as Hprev. fold start earlier in Hprev.
  assert (Hnd : NoDup earlier) by apply latest_nodup.
  assert (Hne : [] ∉ earlier) by (unfold earlier; rewrite latest_in; apply confirmed_not_empty).
  clearbody earlier. clear H1 tr1. revert s1 tr2 text arrows n Hp Hn Ht H2 Hk Hprev.
  induction l2 as [|a l2 IH]; intros s1 tr2 text arrows n Hp Hn Ht H2 Hk Hprev.
  - cbn in H2. injection H2 as <- <-. destruct arrows as [|x xs]; [|done]. cbn [foldl].
    destruct Ht as [Ht|(_ & _ & Ht)]; [|done]. by rewrite Hp, Ht.
  - cbn [term_run] in H2. destruct (term_step o s1 a) as [s' acts| | |] eqn:Es; [|done..].
    destruct (term_run o s' l2) as [[s'' tr']|] eqn:Er; [|done]. injection H2 as -> _.
    assert (Hkeys : taken o s1 (a :: l2) = taken o s1 [a] ++ taken o s' l2).
    { change (a :: l2) with ([a] ++ l2). apply (taken_app o [a] l2 s1 s' [(a, acts)]). cbn [term_run]. by rewrite Es. }
    rewrite Hkeys, map_app in Hk.
    destruct (step_taken o _ _ _ _ Es) as [[Hta Hu]|(k & r & Htk & Hta & Hh & Hres)]; rewrite Hta in Hk.
    + eapply IH; [|exact Hn|exact Ht|done|exact Hk|by rewrite Hu].
      unfold prompt, on_top in *. by rewrite Hu.
    + cbn [map snd app] in Hk. destruct arrows as [|up arrows]; [done|]. cbn [map] in Hk. injection Hk as -> Hk.
      unfold prompt, on_top in Hp. destruct (tu_modes (ts_ui s1)) as [|m ms] eqn:Em; [done|]. cbn in Hp.
      destruct m as [| | |i| | | | |]; try done. injection Hp as Hv.
      assert (Hres' : exists i', i' = earlier_comment (tu_previous (ts_ui s1)) up i /\
        ts_ui s' = push (pop (ts_ui s1)) (SetComment i')).
      { eexists. split; [reflexivity|]. unfold handle_key in Hh. rewrite Em in Hh. unfold in_comment_mode in Hh.
        destruct up; cbn in Hh; subst r; (destruct Hres as [Hres|Hres]; [|done]); by injection Hres as <- _ _. }
      destruct Hres' as (i' & Hi' & Hu). rewrite Hprev in Hi'.
      destruct (earlier_at earlier n up i Hnd Hne Hn) as [Hv' Hle].
      { rewrite Hv. destruct Ht as [Ht|(? & ? & _)]; auto. }
      cbn [foldl]. eapply (IH s' tr' (in_value i') arrows (move earlier n up)); try done.
      * unfold prompt, on_top. by rewrite Hu.
      * left. by rewrite Hi'.
      * by rewrite Hu.
Qed.
Print Assumptions C247_recall.

(** Three comments are confirmed, the first of them again at the end. The prompt starts with the comment that is set,
    and Down empties it. *)
Definition rc_comment (s : string) : list key := [KChar "c"; KDown] ++ tx_chars s ++ [KEnter].
Definition rc_start : list (step tx) :=
  tx_start [tx_macro; tx_export]
  ++ tx_press ([KChar "f"] ++ rc_comment "one" ++ rc_comment "two" ++ rc_comment "three" ++ rc_comment "one"
               ++ [KChar "c"; KDown]).

(** What the prompt contains after each of some keys. *)
Fixpoint rc_prompts (l : list (step tx)) (done : list key) (ks : list key) : list (option str) :=
  match ks with
  | [] => []
  | k :: ks' => prompt tx (tx_run tx_empty (l ++ tx_press (done ++ [k]))).1 :: rc_prompts l (done ++ [k]) ks'
  end.

Example C247_ex :
  let start := term_init tx tx_empty true tx_config in
  tx_possible tx_empty (rc_start ++ tx_press [KUp; KUp; KUp; KUp; KDown; KDown; KDown]) = true /\
  latest_first (confirmed tx (taken tx start rc_start)) = [lit "one"; lit "three"; lit "two"] /\
  prompt tx (tx_run tx_empty rc_start).1 = Some [] /\
  rc_prompts rc_start [] [KUp; KUp; KUp; KUp; KDown; KDown; KDown] =
    map Some [lit "one"; lit "three"; lit "two"; lit "two"; lit "three"; lit "one"; []].
Proof. cbv zeta. split_and!; tx_eq. Qed.

(** ** C248: what was typed before *)

(** Down after Up does not bring back what was in the prompt: it is lost with the first arrow key, even if there
    are no earlier comments to go to. *)
Theorem C248_typed_refuted :
  exists (l1 l2 : list (step tx)) (s1 s2 : term tx) (tr1 tr2 : list (step tx * list (act tx))) (text : str),
    reached tx l1 s1 tr1 /\ prompt tx s1 = Some text /\ text <> [] /\
    confirmed tx (taken tx (term_init tx tx_empty true tx_config) l1) = [] /\
    term_run tx s1 l2 = Some (s2, tr2) /\ map snd (taken tx s1 l2) = [KUp; KDown] /\
    prompt tx s2 = Some [].
Proof.
  set (l1 := tx_start [tx_macro; tx_export] ++ tx_press ([KChar "f"; KChar "c"] ++ tx_chars "why")).
  set (s1 := (tx_run tx_empty l1).1).
  set (l2 := tx_press [KUp; KDown]).
  exists l1, l2, s1. 
  assert (Hr : (match term_run tx s1 l2 with Some _ => true | None => false end) = true) by tx_eq.
  destruct (term_run tx s1 l2) as [[s2 tr2]|] eqn:E; [|discriminate].
  exists s2, (tx_run tx_empty l1).2, tr2, (lit "why").
  assert (H1 : reached tx l1 s1 (tx_run tx_empty l1).2) by (apply tx_reached; tx_eq).
  assert (H2 : prompt tx s1 = Some (lit "why")) by tx_eq.
  assert (H3 : confirmed tx (taken tx (term_init tx tx_empty true tx_config) l1) = []) by tx_eq.
  assert (H4 : map snd (taken tx s1 l2) = [KUp; KDown]) by tx_eq.
  assert (H5 : option_map (fun r : term tx * list (step tx * list (act tx)) => prompt tx r.1) (term_run tx s1 l2)
               = Some (Some [])) by tx_eq.
  split_and!; [exact H1|exact H2|discriminate|exact H3|reflexivity|exact H4|].
  rewrite E in H5. cbn [option_map fst] in H5. by injection H5.
Qed.
Print Assumptions C248_typed_refuted.
