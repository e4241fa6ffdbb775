(** Proofs about dependency files and linker arguments. *)
From Verif Require Import Base BaseFacts TextModel TextFacts BuildScriptSpec BuildScriptProofs
  NamesProofs DepsModel DepsSpec.

(** ** Dependency files *)

Lemma unescape_plain c s : c <> "\"%char -> unescape (c :: s) = c :: unescape s.
Proof. intros H. cbn [unescape]. destruct (Ascii.eqb c "\") eqn:E; [by apply ascii_eqb_spec in E|done]. Qed.

Lemma unescape_make p : unescape (make_escape p) = p.
Proof.
  induction p as [|c p IH]; [done|]. cbn [make_escape].
  destruct (Ascii.eqb c " " || Ascii.eqb c "\") eqn:E.
  - cbn [unescape]. by rewrite Ascii.eqb_refl, IH.
  - apply orb_false_iff in E as [_ E]. cbn [unescape]. by rewrite E, IH.
Qed.


Lemma unescape_few p : few_backslashes p -> unescape (rustc_escape p) = p.
Proof.
  induction p as [|c p IH]; [done|]. intros Hf.
  assert (Hp : few_backslashes p).
  { intros x y ->. by apply (Hf (c :: x) y). }
  specialize (IH Hp). cbn [rustc_escape]. destruct (Ascii.eqb c " ") eqn:E.
  - cbn [unescape]. by rewrite Ascii.eqb_refl, IH.
  - destruct (decide (c = "\"%char)) as [->|Hc].
    + pose proof (Hf [] p eq_refl) as ->. done.
    + rewrite unescape_plain by done. by rewrite IH.
Qed.

Lemma path_join_file dir name : name <> [] -> head name <> Some "/"%char -> file_in dir name (path_join dir name).
Proof.
  intros Hne Hh. destruct name as [|c name]; [done|]. unfold path_join.
  assert (X : forall A (a b : A), c <> "/"%char -> match c with "/"%char => a | _ => b end = b).
  { intros A a b Hc. destruct c as [[] [] [] [] [] [] [] []]; done. }
  rewrite X by (intros ->; done). unfold file_in. destruct (last dir) as [d|] eqn:E.
  - assert (Hdir : dir <> []) by by destruct dir.
    apply last_Some in E as [y ->]. destruct (decide (d = "/"%char)) as [->|Hd].
    + right. left. exists y. split; [done|]. by rewrite <- app_assoc.
    + right. right. split; [done|]. split; [congruence|].
      destruct d as [[] [] [] [] [] [] [] []]; done.
  - apply last_None in E as ->. by left.
Qed.

Lemma make_escape_nl p : nl ∉ p -> nl ∉ make_escape p.
Proof.
  induction p as [|c p IH]; [done|]. rewrite not_elem_of_cons. intros [Hc Hp]. cbn [make_escape].
  specialize (IH Hp). destruct (_ || _); rewrite !not_elem_of_cons; repeat split; done.
Qed.

Lemma rustc_escape_nl p : nl ∉ p -> nl ∉ rustc_escape p.
Proof.
  induction p as [|c p IH]; [done|]. rewrite not_elem_of_cons. intros [Hc Hp]. cbn [rustc_escape].
  specialize (IH Hp). destruct (Ascii.eqb c " "); rewrite !not_elem_of_cons; repeat split; done.
Qed.

Lemma parse_unlines escape ls ps :
  deps_lines escape ls ps ->
  (forall p, p ∈ ps -> nl ∉ escape p /\ unescape (escape p) = p) ->
  parse_deps (unlines ls) = ps.
Proof.
  unfold parse_deps. induction 1 as [|p ls ps H IH|l ls ps H1 H2 H3 H IH]; intros Hp; [done| |].
  - unfold unlines. cbn [map concat]. fold (unlines ls).
    destruct (Hp p) as [Hn Hu]; [left|].
    rewrite <- !app_assoc. cbn [app].
    change (escape p ++ lit ":" ++ nl :: unlines ls) with (escape p ++ lit ":" ++ nl :: unlines ls).
    rewrite (app_assoc (escape p)).
    rewrite str_lines_lf.
    + cbn [omap list_omap].
      assert (E : strip_suffix_char ":" (escape p ++ lit ":") = Some (escape p)) by by apply strip_suffix_char_spec.
      rewrite E, Hu. f_equal. apply IH. intros q Hq. apply Hp. by right.
    + rewrite not_elem_of_app. split; [done|]. apply not_elem_of_cons. split; [done|apply not_elem_of_nil].
    + change (lit ":") with [":"%char]. by rewrite last_snoc.
  - unfold unlines. cbn [map concat]. fold (unlines ls). rewrite <- app_assoc. cbn [app].
    rewrite str_lines_lf by done. cbn [omap list_omap].
    destruct (strip_suffix_char ":" l) as [f|] eqn:E.
    + apply strip_suffix_char_spec in E as ->. by rewrite last_snoc in H2.
    + by apply IH.
Qed.

(** ** Arguments of rustc *)

Lemma contains_spec needle s : contains needle s = true <-> exists x y, s = x ++ needle ++ y.
Proof.
  induction s as [|c s IH]; cbn [contains]; rewrite orb_true_iff, starts_with_spec.
  - split.
    + intros [[y Hy]|H]; [|done]. by exists [], y.
    + intros (x & y & H). left. destruct x; [|done]. by exists y.
  - rewrite IH. split.
    + intros [[y Hy]|(x & y & ->)]; [by exists [], y|]. by exists (c :: x), y.
    + intros (x & y & H). destruct x as [|a x]; [left; by exists y|]. right.
      injection H as -> ->. by exists x, y.
Qed.

(** The value after the arguments. *)
Fixpoint upd {A} (f : rustc_arg -> option A) (args : list rustc_arg) (d : A) : A :=
  match args with
  | [] => d
  | a :: args => upd f args (default d (f a))
  end.

Definition emit_of (a : rustc_arg) : option bool :=
  match a with
  | AOther t => if starts_with (lit "--emit=") t then Some (contains (lit "dep-info") t) else None
  | _ => None
  end.

Lemma deps_args_items items tail crate extra out emit :
  (forall a, a ∈ items -> proper_arg a) ->
  deps_args (concat (map arg_texts items) ++ tail) crate extra out emit =
  deps_args tail (upd (fun a => option_map Some (crate_of a)) items crate) (upd extra_of items extra)
    (upd (fun a => option_map Some (out_dir_of a)) items out) (upd emit_of items emit).
Proof.
  revert crate extra out emit. induction items as [|a items IH]; intros crate extra out emit H; [done|].
  assert (H' : forall b, b ∈ items -> proper_arg b) by (intros b Hb; apply H; by right).
  assert (Ha : proper_arg a) by (apply H; left).
  destruct a as [v|d|n|t]; cbn [map concat arg_texts app upd crate_of out_dir_of extra_of emit_of option_map default].
  - transitivity (match strip_prefix (lit "extra-filename=") v with
            | Some rest => deps_args (concat (map arg_texts items) ++ tail) crate rest out emit
            | None => deps_args (concat (map arg_texts items) ++ tail) crate extra out emit
            end); [done|].
    destruct (strip_prefix (lit "extra-filename=") v); rewrite IH by done; done.
  - transitivity (deps_args (concat (map arg_texts items) ++ tail) crate extra (Some d) emit); [done|]. by rewrite IH.
  - transitivity (deps_args (concat (map arg_texts items) ++ tail) (Some n) extra out emit); [done|]. by rewrite IH.
  - destruct (Ha t eq_refl) as (H1 & H2 & H3). cbn [deps_args].
    rewrite (proj2 (str_eqb_false _ _) H1), (proj2 (str_eqb_false _ _) H2), (proj2 (str_eqb_false _ _) H3).
    destruct (starts_with (lit "--emit=") t); by rewrite IH.
Qed.

Lemma upd_never {A} (f : rustc_arg -> option A) args d : never_given f args -> upd f args d = d.
Proof.
  revert d. induction args as [|a args IH]; intros d H; [done|]. cbn [upd].
  rewrite (H a) by left. apply IH. intros b Hb. apply H. by right.
Qed.

Lemma upd_last {A} (f : rustc_arg -> option A) args d x : last_given f args x -> upd f args d = x.
Proof.
  intros (before & a & after & -> & Ha & H). revert d.
  induction before as [|b before IH]; intros d; cbn [app upd]; [|done].
  rewrite Ha. by apply upd_never.
Qed.

Lemma given_or_not {A} (f : rustc_arg -> option A) args : never_given f args \/ exists x, last_given f args x.
Proof.
  induction args as [|a args IH].
  - left. intros a Ha. by apply elem_of_nil in Ha.
  - destruct IH as [IH|(x & before & b & after & -> & H)].
    + destruct (f a) as [x|] eqn:E.
      * right. exists x, [], a, args. done.
      * left. intros b Hb. apply elem_of_cons in Hb as [->|Hb]; [done|by apply IH].
    + right. exists x, (a :: before), b, after. done.
Qed.

Lemma given_map {A B} (g : A -> B) (f : rustc_arg -> option A) args x :
  last_given f args x -> last_given (fun a => option_map g (f a)) args (g x).
Proof.
  intros (before & a & after & -> & Ha & H). exists before, a, after. split; [done|]. split.
  - by rewrite Ha.
  - intros b Hb. by rewrite (H b Hb).
Qed.

Lemma never_map {A B} (g : A -> B) (f : rustc_arg -> option A) args :
  never_given f args -> never_given (fun a => option_map g (f a)) args.
Proof. intros H a Ha. by rewrite (H a Ha). Qed.

Lemma emit_of_some a b :
  emit_of a = Some b <-> exists k, a = AOther (lit "--emit=" ++ k) /\ contains (lit "dep-info") (lit "--emit=" ++ k) = b.
Proof.
  split.
  - destruct a as [v|d|n|t]; try done. cbn [emit_of].
    destruct (starts_with (lit "--emit=") t) eqn:E; [|done].
    apply starts_with_spec in E as [k ->]. intros [= <-]. by exists k.
  - intros (k & -> & <-). cbn [emit_of].
    assert (E : starts_with (lit "--emit=") (lit "--emit=" ++ k) = true) by (apply starts_with_spec; by exists k).
    by rewrite E.
Qed.

Lemma emits_spec args : emits_deps args <-> upd emit_of args false = true.
Proof.
  split.
  - intros (before & k & after & -> & Hk & Hafter). apply upd_last.
    exists before, (AOther (lit "--emit=" ++ k)), after. split; [done|]. split.
    + apply emit_of_some. exists k. split; [done|]. by apply contains_spec.
    + intros b Hb. destruct (emit_of b) as [e|] eqn:E; [|done].
      apply emit_of_some in E as (k' & -> & _). by destruct (Hafter k').
  - intros H. destruct (given_or_not emit_of args) as [Hn|(x & Hx)].
    + by rewrite upd_never in H.
    + rewrite (upd_last _ _ _ _ Hx) in H. subst x.
      destruct Hx as (before & a & after & -> & Ha & Hafter).
      apply emit_of_some in Ha as (k & -> & Hk). exists before, k, after. split; [done|]. split.
      * by apply contains_spec.
      * intros k' Hk'. specialize (Hafter _ Hk').
        assert (E : emit_of (AOther (lit "--emit=" ++ k')) = Some (contains (lit "dep-info") (lit "--emit=" ++ k')))
          by (apply emit_of_some; by exists k').
        congruence.
Qed.

(** ** Arguments of the linker *)

Lemma after_last_dot_some s e :
  after_last_dot s = Some e <-> exists a, s = a ++ "."%char :: e /\ "."%char ∉ e.
Proof.
  revert e. induction s as [|c s IH]; intros e; cbn [after_last_dot].
  - split; [done|]. intros (a & H & _). by destruct a.
  - destruct (after_last_dot s) as [e'|] eqn:E.
    + destruct (proj1 (IH e') eq_refl) as (a & -> & Ha). split.
      * intros [= <-]. by exists (c :: a).
      * intros (b & H & Hb). destruct b as [|b0 b].
        -- injection H as -> <-. destruct Hb. rewrite elem_of_app. right. left.
        -- injection H as -> H. apply (IH e). by exists b.
    + destruct (Ascii.eqb c ".") eqn:Ec.
      * apply ascii_eqb_spec in Ec as ->. split.
        -- intros [= <-]. exists []. split; [done|]. intros Hin.
           apply elem_of_list_split in Hin as (x & y & ->).
           clear IH. revert E. clear. induction x as [|d x IH]; cbn [app after_last_dot].
           ++ destruct (after_last_dot y); [done|]. by rewrite Ascii.eqb_refl.
           ++ destruct (after_last_dot (x ++ "."%char :: y)); [done|]. by specialize (IH eq_refl) || by destruct (IH).
        -- intros (b & H & Hb). destruct b as [|b0 b]; [by injection H as <-|].
           injection H as <- H. assert (X : None = Some e) by (apply IH; by exists b). done.
      * split; [done|]. intros (b & H & Hb). destruct b as [|b0 b].
        -- injection H as -> _. done.
        -- injection H as <- H. apply (IH e). by exists b.
Qed.

Lemma split_char_slash c d y : split_char c (d ++ c :: y) = split_char c d ++ split_char c y.
Proof.
  induction d as [|a d IH]; cbn [app split_char].
  - by rewrite Ascii.eqb_refl.
  - destruct (Ascii.eqb a c); [by rewrite IH|]. rewrite IH.
    pose proof (split_char_nonempty c d). by destruct (split_char c d).
Qed.

Lemma path_split (p : str) :
  exists dir name, p = dir ++ name /\ (dir = [] \/ exists d, dir = d ++ lit "/") /\ "/"%char ∉ name.
Proof.
  induction p as [|c p (dir & name & -> & Hd & Hn)].
  - exists [], []. split; [done|]. split; [by left|apply not_elem_of_nil].
  - destruct Hd as [->|[d ->]].
    + destruct (decide (c = "/"%char)) as [->|Hc].
      * exists (lit "/"), name. split; [done|]. split; [|done]. right. by exists [].
      * exists [], (c :: name). split; [done|]. split; [by left|]. by rewrite not_elem_of_cons.
    + exists (c :: d ++ lit "/"), name. split; [done|]. split; [|done]. right. by exists (c :: d).
Qed.

Lemma file_name_plain dir name :
  (dir = [] \/ exists d, dir = d ++ lit "/") -> "/"%char ∉ name -> name <> [] -> name <> lit "." ->
  file_name (dir ++ name) = if str_eqb name (lit "..") then None else Some name.
Proof.
  intros Hd Hn H1 H2. unfold file_name.
  assert (E : exists l, split_char "/" (dir ++ name) = l ++ [name]).
  { destruct Hd as [->|[d ->]].
    - exists []. by apply split_char_none.
    - exists (split_char "/" d). rewrite <- app_assoc. change (lit "/" ++ name) with ("/"%char :: name).
      rewrite split_char_slash. by rewrite (split_char_none _ name). }
  destruct E as [l ->]. rewrite filter_app, filter_cons_True, filter_nil by done.
  by rewrite last_snoc.
Qed.

Lemma object_path_spec p : plain_path p -> has_supported_extension p = true <-> object_path p.
Proof.
  intros Hp. destruct (path_split p) as (dir & name & -> & Hd & Hn).
  unfold has_supported_extension, extension.
  destruct (decide (name = [])) as [->|H1].
  { destruct Hd as [->|[d ->]]; [|by destruct (Hp d) as [Hx _]; rewrite app_nil_r in Hx].
    split; [done|]. intros (d & s & e & H & _ & Hs & _). destruct d, s; done. }
  destruct (decide (name = lit ".")) as [->|H2].
  { destruct Hd as [->|[d ->]].
    - split; [done|]. intros (d & s & e & H & _ & Hs & _ & He). apply (f_equal length) in H.
      rewrite !app_length in H. destruct s; [done|]. cbn in H. destruct He as [-> | ->]; cbn in H; lia.
    - destruct (Hp d) as [_ Hx]. destruct Hx. by rewrite <- app_assoc. }
  rewrite file_name_plain by done.
  destruct (str_eqb name (lit "..")) eqn:E.
  { apply str_eqb_spec in E as ->. split; [done|].
    intros (d & s & e & H & _ & Hs & Hs' & He).
    assert (X : last (dir ++ lit "..") = Some "."%char).
    { change (lit "..") with (lit "." ++ ["."%char]). by rewrite app_assoc, last_snoc. }
    rewrite H in X. rewrite !app_assoc in X.
    destruct He as [-> | ->].
    - change (lit "rlib") with (lit "rli" ++ ["b"%char]) in X. by rewrite app_assoc, last_snoc in X.
    - change (lit "o") with ["o"%char] in X. by rewrite last_snoc in X. }
  clear E. split.
  - destruct name as [|c f]; [done|]. destruct (after_last_dot f) as [e|] eqn:E; [|done].
    intros He. apply mem_str_spec in He. apply after_last_dot_some in E as (a & -> & Ha).
    exists dir, (c :: a), e. split; [done|]. split; [done|]. split; [done|]. split.
    + intros X. apply Hn. change (c :: a ++ "."%char :: e) with ((c :: a) ++ "."%char :: e). apply elem_of_app. by left.
    + apply elem_of_cons in He as [He|He]; [by left|]. apply elem_of_list_singleton in He. by right.
  - intros (d & s & e & H & Hd' & Hs & Hs' & He).
    assert (Hse : "/"%char ∉ s ++ lit "." ++ e).
    { rewrite !not_elem_of_app. split; [done|]. split.
      - vm_compute. by intros ?%elem_of_list_singleton.
      - destruct He as [-> | ->]; vm_compute; intros X; repeat (apply elem_of_cons in X as [X|X]; [done|]);
          by apply elem_of_nil in X. }
    assert (X : name = s ++ lit "." ++ e).
    { assert (K : forall d1 d2 n1 n2 : str, (d1 = [] \/ exists d, d1 = d ++ lit "/") ->
          (d2 = [] \/ exists d, d2 = d ++ lit "/") -> "/"%char ∉ n1 -> "/"%char ∉ n2 ->
          d1 ++ n1 = d2 ++ n2 -> n1 = n2).
      { intros d1 d2 n1 n2 K1 K2 K3 K4 K5.
        assert (L : forall d n, (d = [] \/ exists x, d = x ++ lit "/") -> "/"%char ∉ n -> last (split_char "/" (d ++ n)) = Some n).
        { intros d0 n0 [->|[x ->]] Hx.
          - by rewrite split_char_none.
          - rewrite <- app_assoc. change (lit "/" ++ n0) with ("/"%char :: n0). rewrite split_char_slash.
            by rewrite (split_char_none _ n0), last_snoc. }
        pose proof (L d1 n1 K1 K3) as L1. pose proof (L d2 n2 K2 K4) as L2. rewrite K5 in L1. congruence. }
      by apply (K dir d). }
    subst name. destruct s as [|c s]; [done|]. cbn [app].
    assert (E : after_last_dot (s ++ lit "." ++ e) = Some e).
    { apply after_last_dot_some. exists s. split; [done|].
      destruct He as [-> | ->]; vm_compute; intros Y; repeat (apply elem_of_cons in Y as [Y|Y]; [done|]);
          by apply elem_of_nil in Y. }
    rewrite E. apply mem_str_spec. destruct He as [-> | ->]; [left|right; left].
Qed.

Lemma output_some args out :
  get_output_file args = Some out <->
  exists before after, args = before ++ lit "-o" :: out :: after /\ lit "-o" ∉ before.
Proof.
  induction args as [|a args IH]; cbn [get_output_file].
  - split; [done|]. intros (b & x & H & _). by destruct b.
  - destruct (str_eqb a (lit "-o")) eqn:E.
    + apply str_eqb_spec in E as ->. destruct args as [|o args].
      * split; [done|]. intros (b & x & H & _). destruct b as [|? b]; [done|]. injection H as _ H. by destruct b.
      * split.
        -- intros [= <-]. exists [], args. split; [done|apply not_elem_of_nil].
        -- intros (b & x & H & Hb). destruct b as [|b0 b]; [by injection H as -> _|].
           injection H as <- _. destruct Hb. left.
    + rewrite IH. apply str_eqb_false in E. split.
      * intros (b & x & -> & Hb). exists (a :: b), x. split; [done|]. by apply not_elem_of_cons.
      * intros (b & x & H & Hb). destruct b as [|b0 b]; [by injection H as -> _|].
        injection H as <- ->. exists b, x. split; [done|]. by apply not_elem_of_cons in Hb as [_ Hb].
Qed.

Lemma filter_gathered {A} (P : A -> Prop) `{!forall x, Decision (P x)} (Q : A -> Prop) (l : list A) :
  (forall x, x ∈ l -> P x <-> Q x) -> gathered (fun a b => b = a /\ Q a) l (filter P l).
Proof.
  induction l as [|a l IH]; intros HPQ; [constructor|].
  assert (H' : forall x, x ∈ l -> P x <-> Q x) by (intros x Hx; apply HPQ; by right).
  destruct (decide (P a)) as [Ha|Ha].
  - rewrite filter_cons_True by done. constructor; [|by apply IH]. split; [done|]. apply HPQ; [left|done].
  - rewrite filter_cons_False by done. constructor; [|by apply IH]. intros b [_ Hb]. apply Ha, HPQ; [left|done].
Qed.

(** ** Below a directory *)

Lemma resolved_components cs :
  cs <> [] -> (forall c, c ∈ cs -> c <> [] /\ c <> lit "." /\ c <> lit ".." /\ "/"%char ∉ c) ->
  components (lit "/" ++ join (lit "/") cs) = lit "/" :: cs.
Proof.
  intros Hne H. unfold components.
  change (lit "/" ++ join (lit "/") cs) with ([] ++ "/"%char :: join ["/"%char] cs).
  rewrite split_char_slash. rewrite split_join; [|done|by intros x Hx; apply H].
  cbn [split_char app]. f_equal.
  clear Hne. induction cs as [|c cs IH]; [done|].
  rewrite filter_cons_True by (destruct (H c) as (? & ? & _); [left|done]). f_equal. apply IH.
  intros x Hx. apply H. by right.
Qed.

Lemma components_app (d rest : str) : d <> [] ->
  exists l, components (d ++ lit "/" ++ rest) = components d ++ l.
Proof.
  intros Hd. unfold components. change (lit "/" ++ rest) with ("/"%char :: rest).
  rewrite split_char_slash. pose proof (split_char_nonempty "/"%char d) as Hs.
  destruct (split_char "/" d) as [|c cs]; [done|]. destruct d as [|x d]; [done|]. cbn [app].
  rewrite filter_app. eexists. by rewrite app_assoc.
Qed.

Lemma join_app_slash (a b : list str) : a <> [] -> b <> [] ->
  join (lit "/") (a ++ b) = join (lit "/") a ++ lit "/" ++ join (lit "/") b.
Proof.
  intros Ha Hb. induction a as [|x a IH]; [done|].
  destruct a as [|y a].
  - cbn [app]. destruct b as [|z b]; [done|]. done.
  - assert (X : y :: a <> []) by done. specialize (IH X).
    change ((x :: y :: a) ++ b) with (x :: (y :: a ++ b)).
    change (join (lit "/") (x :: y :: a ++ b)) with (x ++ lit "/" ++ join (lit "/") ((y :: a) ++ b)).
    change (join (lit "/") (x :: y :: a)) with (x ++ lit "/" ++ join (lit "/") (y :: a)).
    rewrite IH. by rewrite <- !app_assoc.
Qed.

Lemma below_spec dir p :
  resolved dir -> resolved p -> path_starts_with dir p = true <-> at_or_below dir p.
Proof.
  intros (ds & Hd & Hds & ->) (ps & Hp & Hps & ->). unfold path_starts_with.
  rewrite bool_decide_eq_true. split.
  - rewrite !resolved_components by done. intros [rest H]. injection H as ->. destruct rest as [|r rest].
    + left. by rewrite app_nil_r.
    + right. exists (join (lit "/") (r :: rest)). rewrite join_app_slash by done.
      by rewrite <- !app_assoc.
  - intros [H|[rest H]].
    + by rewrite H.
    + rewrite H. destruct (components_app (lit "/" ++ join (lit "/") ds) rest) as [l ->]; [done|].
      by apply prefix_app_r.
Qed.

Lemma omap_gathered {A B} (f : A -> option B) (l : list A) : gathered (fun a b => f a = Some b) l (omap f l).
Proof.
  induction l as [|a l IH]; [constructor|]. cbn [omap list_omap].
  destruct (f a) as [b|] eqn:E; constructor; done || by rewrite E.
Qed.

Lemma args_items args :
  exists items, (forall a, a ∈ items -> proper_arg a) /\
    (args = concat (map arg_texts items) \/
     exists option, option ∈ [lit "-C"; lit "--out-dir"; lit "--crate-name"] /\
       args = concat (map arg_texts items) ++ [option]).
Proof.
  remember (length args) as m eqn:Hm. revert args Hm.
  induction m as [m IH] using lt_wf_ind; intros args ->.
  destruct args as [|a args].
  { exists []. split; [|by left]. intros a Ha. by apply elem_of_nil in Ha. }
  destruct (decide (a ∈ [lit "-C"; lit "--out-dir"; lit "--crate-name"])) as [Ha|Ha].
  - destruct args as [|v args].
    { exists []. split; [intros x Hx; by apply elem_of_nil in Hx|]. right. by exists a. }
    assert (L : length args < length (a :: v :: args)) by (cbn; lia).
    destruct (IH _ L args eq_refl) as (items & Hp & H).
    assert (X : exists i, proper_arg i /\ arg_texts i = [a; v]).
    { repeat (apply elem_of_cons in Ha as [->|Ha]).
      - by exists (ACodegen v).
      - by exists (AOutDir v).
      - by exists (ACrateName v).
      - by apply elem_of_nil in Ha. }
    destruct X as (i & Hi & Ei). exists (i :: items). split.
    { intros x Hx. apply elem_of_cons in Hx as [->|Hx]; [done|by apply Hp]. }
    cbn [map concat]. rewrite Ei. destruct H as [->|(o & Ho & ->)]; [by left|]. right. by exists o.
  - assert (L : length args < length (a :: args)) by (cbn; lia).
    destruct (IH _ L args eq_refl) as (items & Hp & H).
    exists (AOther a :: items). split.
    { intros x Hx. apply elem_of_cons in Hx as [->|Hx]; [|by apply Hp]. intros t [= <-].
      repeat split; intros ->; apply Ha; repeat (left || right). }
    cbn [map concat arg_texts app]. destruct H as [->|(o & Ho & ->)]; [by left|]. right. by exists o.
Qed.
