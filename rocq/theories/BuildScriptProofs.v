From stdpp Require Import pretty.
From Verif Require Import Base BaseFacts TextModel TextFacts ApiMapModel ConfigModel ProblemModel
  BuildScriptModel BuildScriptSpec.

(** ** Lines *)

Lemma lines_of_fun s ls : lines_of s ls -> ls = str_lines s.
Proof.
  induction 1 as [|l Hne Hnl|l rest ls Hnl Hcr H IH|l rest ls Hnl H IH].
  - done.
  - by rewrite str_lines_end.
  - rewrite str_lines_lf by done. by f_equal.
  - rewrite str_lines_crlf by done. by f_equal.
Qed.

Lemma lines_of_total s : lines_of s (str_lines s).
Proof.
  remember (length s) as n eqn:Hn. assert (Hle : length s <= n) by lia.
  clear Hn. revert s Hle. induction n as [|n IH]; intros s Hle.
  - destruct s; [constructor|cbn in Hle; lia].
  - destruct (decide (nl ∈ s)) as [Hin|Hno].
    + apply elem_of_list_split_l in Hin as (l & t & -> & Hl).
      rewrite app_length in Hle. cbn in Hle.
      destruct (decide (last l = Some cr)) as [Hcr|Hcr].
      * apply last_Some in Hcr as (l' & ->).
        rewrite <- app_assoc. cbn [app].
        assert (Hl' : nl ∉ l') by (intros ?; apply Hl; apply elem_of_app; by left).
        rewrite str_lines_crlf by done.
        apply lines_crlf; [done|]. apply IH. lia.
      * rewrite str_lines_lf by done. apply lines_lf; [done|done|]. apply IH. lia.
    + destruct (decide (s = [])) as [->|Hne]; [constructor|].
      rewrite str_lines_end by done. by apply lines_unterminated.
Qed.

Lemma nl_ascii : is_ascii nl = true. Proof. done. Qed.
Lemma cr_ascii : is_ascii cr = true. Proof. done. Qed.

Lemma lines_valid s ls l :
  lines_of s ls -> utf8_valid s = true -> l ∈ ls -> utf8_valid l = true /\ nl ∉ l.
Proof.
  induction 1 as [|l0 Hne Hnl|l0 rest ls Hnl Hcr H IH|l0 rest ls Hnl H IH]; intros Hv Hin.
  - by apply elem_of_nil in Hin.
  - by apply elem_of_list_singleton in Hin as ->.
  - apply (utf8_split _ _ _ nl_ascii) in Hv as [H1 H2].
    apply elem_of_cons in Hin as [->|Hin]; [done|by apply IH].
  - apply (utf8_split _ _ _ cr_ascii) in Hv as [H1 H2].
    apply (utf8_split [] _ _ nl_ascii) in H2 as [_ H2].
    apply elem_of_cons in Hin as [->|Hin]; [done|by apply IH].
Qed.

(** ** Rules *)

Lemma strip_suffix_char_spec c s p : strip_suffix_char c s = Some p <-> s = p ++ [c].
Proof.
  unfold strip_suffix_char. destruct (last s) as [d|] eqn:E.
  - apply last_Some in E as (q & ->).
    replace (removelast (q ++ [d])) with q by (symmetry; apply removelast_last).
    destruct (Ascii.eqb d c) eqn:Ec.
    + apply ascii_eqb_spec in Ec as ->. split.
      * by intros [= ->].
      * intros H. apply app_inj_tail in H as [-> _]. done.
    + apply ascii_eqb_false in Ec. split; [done|]. intros H.
      apply app_inj_tail in H as [_ ->]. done.
  - apply last_None in E as ->. split; [done|]. intros H. by destruct p.
Qed.

Lemma rule_matches_spec line rule : rule_matches line rule = true <-> permits rule line.
Proof.
  unfold rule_matches, permits. change (lit "*") with ["*"%char].
  destruct (strip_suffix_char "*" rule) as [p|] eqn:E.
  - apply strip_suffix_char_spec in E as ->. rewrite starts_with_spec. split.
    + intros H. left. by exists p.
    + intros [(q & Hq & Hp)|[Hno _]].
      * by apply app_inj_tail in Hq as [-> _].
      * by destruct (Hno p).
  - assert (Hno : forall p, rule <> p ++ ["*"%char]).
    { intros p Hp. apply strip_suffix_char_spec in Hp. congruence. }
    rewrite str_eqb_spec. split.
    + intros ->. by right.
    + intros [(q & Hq & _)|[_ ->]]; [by destruct (Hno q)|done].
Qed.

Lemma always_permitted_spec line :
  existsb (fun p => starts_with p line) always_permitted = true <-> harmless line.
Proof.
  unfold harmless. rewrite existsb_exists. split.
  - intros (p & Hp & H). exists p. split; [by apply elem_of_list_In|by apply starts_with_spec].
  - intros (p & Hp & H). exists p. split; [by apply elem_of_list_In|by apply starts_with_spec].
Qed.

Lemma rules_match_spec line allow :
  existsb (rule_matches line) allow = true <-> exists rule, rule ∈ allow /\ permits rule line.
Proof.
  rewrite existsb_exists. split; intros (r & Hr & H); exists r; split;
    first [by apply elem_of_list_In|by apply rule_matches_spec].
Qed.

Lemma check_line_spec line pkg allow :
  (rejected allow line /\ starts_with (lit "cargo:") line = true /\
   check_directive line pkg allow = [PDisallowedBuildInstruction pkg line]) \/
  (~ rejected allow line /\
   (if starts_with (lit "cargo:") line then check_directive line pkg allow else []) = []).
Proof.
  unfold rejected, directive. destruct (starts_with (lit "cargo:") line) eqn:E1.
  2: { right. split; [|done]. intros [H%starts_with_spec _]. congruence. }
  unfold check_directive.
  destruct (existsb (fun p => starts_with p line) always_permitted) eqn:E2.
  { right. split; [|done]. intros (_ & H & _). apply H. by apply always_permitted_spec. }
  destruct (existsb (rule_matches line) allow) eqn:E3.
  { right. split; [|done]. intros (_ & _ & H). apply H. by apply rules_match_spec. }
  left. split; [|done]. split; [by apply starts_with_spec|]. split.
  - intros H%always_permitted_spec. congruence.
  - intros H%rules_match_spec. congruence.
Qed.

Lemma env_line_spec line :
  match match strip_prefix (lit "cargo:rustc-env=") line with
        | Some rest => split_once "="%char rest
        | None => None
        end with
  | Some (var, _) => sets_variable line var /\ forall v, sets_variable line v -> v = var
  | None => forall v, ~ sets_variable line v
  end.
Proof.
  unfold sets_variable. change (lit "=") with ["="%char].
  destruct (strip_prefix (lit "cargo:rustc-env=") line) as [rest|] eqn:E1.
  - apply strip_prefix_spec in E1 as ->.
    destruct (split_once "=" rest) as [[var value]|] eqn:E2.
    + pose proof E2 as E3. apply split_once_spec in E3 as [-> Hno]. split.
      * exists value. done.
      * intros v (value' & Heq & Hv). apply app_inv_head in Heq. cbn [app] in Heq.
        assert (H : split_once "=" (var ++ "="%char :: value) = Some (v, value')).
        { apply split_once_spec. done. }
        congruence.
    + apply split_once_None in E2. intros v (value & Heq & Hv).
      apply app_inv_head in Heq. subst rest. apply E2.
      apply elem_of_app. right. cbn. left.
  - intros v (value & -> & _). rewrite strip_prefix_app in E1. done.
Qed.

Lemma report_fold pkg allow ls r :
  exists bad vars, gathered (fun l b => rejected allow l /\ b = l) ls bad /\
    gathered sets_variable ls vars /\
    br_problems (foldl (report_line pkg allow) r ls)
      = br_problems r ++ map (PDisallowedBuildInstruction pkg) bad /\
    br_env (foldl (report_line pkg allow) r ls) = br_env r ++ vars.
Proof.
  revert r. induction ls as [|l ls IH]; intros r.
  - exists [], []. cbn. rewrite !app_nil_r. repeat constructor.
  - cbn [foldl]. destruct (IH (report_line pkg allow r l)) as (bad & vars & Hb & Hv & Hp & He).
    rewrite Hp, He. pose proof (env_line_spec l) as Hl.
    assert (Henv : exists vars', gathered sets_variable (l :: ls) vars' /\
              br_env (report_line pkg allow r l) ++ vars = br_env r ++ vars').
    { unfold report_line. cbn [br_env].
      destruct (strip_prefix (lit "cargo:rustc-env=") l) as [rest|].
      - destruct (split_once "=" rest) as [[var value]|].
        + exists (var :: vars). split; [apply gathered_take; [apply Hl|done]|]. by rewrite <- app_assoc.
        + exists vars. split; [by apply gathered_skip|done].
      - exists vars. split; [by apply gathered_skip|done]. }
    destruct Henv as (vars' & Hg & He'). 
    destruct (check_line_spec l pkg allow) as [(Hr & Hs & Hc)|(Hr & Hc)].
    + exists (l :: bad), vars'. split; [by apply gathered_take|]. split; [done|]. split; [|done].
      unfold report_line. cbn [br_problems]. rewrite Hs, Hc. cbn. by rewrite <- app_assoc.
    + exists bad, vars'. split.
      { apply gathered_skip; [|done]. intros b [H _]. done. }
      split; [done|]. split; [|done]. unfold report_line. cbn [br_problems].
      destruct (starts_with (lit "cargo:") l); [|done]. rewrite Hc. by rewrite app_nil_r.
Qed.

Lemma gathered_fun {A B} (R : A -> B -> Prop) l bs bs' :
  (forall a b b', R a b -> R a b' -> b = b') ->
  gathered R l bs -> gathered R l bs' -> bs = bs'.
Proof.
  intros Hf H. revert bs'. induction H as [|a b l bs HR H IH|a l bs HR H IH]; intros bs' H'.
  - by inversion H'.
  - inversion H'; subst.
    + f_equal; [by eapply Hf|by apply IH].
    + exfalso. by eapply H2.
  - inversion H'; subst; [exfalso; by eapply HR|by apply IH].
Qed.

Lemma gathered_elem {A B} (R : A -> B -> Prop) l bs b :
  gathered R l bs -> b ∈ bs -> exists a, a ∈ l /\ R a b.
Proof.
  induction 1 as [|a b' l bs HR H IH|a l bs HR H IH]; intros Hin.
  - by apply elem_of_nil in Hin.
  - apply elem_of_cons in Hin as [->|Hin].
    + exists a. split; [left|done].
    + destruct (IH Hin) as (x & Hx & ?). exists x. split; [by right|done].
  - destruct (IH Hin) as (x & Hx & ?). exists x. split; [by right|done].
Qed.

Lemma gathered_in {A B} (R : A -> B -> Prop) l bs a b :
  (forall a b b', R a b -> R a b' -> b = b') ->
  gathered R l bs -> a ∈ l -> R a b -> b ∈ bs.
Proof.
  intros Hf. induction 1 as [|a' b' l bs HR H IH|a' l bs HR H IH]; intros Hin Hab.
  - by apply elem_of_nil in Hin.
  - apply elem_of_cons in Hin as [->|Hin].
    + rewrite (Hf _ _ _ Hab HR). left.
    + right. by apply IH.
  - apply elem_of_cons in Hin as [->|Hin]; [by destruct (HR b)|by apply IH].
Qed.

Lemma sets_variable_fun l v v' : sets_variable l v -> sets_variable l v' -> v = v'.
Proof.
  pose proof (env_line_spec l) as H. intros H1 H2.
  destruct (match strip_prefix (lit "cargo:rustc-env=") l with
            | Some rest => split_once "="%char rest | None => None end) as [[var ?]|].
  - destruct H as [_ H]. by rewrite (H v H1), (H v' H2).
  - by destruct (H v).
Qed.

Lemma rules_in_force_fun ps pkg allow :
  rules_in_force ps pkg allow <-> allow = allowed_instructions ps pkg.
Proof.
  unfold rules_in_force, allowed_instructions.
  destruct (ps !! (pi_name pkg, Build)) as [c|]; split.
  - intros [(c' & [= <-] & ->)|[? _]]; done.
  - intros ->. left. eauto.
  - intros [(c' & ? & _)|[_ ->]]; done.
  - intros ->. by right.
Qed.

Lemma bs_build_valid ps pkg allow stdout ls :
  utf8_valid stdout = true -> lines_of stdout ls -> rules_in_force ps pkg allow ->
  exists bad vars, gathered (fun l b => rejected allow l /\ b = l) ls bad /\
    gathered sets_variable ls vars /\
    br_problems (bs_build ps pkg stdout) = map (PDisallowedBuildInstruction pkg) bad /\
    br_env (bs_build ps pkg stdout) = vars.
Proof.
  intros Hv Hls Hr. apply lines_of_fun in Hls as ->. apply rules_in_force_fun in Hr as ->.
  unfold bs_build. rewrite Hv.
  destruct (report_fold pkg (allowed_instructions ps pkg) (str_lines stdout) (BsReport [] []))
    as (bad & vars & H1 & H2 & H3 & H4).
  exists bad, vars. done.
Qed.

(** ** Suggested rules *)

Lemma sep_any_spec c : sep_any c = true <-> c = "="%char \/ c = "-"%char \/ c = ":"%char.
Proof. unfold sep_any. rewrite !orb_true_iff, !ascii_eqb_spec. tauto. Qed.

Lemma sep_any_ascii c : sep_any c = true -> is_ascii c = true.
Proof. intros H%sep_any_spec. by destruct H as [->|[->| ->]]. Qed.

Lemma at_separator_snoc q c :
  at_separator (q ++ [c]) <->
  (if has_char "=" q then Ascii.eqb c "="%char else sep_any c) = true.
Proof.
  unfold at_separator. destruct (has_char "=" q) eqn:E.
  - apply has_char_spec in E. rewrite ascii_eqb_spec. split.
    + intros (q' & c' & H & Hc). apply app_inj_tail in H as [-> ->].
      destruct Hc as [Hc|[_ Hc]]; done.
    + intros ->. exists q, "="%char. split; [done|by left].
  - assert (Hno : "="%char ∉ q). { intros H%has_char_spec. congruence. }
    rewrite sep_any_spec. split.
    + intros (q' & c' & H & Hc). apply app_inj_tail in H as [-> ->]. tauto.
    + intros H. exists q, c. split; [done|]. tauto.
Qed.

Lemma last_separator_snoc o p a s c :
  last_separator o p a (s ++ [c]) =
  if (if o || has_char "=" s then Ascii.eqb c "="%char else sep_any c)
  then Some (p + length s) else last_separator o p a s.
Proof.
  revert o p a. induction s as [|d s IH]; intros o p a.
  - cbn. rewrite orb_false_r, Nat.add_0_r. destruct (if o then _ else _); done.
  - cbn [app last_separator length has_char].
    assert (Hp : S p + length s = p + S (length s)) by lia.
    destruct o.
    + destruct (Ascii.eqb d "="); rewrite IH; cbn [orb]; by rewrite Hp.
    + cbn [orb]. destruct (Ascii.eqb d "=") eqn:Ed.
      * assert (Hsep : sep_any d = true) by (unfold sep_any; by rewrite Ed).
        rewrite Hsep, IH. cbn [orb]. by rewrite Hp.
      * destruct (sep_any d); rewrite IH; cbn [orb]; by rewrite Hp.
Qed.

Lemma last_separator_spec s :
  match last_separator false 0 None s with
  | Some pos => exists x y, s = x ++ y /\ length x = S pos /\ at_separator x /\
      forall q, q `prefix_of` s -> at_separator q -> q `prefix_of` x
  | None => forall q, q `prefix_of` s -> ~ at_separator q
  end.
Proof.
  induction s as [|c s IH] using rev_ind.
  - cbn. intros q Hq (q' & c & -> & _). apply prefix_nil_inv in Hq. by destruct q'.
  - rewrite last_separator_snoc. cbn [orb].
    destruct (if has_char "=" s then _ else _) eqn:E.
    + exists (s ++ [c]), []. rewrite app_nil_r. split; [done|]. split.
      { rewrite app_length. cbn. lia. }
      split; [by apply at_separator_snoc|done].
    + assert (Hno : ~ at_separator (s ++ [c])).
      { rewrite at_separator_snoc, E. done. }
      assert (Hpre : forall q, q `prefix_of` s ++ [c] -> at_separator q -> q `prefix_of` s).
      { intros q [k Hk] Hq. destruct (decide (k = [])) as [->|Hk0].
        - rewrite app_nil_r in Hk. congruence.
        - destruct (exists_last Hk0) as (k' & d & ->). rewrite app_assoc in Hk.
          apply app_inj_tail in Hk as [-> _]. by exists k'. }
      destruct (last_separator false 0 None s) as [pos|].
      * destruct IH as (x & y & -> & Hl & Hx & Hmax). exists x, (y ++ [c]).
        rewrite app_assoc. repeat split; try done. intros q Hq1 Hq2. apply Hmax; [|done].
        by apply Hpre.
      * intros q Hq1 Hq2. by apply (IH q); [apply Hpre|].
Qed.

Lemma at_separator_last p : at_separator p -> exists q c, p = q ++ [c] /\ is_ascii c = true.
Proof.
  intros (q & c & -> & Hc). exists q, c. split; [done|]. apply sep_any_ascii, sep_any_spec. tauto.
Qed.

(** The text up to the last separator, found without a panic. *)
Lemma cut_at_separator s pos :
  utf8_valid s = true -> last_separator false 0 None s = Some pos ->
  exists x, slice_to s (pos + 1) = Some x /\ utf8_valid x = true /\ x `prefix_of` s /\
    at_separator x /\ forall q, q `prefix_of` s -> at_separator q -> q `prefix_of` x.
Proof.
  intros Hv E. pose proof (last_separator_spec s) as H. rewrite E in H.
  destruct H as (x & y & -> & Hl & Hx & Hmax). exists x.
  destruct (at_separator_last x Hx) as (q & c & -> & Hc).
  rewrite <- app_assoc in Hv. cbn [app] in Hv.
  pose proof (boundary_after _ _ _ Hc Hv) as Hb.
  assert (Hq : utf8_valid q = true) by (destruct (utf8_split _ _ _ Hc Hv); done).
  replace (pos + 1) with (length (q ++ [c])) by lia. split.
  - apply slice_to_app. rewrite <- app_assoc. cbn [app]. rewrite app_length. cbn.
    replace (length q + 1) with (S (length q)) by lia. done.
  - split; [by apply utf8_snoc|]. split; [by apply prefix_app_r|]. done.
Qed.

Lemma prefix_length_le (a b : str) : a `prefix_of` b -> length a <= length b.
Proof. intros [k ->]. rewrite app_length. lia. Qed.

Lemma prefix_same_length (a b : str) : a `prefix_of` b -> length b <= length a -> a = b.
Proof.
  intros [k ->]. rewrite app_length. intros H. destruct k; [by rewrite app_nil_r|cbn in H; lia].
Qed.

Lemma suggestion_loop_spec fuel s :
  length s < fuel -> utf8_valid s = true -> at_separator s ->
  exists ps, suggestion_loop fuel s = Some (map (fun p => p ++ lit "*") ps) /\
    StronglySorted (fun a b : str => length b < length a) ps /\
    head ps = Some s /\
    (forall p, p ∈ ps <-> p `prefix_of` s /\ at_separator p).
Proof.
  revert s. induction fuel as [|fuel IH]; intros s Hf Hv Hs; [lia|].
  destruct (at_separator_last s Hs) as (q & c & -> & Hc).
  rewrite app_length in Hf. cbn in Hf. cbn [suggestion_loop].
  assert (Hq : utf8_valid q = true) by (destruct (utf8_split _ _ _ Hc Hv); done).
  assert (Hcut : slice_to (q ++ [c]) (length (q ++ [c]) - 1) = Some q).
  { replace (length (q ++ [c]) - 1) with (length q) by (rewrite app_length; cbn; lia).
    apply slice_to_app. by apply boundary_before. }
  assert (Hmatch : forall (A : Type) (x y : A), match q ++ [c] with [] => x | _ => y end = y).
  { intros A x y. by destruct q. }
  rewrite Hmatch, Hcut.
  assert (Hpre : forall p, p `prefix_of` q ++ [c] <-> p = q ++ [c] \/ p `prefix_of` q).
  { intros p. split.
    - intros [k Hk]. destruct (decide (k = [])) as [->|Hk0].
      + rewrite app_nil_r in Hk. by left.
      + destruct (exists_last Hk0) as (k' & d & ->). rewrite app_assoc in Hk.
        apply app_inj_tail in Hk as [-> _]. right. by exists k'.
    - intros [->|H]; [done|]. by apply prefix_app_r. }
  destruct (last_separator false 0 None q) as [pos|] eqn:E.
  - destruct (cut_at_separator q pos Hq E) as (x & Hx & Hxv & Hxp & Hxs & Hmax).
    rewrite Hx. pose proof (prefix_length_le _ _ Hxp) as Hle.
    destruct (IH x) as (ps & Hps & Hsort & Hhd & Hall); [lia|done|done|].
    rewrite Hps. exists ((q ++ [c]) :: ps). split; [done|]. split; [|split; [done|]].
    + constructor; [done|]. apply Forall_forall. intros p [Hp _]%Hall.
      apply prefix_length_le in Hp. rewrite app_length. cbn. lia.
    + intros p. rewrite elem_of_cons, Hall, Hpre. split.
      * intros [->|[H1 H2]]; [by split; [left|]|]. split; [|done]. right. by etrans.
      * intros [[->|H1] H2]; [by left|]. right. split; [|done]. by apply Hmax.
  - pose proof (last_separator_spec q) as Hno. rewrite E in Hno.
    exists [q ++ [c]]. split; [done|]. split; [repeat constructor|]. split; [done|].
    intros p. rewrite elem_of_list_singleton, Hpre. split.
    + intros ->. by split; [left|].
    + intros [[->|H1] H2]; [done|]. by destruct (Hno p).
Qed.

Lemma cargo_separator : at_separator (lit "cargo:").
Proof.
  exists (lit "cargo"), ":"%char. split; [done|]. right. split; [by right|].
  intros H%has_char_spec. done.
Qed.

Lemma suggested_rules_spec i :
  utf8_valid i = true -> directive i ->
  exists ps, suggested_rules i = Some (map (fun p => p ++ lit "*") ps) /\
    StronglySorted (fun a b : str => length b < length a) ps /\
    (forall p, p ∈ ps <-> p `prefix_of` i /\ at_separator p).
Proof.
  intros Hv Hd. unfold suggested_rules.
  destruct (last_separator false 0 None i) as [pos|] eqn:E.
  - destruct (cut_at_separator i pos Hv E) as (x & Hx & Hxv & Hxp & Hxs & Hmax).
    rewrite Hx. pose proof (prefix_length_le _ _ Hxp) as Hle.
    destruct (suggestion_loop_spec (S (length i)) x) as (ps & Hps & Hsort & Hhd & Hall);
      [lia|done|done|].
    exists ps. split; [done|]. split; [done|]. intros p. rewrite Hall. split.
    + intros [H1 H2]. split; [|done]. by etrans.
    + intros [H1 H2]. split; [|done]. by apply Hmax.
  - pose proof (last_separator_spec i) as Hno. rewrite E in Hno.
    exfalso. apply (Hno (lit "cargo:")); [done|apply cargo_separator].
Qed.

Lemma directive_prefixes i p :
  directive i -> p `prefix_of` i -> at_separator p -> lit "cargo:" `prefix_of` p.
Proof.
  intros Hd Hp Hs. destruct (prefix_weak_total p (lit "cargo:") i Hp Hd) as [H|H]; [|done].
  destruct Hs as (q & c & -> & Hc). destruct H as [k Hk].
  do 6 (destruct q as [|? q]; [cbn in Hk; injection Hk; intros; subst;
     first [done | destruct Hc as [?|[[?|?] _]]; done]|cbn in Hk; injection Hk as <- Hk]).
  cbn in Hk. destruct q; done.
Qed.

Lemma sorted_last {A} (R : A -> A -> Prop) l x y :
  StronglySorted R l -> last l = Some x -> y ∈ l -> y = x \/ R y x.
Proof.
  induction 1 as [|a l Hs IH Hall]; intros Hl Hy; [done|].
  apply elem_of_cons in Hy as [->|Hy].
  - destruct l as [|b l]; [left; cbn in Hl; congruence|]. right.
    apply (proj1 (Forall_forall _ _) Hall). apply last_Some_elem_of. by rewrite last_cons_cons in Hl.
  - apply IH; [|done]. destruct l as [|b l]; [by apply elem_of_nil in Hy|].
    by rewrite last_cons_cons in Hl.
Qed.

Lemma suggestions_last i ps :
  directive i ->
  StronglySorted (fun a b : str => length b < length a) ps ->
  (forall p, p ∈ ps <-> p `prefix_of` i /\ at_separator p) ->
  last ps = Some (lit "cargo:").
Proof.
  intros Hd Hs Hall.
  assert (Hin : lit "cargo:" ∈ ps) by (apply Hall; split; [done|apply cargo_separator]).
  destruct (last ps) as [x|] eqn:E; [|apply last_None in E as ->; by apply elem_of_nil in Hin].
  destruct (sorted_last _ _ _ _ Hs E Hin) as [<-|Hlt]; [done|].
  assert (Hx : x ∈ ps) by by apply last_Some_elem_of.
  apply Hall in Hx as [Hx1 Hx2]. pose proof (directive_prefixes _ _ Hd Hx1 Hx2) as Hp.
  apply prefix_length_le in Hp. lia.
Qed.

Lemma StronglySorted_map {A B} (R : A -> A -> Prop) (S : B -> B -> Prop) (f : A -> B) l :
  (forall a b, R a b -> S (f a) (f b)) -> StronglySorted R l -> StronglySorted S (map f l).
Proof.
  intros Hf. induction 1 as [|a l Hs IH Hall]; cbn; constructor; [done|].
  apply Forall_map. eapply Forall_impl; [exact Hall|]. intros. by apply Hf.
Qed.

Lemma permits_suggestion p i : p `prefix_of` i -> permits (p ++ lit "*") i.
Proof. intros H. left. eauto. Qed.

(** A reported instruction is a directive in valid text. *)
Lemma reported_directive ps pkg stdout i :
  PDisallowedBuildInstruction pkg i ∈ br_problems (bs_build ps pkg stdout) ->
  utf8_valid stdout = true /\ i ∈ str_lines stdout /\ utf8_valid i = true /\
  rejected (allowed_instructions ps pkg) i.
Proof.
  intros Hin. destruct (utf8_valid stdout) eqn:Hv.
  - destruct (bs_build_valid ps pkg _ stdout _ Hv (lines_of_total stdout)
      (proj2 (rules_in_force_fun _ _ _) eq_refl)) as (bad & vars & Hb & _ & Hp & _).
    rewrite Hp in Hin. apply elem_of_list_fmap in Hin as (x & [= ->] & Hx).
    destruct (gathered_elem _ _ _ _ Hb Hx) as (l & Hl & Hr & ->).
    split; [done|]. split; [done|]. split; [|done].
    by apply (lines_valid _ _ _ (lines_of_total stdout)).
  - unfold bs_build in Hin. rewrite Hv in Hin. cbn in Hin.
    by apply elem_of_list_singleton in Hin.
Qed.

Lemma suggestions_spec ps pkg stdout i :
  PDisallowedBuildInstruction pkg i ∈ br_problems (bs_build ps pkg stdout) ->
  exists rules, suggested_rules i = Some rules /\
    (forall r, r ∈ rules <-> exists p, r = p ++ lit "*" /\ p `prefix_of` i /\ at_separator p) /\
    StronglySorted (fun a b : str => length b < length a) rules /\
    last rules = Some (lit "cargo:*").
Proof.
  intros (_ & _ & Hv & Hd & _)%reported_directive.
  destruct (suggested_rules_spec i Hv Hd) as (qs & Hq & Hs & Hall).
  exists (map (fun p => p ++ lit "*") qs). split; [done|]. split; [|split].
  - intros r. rewrite elem_of_list_fmap. split.
    + intros (p & -> & [H1 H2]%Hall). by exists p.
    + intros (p & -> & H). exists p. split; [done|]. by apply Hall.
  - eapply StronglySorted_map; [|exact Hs]. intros a b H. cbn in H |- *.
    rewrite !app_length. cbn. lia.
  - rewrite fmap_last, (suggestions_last i qs Hd Hs Hall). done.
Qed.

Lemma fix_works ps pkg stdout i rules rule ps' allow allow' :
  PDisallowedBuildInstruction pkg i ∈ br_problems (bs_build ps pkg stdout) ->
  suggested_rules i = Some rules -> rule ∈ rules ->
  rules_in_force ps pkg allow -> rules_in_force ps' pkg allow' ->
  rule ∈ allow' -> allow ⊆ allow' ->
  PDisallowedBuildInstruction pkg i ∉ br_problems (bs_build ps' pkg stdout) /\
  br_problems (bs_build ps' pkg stdout) ⊆ br_problems (bs_build ps pkg stdout).
Proof.
  intros Hin Hsug Hrule Ha Ha' Hr' Hsub.
  pose proof (suggestions_spec _ _ _ _ Hin) as (rules' & Hr1 & Hr2 & _).
  rewrite Hsug in Hr1. injection Hr1 as <-.
  apply Hr2 in Hrule as (p & -> & Hp & _).
  pose proof (reported_directive _ _ _ _ Hin) as (Hv & _ & _ & _).
  destruct (bs_build_valid ps pkg _ stdout _ Hv (lines_of_total stdout) Ha)
    as (bad & vars & Hb & _ & Hpb & _).
  destruct (bs_build_valid ps' pkg _ stdout _ Hv (lines_of_total stdout) Ha')
    as (bad' & vars' & Hb' & _ & Hpb' & _).
  rewrite Hpb, Hpb'. split.
  - intros (x & [= <-] & Hx)%elem_of_list_fmap.
    destruct (gathered_elem _ _ _ _ Hb' Hx) as (l & _ & (_ & _ & Hno) & ->).
    apply Hno. exists (p ++ lit "*"). split; [done|]. by apply permits_suggestion.
  - intros x (y & -> & Hy)%elem_of_list_fmap.
    destruct (gathered_elem _ _ _ _ Hb' Hy) as (l & Hl & (H1 & H2 & H3) & ->).
    apply elem_of_list_fmap. exists l. split; [done|].
    eapply gathered_in; [|exact Hb|exact Hl|]; cbn.
    + intros ? ? ? [_ ->] [_ ->]. done.
    + split; [|done]. split; [done|]. split; [done|].
      intros (r & Hr & Hm). apply H3. exists r. split; [by apply Hsub|done].
Qed.

(** ** Recorded variables *)

Lemma pretty_go_digits x s c :
  c ∈ list_ascii_of_string (pretty_N_go x s) ->
  c ∈ list_ascii_of_string s \/ exists d, c = pretty_N_char d.
Proof.
  revert s. induction (N.lt_wf_0 x) as [x _ IH]; intros s.
  assert (x = 0 \/ 0 < x)%N as [->|Hx] by lia.
  - rewrite pretty_N_go_0. by left.
  - rewrite pretty_N_go_step by done. intros H.
    apply IH in H; [|by apply N.div_lt]. destruct H as [H|H]; [|by right].
    cbn in H. apply elem_of_cons in H as [->|H]; [right; eauto|by left].
Qed.

Lemma digit_char_cases d :
  pretty_N_char d ∈ [ "0"; "1"; "2"; "3"; "4"; "5"; "6"; "7"; "8"; "9" ]%char.
Proof. unfold pretty_N_char. repeat case_match; set_solver. Qed.

Lemma pretty_nat_digits (n : nat) c :
  c ∈ list_ascii_of_string (pretty n) ->
  c ∈ [ "0"; "1"; "2"; "3"; "4"; "5"; "6"; "7"; "8"; "9" ]%char.
Proof.
  unfold pretty, pretty_nat, pretty, pretty_N. case_decide.
  - cbn. intros ->%elem_of_list_singleton. set_solver.
  - intros [H1|(d & ->)]%pretty_go_digits; [by apply elem_of_nil in H1|].
    apply digit_char_cases.
Qed.

Lemma pretty_nat_nonempty (n : nat) : list_ascii_of_string (pretty n) <> [].
Proof.
  intros H. destruct (pretty n) as [|? ?] eqn:E; [|done].
  assert (Hlen : forall x s, s <> EmptyString -> pretty_N_go x s <> EmptyString).
  { intros x. induction (N.lt_wf_0 x) as [x _ IH]; intros s Hs.
    assert (x = 0 \/ 0 < x)%N as [->|Hx] by lia.
    - by rewrite pretty_N_go_0.
    - rewrite pretty_N_go_step by done. apply IH; [by apply N.div_lt|done]. }
  unfold pretty, pretty_nat, pretty, pretty_N in E. case_decide; [done|].
  rewrite pretty_N_go_step in E by lia. by apply Hlen in E.
Qed.

Lemma pretty_nat_str_inj (m n : nat) :
  list_ascii_of_string (pretty m) = list_ascii_of_string (pretty n) -> m = n.
Proof.
  intros H. apply (inj pretty). rewrite <- (string_of_list_ascii_of_string (pretty m)), H.
  apply string_of_list_ascii_of_string.
Qed.

Lemma pretty_nat_no c (n : nat) :
  c ∉ [ "0"; "1"; "2"; "3"; "4"; "5"; "6"; "7"; "8"; "9" ]%char ->
  c ∉ list_ascii_of_string (pretty n).
Proof. intros H H2. by apply H, pretty_nat_digits with n. Qed.

Lemma not_digit c :
  has_char c [ "0"; "1"; "2"; "3"; "4"; "5"; "6"; "7"; "8"; "9" ]%char = false ->
  c ∉ [ "0"; "1"; "2"; "3"; "4"; "5"; "6"; "7"; "8"; "9" ]%char.
Proof. intros H H2%has_char_spec. congruence. Qed.

Lemma version_string_inj v w : version_string v = version_string w -> v = w.
Proof.
  unfold version_string. set (f := fun n : nat => list_ascii_of_string (pretty n)).
  change (lit ".") with ["."%char]. intros H.
  assert (Hno : forall (l : list nat) x, x ∈ map f l -> "."%char ∉ x).
  { intros l x (n & -> & _)%elem_of_list_fmap. by apply pretty_nat_no, not_digit. }
  assert (Hne : forall n l, join ["."%char] (map f (n :: l)) <> []).
  { intros n l Hj. pose proof (pretty_nat_nonempty n) as Hn. destruct l as [|m l]; cbn in Hj.
    - by apply Hn.
    - by apply app_eq_nil in Hj as [? _]. }
  destruct v as [|n v], w as [|m w].
  - done.
  - by destruct (Hne m w).
  - by destruct (Hne n v).
  - assert (Hmap : map f (n :: v) = map f (m :: w)).
    { rewrite <- (split_join "." (map f (n :: v))), <- (split_join "." (map f (m :: w)));
        [by f_equal|done|by apply Hno|done|by apply Hno]. }
    revert Hmap. apply fmap_inj. intros a b. apply pretty_nat_str_inj.
Qed.

Lemma filter_one {A} (P : A -> Prop) `{forall x, Decision (P x)} (l : list A) a b :
  length (filter P l) = 1 -> a ∈ l -> P a -> b ∈ l -> P b -> a = b.
Proof.
  intros Hl Ha HPa Hb HPb.
  assert (H1 : a ∈ filter P l) by by apply elem_of_list_filter.
  assert (H2 : b ∈ filter P l) by by apply elem_of_list_filter.
  destruct (filter P l) as [|x [|? ?]]; cbn in Hl; try lia.
  apply elem_of_list_singleton in H1, H2. congruence.
Qed.

Lemma pkg_string_inj idx p q :
  (forall k, k ∈ idx -> "["%char ∉ pk_name k) ->
  known idx p -> known idx q -> pkg_string idx p = pkg_string idx q -> p = q.
Proof.
  intros Hno (kp & Hkp & Hnp & Hvp) (kq & Hkq & Hnq & Hvq) H.
  assert (Hp : "["%char ∉ pi_name p) by (rewrite <- Hnp; by apply Hno).
  assert (Hq : "["%char ∉ pi_name q) by (rewrite <- Hnq; by apply Hno).
  unfold pkg_string in H. change (lit "[") with ["["%char] in H. cbn [app] in H.
  destruct (name_is_unique idx (pi_name p)) eqn:Ep, (name_is_unique idx (pi_name q)) eqn:Eq.
  - rewrite !app_nil_r in H. unfold name_is_unique in Ep. apply Nat.eqb_eq in Ep.
    assert (kp = kq) as <-.
    { eapply (filter_one _ _ _ _ Ep); [done|done|done|]. cbn. congruence. }
    destruct p, q; cbn in *. congruence.
  - rewrite app_nil_r in H. exfalso. apply Hp. rewrite H. apply elem_of_app. right. left.
  - rewrite app_nil_r in H. exfalso. apply Hq. rewrite <- H. apply elem_of_app. right. left.
  - assert (H1 : split_once "[" (pi_name p ++ "["%char :: version_string (pi_version p) ++ lit "]")
        = Some (pi_name p, version_string (pi_version p) ++ lit "]")).
    { by apply split_once_spec. }
    assert (H2 : split_once "[" (pi_name q ++ "["%char :: version_string (pi_version q) ++ lit "]")
        = Some (pi_name q, version_string (pi_version q) ++ lit "]")).
    { by apply split_once_spec. }
    rewrite H in H1. rewrite H1 in H2. injection H2 as Hn Hv.
    apply app_inj_tail in Hv as [Hv _]. apply version_string_inj in Hv.
    destruct p, q; cbn in *. congruence.
Qed.

Lemma join_valid names :
  (forall n, n ∈ names -> utf8_valid n = true) -> utf8_valid (join [nl] names) = true.
Proof.
  induction names as [|x l IH]; intros H; [done|]. destruct l as [|y l].
  - cbn. apply H. left.
  - cbn [join]. rewrite utf8_valid_app by (apply H; left).
    rewrite utf8_valid_app by done. apply IH. intros n Hn. apply H. by right.
Qed.

Lemma read_write names :
  (forall n, n ∈ names -> utf8_valid n = true /\ nl ∉ n) ->
  (if utf8_valid (join [nl] names)
   then filter (fun line => line <> []) (split_char nl (join [nl] names)) else [])
  = filter (fun line => line <> []) names.
Proof.
  intros H. rewrite join_valid by (intros; by apply H).
  destruct names as [|x l]; [done|]. rewrite split_join; [done|done|].
  intros y Hy. by apply H.
Qed.

Lemma sets_variable_valid line v :
  utf8_valid line = true -> nl ∉ line -> sets_variable line v -> utf8_valid v = true /\ nl ∉ v.
Proof.
  intros Hv Hnl (value & -> & _).
  assert (Hpre : utf8_valid (lit "cargo:rustc-env=") = true) by done.
  rewrite utf8_valid_app in Hv by done. change (lit "=") with ["="%char] in Hv. cbn [app] in Hv.
  split.
  - by destruct (utf8_split v "=" value eq_refl Hv).
  - intros H. apply Hnl. apply elem_of_app. right. apply elem_of_app. by left.
Qed.

Lemma br_env_valid ps pkg stdout n :
  n ∈ br_env (bs_build ps pkg stdout) -> utf8_valid n = true /\ nl ∉ n.
Proof.
  destruct (utf8_valid stdout) eqn:Hv.
  - destruct (bs_build_valid ps pkg _ stdout _ Hv (lines_of_total stdout)
      (proj2 (rules_in_force_fun _ _ _) eq_refl)) as (bad & vars & _ & Hg & _ & ->).
    intros Hn. destruct (gathered_elem _ _ _ _ Hg Hn) as (l & Hl & Hs).
    destruct (lines_valid _ _ _ (lines_of_total stdout) Hv Hl) as [H1 H2].
    by apply (sets_variable_valid l).
  - unfold bs_build. rewrite Hv. cbn. by intros ?%elem_of_nil.
Qed.

Definition recorded (ps : permissions) (p : pkg_id) (o : option str) : list str :=
  match o with
  | Some stdout => filter (fun v => v <> []) (br_env (bs_build ps p stdout))
  | None => []
  end.

Lemma latest_success_app rs1 rs2 profile p :
  latest_success (rs1 ++ rs2) profile p =
  match latest_success rs2 profile p with
  | Some o => Some o
  | None => latest_success rs1 profile p
  end.
Proof.
  induction rs1 as [|[[[pr sel] code] out] rs1 IH]; cbn.
  - by destruct (latest_success rs2 profile p).
  - rewrite IH. by destruct (latest_success rs2 profile p).
Qed.

Lemma recorded_runs idx ps rs profile p :
  (forall k, k ∈ idx -> "["%char ∉ pk_name k) ->
  (forall r, r ∈ rs -> known idx (cs_pkg (r.1.1.2))) -> known idx p ->
  read_env_vars idx (foldl (record_run idx ps) ∅ rs) profile p
  = recorded ps p (latest_success rs profile p).
Proof.
  intros Hno. induction rs as [|[[[pr sel] code] out] rs IH] using rev_ind; intros Hk Hp.
  - cbn. unfold read_env_vars. by rewrite lookup_empty.
  - rewrite foldl_app. cbn [foldl]. rewrite latest_success_app.
    assert (Hsel : known idx (cs_pkg sel)).
    { apply (Hk (pr, sel, code, out)). apply elem_of_app. right. left. }
    specialize (IH (fun r Hr => Hk r (proj2 (elem_of_app _ _ _) (or_introl Hr))) Hp).
    unfold record_run at 1, execution_complete. cbn [latest_success].
    destruct (Z.eqb code 0) eqn:Ec; cbn [snd].
    2: { rewrite decide_False; [done|]. apply Z.eqb_neq in Ec. tauto. }
    apply Z.eqb_eq in Ec as ->.
    destruct sel as [sp [| |]]; cbn [cs_kind cs_pkg snd].
    1, 3: rewrite decide_False; [done|]; intros (_ & ? & _); congruence.
    cbn [cs_pkg] in Hsel. unfold write_env_vars, read_env_vars.
    destruct (decide (pr = profile /\ sp = p)) as [[-> ->]|Hne].
    + rewrite decide_True by done. rewrite lookup_insert. cbn [recorded].
      apply read_write. intros n. apply br_env_valid.
    + rewrite decide_False; [|intros (? & [= ?] & _); tauto].
      rewrite lookup_insert_ne; [exact IH|].
      intros [= H1 H2]. apply Hne. split; [done|].
      by apply (pkg_string_inj idx).
Qed.

Lemma recorded_runs_spec idx ps rs profile p :
  (forall k, k ∈ idx -> "["%char ∉ pk_name k) ->
  (forall r, r ∈ rs -> known idx (cs_pkg (r.1.1.2))) -> known idx p ->
  match latest_success rs profile p with
  | Some stdout =>
      if utf8_valid stdout then
        exists ls vars, lines_of stdout ls /\ gathered sets_variable ls vars /\
          read_env_vars idx (foldl (record_run idx ps) ∅ rs) profile p
          = filter (fun v => v <> []) vars
      else read_env_vars idx (foldl (record_run idx ps) ∅ rs) profile p = []
  | None => read_env_vars idx (foldl (record_run idx ps) ∅ rs) profile p = []
  end.
Proof.
  intros Hno Hk Hp. rewrite (recorded_runs idx ps rs profile p Hno Hk Hp).
  destruct (latest_success rs profile p) as [stdout|]; [|done]. cbn [recorded].
  destruct (utf8_valid stdout) eqn:Hv.
  - destruct (bs_build_valid ps p _ stdout _ Hv (lines_of_total stdout)
      (proj2 (rules_in_force_fun _ _ _) eq_refl)) as (bad & vars & _ & Hg & _ & ->).
    exists (str_lines stdout), vars. split; [apply lines_of_total|]. done.
  - unfold bs_build. by rewrite Hv.
Qed.
