(** Proofs about titles of fixes. *)
From stdpp Require Import pretty sorting.
From Verif Require Import Base BaseFacts TextModel ApiMapModel ConfigModel ConfigSpec ProblemModel BuildScriptModel
  EditorModel ReportModel ReportSpec ReportProofs ReportHeadProofs TitleModel TitleSpec.

(** ** The forms of the fixes of a menu *)

Section forms.
  Context (failed_in : nat -> sandbox_config) (exported : nat -> api_config)
    (prefixes : bool -> list api_usage -> option (list str)).
  Notation offered p c := (fixes_for_problem failed_in exported prefixes p c).

  Lemma include_form (c : config) (api : str) (l : list str) (e : edit) :
    e ∈ include_fixes c api l -> exists path, e = ExtendApi api path.
  Proof.
    unfold include_fixes. destruct (rc_apis _ !! _) as [ac|]; [|by intros ?%elem_of_nil].
    intros (x & _ & H)%elem_of_list_omap. destruct (mem_str _ _); [done|].
    destruct (existsb _ _); [done|]. injection H as <-. eauto.
  Qed.

  Lemma exclude_form (c : config) (api : str) (l : list str) (e : edit) :
    e ∈ exclude_fixes c api l -> exists path, e = ExcludeFromApi api path.
  Proof.
    unfold exclude_fixes. destruct (rc_apis _ !! _) as [ac|]; [|by intros ?%elem_of_nil].
    intros (x & _ & H)%elem_of_list_omap. destruct (mem_str _ _); [done|].
    destruct (existsb _ _); [|done]. injection H as <-. eauto.
  Qed.

  Lemma allow_form (u : api_usages) (e : edit) :
    e ∈ allow_api_fixes u -> exists s, e = AllowApiUsage (pi_name (au_pkg u), s) (au_api u).
  Proof. unfold allow_api_fixes. intros (s & -> & _)%elem_of_list_fmap. eauto. Qed.

  Inductive form : problem -> edit -> Prop :=
  | f_missing_1 f : form (PMissingConfiguration f) CreateRecommendedConfig
  | f_missing_2 f : form (PMissingConfiguration f) CreateCustomConfig
  | f_select k : form PSelectSandbox (SelectSandbox k)
  | f_std_1 api : form (PImportStdApi api) (ImportStdApi api)
  | f_std_2 api : form (PImportStdApi api) (InlineStdApi api)
  | f_std_3 api : form (PImportStdApi api) (IgnoreStdApi api)
  | f_api_1 p api n : form (PAvailableApi p api n) (ImportApi (pi_name p) api)
  | f_api_2 p api n : form (PAvailableApi p api n) (InlineApi (pi_name p) api (exported n))
  | f_api_3 p api n : form (PAvailableApi p api n) (IgnoreApi (pi_name p))
  | f_use_1 u s : form (PDisallowedApiUsage u) (AllowApiUsage (pi_name (au_pkg u), s) (au_api u))
  | f_use_2 u x : form (PDisallowedApiUsage u) (ExcludeFromApi (au_api u) x)
  | f_macro p : form (PIsProcMacro p) (AllowProcMacro (pi_name p, All))
  | f_fail_1 k o : form (PExecutionFailed k o) (SandboxAllowNetwork (pi_name (cs_pkg k), Build))
  | f_fail_2 k o : form (PExecutionFailed k o) (DisableSandbox (pi_name (cs_pkg k), Build))
  | f_instr p i r : form (PDisallowedBuildInstruction p i) (AllowBuildInstruction (pi_name p, Build) r)
  | f_unsafe k n : form (PDisallowedUnsafe k n) (AllowUnsafe (pi_name (cs_pkg k), scope_of_kind (cs_kind k)))
  | f_extern k n : form (PDisallowedExtern k n) (AllowExtern (pi_name (cs_pkg k), scope_of_kind (cs_kind k)))
  | f_apis s l : form (PUnusedAllowApi s l) (RemoveUnusedAllowApis s l)
  | f_section s : form (PUnusedPackageConfig s) (RemoveUnusedPkgConfig s)
  | f_export_1 p api n : form (PPossibleExportedApi p api n) (ExtendApi api (pi_name p ++ lit "::" ++ api))
  | f_export_2 p api n : form (PPossibleExportedApi p api n) (NoDetectApi api (pi_name p))
  | f_off_1 u o x : form (POffTreeApiUsage u o) (ExtendApi (au_api u) x)
  | f_off_2 u o x : form (POffTreeApiUsage u o) (ExcludeFromApi (au_api u) x)
  | f_off_3 u o s : form (POffTreeApiUsage u o) (AllowApiUsage (pi_name (au_pkg u), s) (au_api u))
  | f_version_1 v : form (PNewConfigVersionAvailable v) (UpdateConfigVersion (Z.to_nat v))
  | f_version_2 v : form (PNewConfigVersionAvailable v) (UpdateConfigVersionPreserveBehaviour (Z.to_nat v)).

  Lemma offered_form (p : problem) (c : config) (e : edit) : e ∈ offered p c -> form p e.
  Proof.
    destruct p; cbn [fixes_for_problem]; intros H;
      repeat match goal with
        | H : _ ∈ [] |- _ => by apply elem_of_nil in H
        | H : _ ∈ _ :: _ |- _ => apply elem_of_cons in H as [->|H]
        | H : _ ∈ (if ?b then _ else _) |- _ => destruct b
        | H : _ ∈ _ ++ _ |- _ => apply elem_of_app in H as [H|H]
        | H : _ ∈ include_fixes _ _ _ |- _ => apply include_form in H as [? ->]
        | H : _ ∈ exclude_fixes _ _ _ |- _ => apply exclude_form in H as [? ->]
        | H : _ ∈ allow_api_fixes _ |- _ => apply allow_form in H as [? ->]
        | H : _ ∈ map _ _ |- _ => apply elem_of_list_fmap in H as (? & -> & _)
        end; constructor.
  Qed.
End forms.

(** ** Menus *)

Section titles.
  Context (version_text : list nat -> str) (unique : pkg_id -> bool).
  Notation title := (title version_text unique).

  Lemma in_ticks (a b x : str) : lit "`" ++ a ++ lit "`" ++ x = lit "`" ++ b ++ lit "`" ++ x -> a = b.
  Proof. intros H. apply app_inv_head in H. by apply app_inv_tail in H. Qed.

  Lemma menu_titles (exported : nat -> api_config) (p : problem) (e f : edit) :
    form exported p e -> form exported p f -> title p e = title p f -> e = f.
  Proof.
    intros He Hf H. destruct He; inversion Hf; subst; cbn [TitleModel.title] in H;
      try reflexivity; try discriminate H.
    - destruct k, k0; try discriminate H; reflexivity.
    - unfold quoted in H. do 4 (apply app_inv_head in H).
      destruct s, s0; try discriminate H; reflexivity.
    - apply app_inv_head in H. unfold quoted in H. rewrite <- !app_assoc in H. apply in_ticks in H as ->. reflexivity.
    - do 3 (apply app_inv_head in H). apply quoted_end in H as ->. reflexivity.
    - apply app_inv_head in H. unfold quoted in H. rewrite <- !app_assoc in H. apply in_ticks in H as ->. reflexivity.
    - apply app_inv_head in H. unfold quoted in H. rewrite <- !app_assoc in H. apply in_ticks in H as ->. reflexivity.
    - unfold quoted in H. do 4 (apply app_inv_head in H).
      destruct s, s0; try discriminate H; reflexivity.
    - apply app_inv_head in H. rewrite <- (app_nil_r (number _)) in H at 1. apply app_inv_head in H. discriminate H.
    - apply app_inv_head in H. rewrite <- (app_nil_r (number _)) in H at 2. apply app_inv_head in H. discriminate H.
  Qed.
End titles.

(** ** Titles alone *)

Lemma shown_quotable (s : str) : Forall (fun c => shown_char c = true) s -> quotable s.
Proof. intros H Hn. eapply Forall_forall in H; [|exact Hn]. vm_compute in H. discriminate H. Qed.

Lemma plain_quotable (s : str) : plain s -> quotable s.
Proof. intros H. by apply shown_quotable, plain_shown. Qed.

Lemma number_quotable (n : N) : quotable (number n).
Proof. apply number_not. apply (bool_decide_unpack _). vm_compute. exact I. Qed.

Lemma number_space (m n : N) (x : str) : number m = number n ++ " "%char :: x -> False.
Proof.
  intros H. assert (Hin : " "%char ∈ number m) by (rewrite H; apply elem_of_app; right; left).
  revert Hin. apply number_not. apply (bool_decide_unpack _). vm_compute. exact I.
Qed.

Section alone.
  Context (version_text : list nat -> str) (unique : pkg_id -> bool)
    (versions : forall v, plain_version (version_text v)).
  Notation title := (title version_text unique).
  Notation shown_text p := (pkg_display (shown_id version_text unique p)).

  (** The pieces of a title between backticks. *)
  Definition parts (p : problem) (e : edit) : list str :=
    match e with
    | CreateCustomConfig => [lit "Create custom initial config"]
    | CreateRecommendedConfig => [lit "Create recommended initial config"]
    | SelectSandbox kind => [kind_debug kind]
    | ImportStdApi api => [lit "Import std API "; api; []]
    | ImportApi pkg api => [lit "Import API "; api; lit " from package "; pkg; []]
    | InlineStdApi api => [lit "Inline std API "; api; []]
    | InlineApi _ api _ => [lit "Inline API "; api; lit " from package "; shown_text (subject p).1; []]
    | IgnoreStdApi api => [lit "Ignore std API "; api; []]
    | IgnoreApi _ => [lit "Ignore API "; (subject p).2; lit " provided by package "; shown_text (subject p).1; []]
    | ExtendApi api path => [lit "Include "; path; lit " in API "; api; []]
    | ExcludeFromApi api path => [lit "Exclude "; path; lit " from API "; api; []]
    | NoDetectApi api pkg => [lit "Don't detect "; api; lit " in "; pkg; []]
    | AllowApiUsage sel api =>
        [lit "Allow "; shown_text (subject p).1; lit " to use "; api; lit " API" ++ scope_title sel.2]
    | RemoveUnusedAllowApis _ _ => [lit "Remove unused allowed APIs"]
    | RemoveUnusedPkgConfig _ => [lit "Remove unused crate configuration"]
    | UpdateConfigVersion n => [lit "Update config to version " ++ number (N.of_nat n)]
    | UpdateConfigVersionPreserveBehaviour n =>
        [lit "Update config to version " ++ number (N.of_nat n) ++ lit " while preserving old behaviour"]
    | AllowProcMacro sel => [lit "Allow proc macro "; section_display sel; []]
    | AllowBuildInstruction sel i =>
        [lit "Allow build script for "; section_display sel; lit " to emit instruction "; i; []]
    | DisableSandbox sel => [lit "Disable sandbox for "; section_display sel; []]
    | AllowUnsafe sel => [lit "Allow package "; section_display sel; lit " to use unsafe code"]
    | AllowExtern sel => [lit "Allow package "; section_display sel; lit " to use extern code"]
    | SandboxAllowNetwork sel => [lit "Permit network from sandbox for "; section_display sel; []]
    end.

  Lemma quotable_app (a b : str) : quotable a -> quotable b -> quotable (a ++ b).
  Proof. unfold quotable. rewrite elem_of_app. tauto. Qed.

  Lemma sel_quotable (sel : perm_sel) : plain sel.1 -> quotable (section_display sel).
  Proof. intros H. by apply shown_quotable, section_shown. Qed.

  Lemma shown_id_plain (q : pkg_id) : plain (pi_name q) -> plain_pkg (shown_id version_text unique q).
  Proof. intros H. split; [exact H|apply versions]. Qed.

  Lemma id_quotable (q : pkg_id) : plain (pi_name q) -> quotable (shown_text q).
  Proof. intros H. by apply shown_quotable, sel_shown, shown_id_plain. Qed.

  Lemma split_one (x a y : str) :
    quotable x -> quotable a ->
    split_char "`"%char (x ++ quoted a ++ y) = x :: a :: split_char "`"%char y.
  Proof.
    intros Hx Ha. unfold quoted. rewrite <- !app_assoc.
    change (lit "`" ++ a ++ lit "`" ++ y) with ("`"%char :: a ++ "`"%char :: y).
    rewrite split_char_app by exact Hx. by rewrite split_char_app by exact Ha.
  Qed.

  Lemma split_end (x a : str) :
    quotable x -> quotable a -> split_char "`"%char (x ++ quoted a) = [x; a; []].
  Proof. intros Hx Ha. rewrite <- (app_nil_r (quoted a)). by rewrite split_one. Qed.

  Lemma about_facts (exported : nat -> api_config) (p : problem) (e : edit) :
    form exported p e -> about_plain p ->
    match e with
    | InlineApi pkg api _ => pkg = pi_name (subject p).1 /\ plain (pi_name (subject p).1)
    | IgnoreApi pkg => pkg = pi_name (subject p).1 /\ plain (pi_name (subject p).1) /\ plain (subject p).2
    | AllowApiUsage sel _ => sel.1 = pi_name (subject p).1 /\ plain (pi_name (subject p).1)
    | _ => True
    end.
  Proof. intros Hf Ha. destruct Hf; cbn in *; tauto. Qed.

  Lemma split_title (exported : nat -> api_config) (p : problem) (e : edit) :
    form exported p e -> about_plain p -> named_plainly e -> split_char "`"%char (title p e) = parts p e.
  Proof.
    intros Hf Ha He. pose proof (about_facts exported p e Hf Ha) as Hs. clear Hf Ha.
    assert (L : forall x : string, bool_decide ("`"%char ∉ lit x) = true -> quotable (lit x))
      by (intros x Hx; by apply bool_decide_eq_true in Hx).
    destruct e; cbn [TitleModel.title parts named_plainly] in *;
      repeat match goal with H : _ /\ _ |- _ => destruct H end;
      repeat first
        [ rewrite split_one | rewrite split_end | rewrite split_char_none ];
      try reflexivity;
      repeat match goal with
        | |- quotable (lit _) => apply L; vm_compute; reflexivity
        | |- "`"%char ∉ ?x => change (quotable x)
        | |- quotable (lit _ ++ _) => apply quotable_app
        | |- quotable (number _) => apply number_quotable
        | |- quotable (number _ ++ _) => apply quotable_app
        | |- quotable (section_display _) => apply sel_quotable; assumption
        | |- quotable (pkg_display _) => apply id_quotable; assumption
        | |- quotable (kind_debug ?k) => destruct k; (apply L; vm_compute; reflexivity)
        | |- quotable (scope_title ?k) =>
            destruct k; first [apply L; vm_compute; reflexivity|apply not_elem_of_nil]
        | |- quotable _ => first [assumption|apply plain_quotable; assumption]
        end.
  Qed.

  Lemma alone (exported exported' : nat -> api_config) (p q : problem) (e f : edit) :
    form exported p e -> form exported' q f -> about_plain p -> about_plain q ->
    named_plainly e -> named_plainly f -> title p e = title q f -> e = f \/ needs_problem e f.
  Proof.
    intros Fe Ff Ap Aq He Hf H. apply (f_equal (split_char "`"%char)) in H.
    rewrite (split_title exported p e Fe Ap He), (split_title exported' q f Ff Aq Hf) in H.
    pose proof (about_facts exported p e Fe Ap) as Hp. pose proof (about_facts exported' q f Ff Aq) as Hq.
    clear Fe Ff Ap Aq.
    assert (C : forall (a b : str) (l m : list str), a :: l = b :: m -> a = b /\ l = m)
      by (intros a b l m E; split; [exact (f_equal (hd a) E)|exact (f_equal (@tl str) E)]).
    destruct e; destruct f; cbn [parts named_plainly] in *; try discriminate H;
      repeat match goal with
        | H : _ /\ _ |- _ => destruct H
        | H : _ :: _ = _ :: _ |- _ => apply C in H
        end.
    all: try match goal with
        | H : lit _ = lit _ |- _ => discriminate H
        end.
    all: try match goal with
        | H : kind_debug ?k = kind_debug ?j |- _ => destruct k, j; try discriminate H; left; reflexivity
        end.
    all: try match goal with
        | H : kind_debug ?k = _ |- _ => destruct k; discriminate H
        | H : _ = kind_debug ?k |- _ => destruct k; discriminate H
        end.
    all: try match goal with
        | |- ?e = ?e \/ _ => left; reflexivity
        | |- RemoveUnusedAllowApis _ _ = RemoveUnusedAllowApis _ _ \/ _ => right; constructor
        | |- RemoveUnusedPkgConfig _ = RemoveUnusedPkgConfig _ \/ _ => right; constructor
        end.
    all: repeat match goal with
        | H : section_display _ = section_display _ |- _ => apply section_inj in H; [|assumption..]
        | H : pkg_display _ = pkg_display _ |- _ =>
            apply sel_inj in H; [destruct H as [[H _] _]; cbn [shown_id sp_name] in H
                                |apply shown_id_plain; assumption..]
        | H : number _ = number _ |- _ => apply number_inj, Nat2N.inj in H
        | H : lit ?x ++ _ = lit ?x ++ _ |- _ => apply app_inv_head in H
        | H : _ ++ lit ?x = _ ++ lit ?x |- _ => apply app_inv_tail in H
        end.
    all: try (left; congruence).
    all: try (exfalso; match goal with
        | H : number _ = number _ ++ _ |- _ => exact (number_space _ _ _ H)
        | H : number _ ++ _ = number _ |- _ => exact (number_space _ _ _ (eq_sym H))
        end).
    - right. subst. rewrite H10. constructor.
    - left. destruct sel as [n s], sel0 as [m t]. cbn [fst snd] in *.
      assert (s = t) as ->.
      { destruct s, t; first [reflexivity|match goal with H : scope_title _ = scope_title _ |- _ => discriminate H end]. }
      congruence.
  Qed.
End alone.
