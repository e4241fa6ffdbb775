(** Headlines, lists of uses and views of sources. *)
From stdpp Require Import pretty sorting.
From Verif Require Import Base BaseFacts TextModel ConfigModel ReportModel ReportSpec SummaryProofs ReportProofs.

(** ** Headlines *)

(** The characters of displayed packages and sections. *)
Definition shown_char (c : ascii) : bool := plain_char c || bool_decide (c ∈ ["."; "["; "]"]%char).
Notation shown := (Forall (fun c => shown_char c = true)).

Lemma plain_shown (s : str) : plain s -> shown s.
Proof. intros Hs. eapply Forall_impl; [exact Hs|]. intros c H. cbn in H. unfold shown_char. by rewrite H. Qed.

Lemma version_shown (s : str) : plain_version s -> shown s.
Proof. intros Hs. eapply Forall_impl; [exact Hs|]. intros c [H| ->]; [unfold shown_char; by rewrite H|done]. Qed.

Lemma lit_shown (x : string) : forallb shown_char (lit x) = true -> shown (lit x).
Proof. intros H. apply Forall_forall. intros c Hc. eapply forallb_forall in H; [exact H|]. by apply elem_of_list_In. Qed.

Lemma sel_shown (p : shown_pkg) (k : crate_kind) : plain_pkg p -> shown (sel_display p k).
Proof.
  intros [H1 H2]. unfold sel_display. apply Forall_app. split; [by apply plain_shown|].
  apply Forall_app. split; [destruct k; first [by apply lit_shown|by constructor]|].
  destruct (sp_unique p); [done|]. apply Forall_app. split; [by apply lit_shown|].
  apply Forall_app. split; [by apply version_shown|by apply lit_shown].
Qed.

Lemma section_shown (s : perm_sel) : plain s.1 -> shown (section_display s).
Proof.
  intros H. unfold section_display. apply Forall_app. split; [by apply plain_shown|].
  destruct s.2; first [by apply lit_shown|by constructor].
Qed.

Lemma sel_inj (p q : shown_pkg) (k j : crate_kind) :
  plain_pkg p -> plain_pkg q -> sel_display p k = sel_display q j -> same_pkg p q /\ k = j.
Proof.
  intros [Hp Hp'] [Hq Hq'] H. unfold sel_display in H.
  apply (first_cut (fun c => plain_char c = true)) in H as [H1 H2]; [|done|done| |].
  - unfold same_pkg. rewrite H1.
    destruct k, j, (sp_unique p), (sp_unique q); try discriminate H2; try done;
      (change (lit "[" ++ sp_version p ++ lit "]") with (["["%char] ++ sp_version p ++ lit "]") in H2 ||
       idtac); repeat split; try done; intros _;
      repeat (apply app_inv_head in H2); by apply app_inv_tail in H2.
  - destruct k, (sp_unique p); cbn; done.
  - destruct j, (sp_unique q); cbn; done.
Qed.

Lemma section_inj (s t : perm_sel) :
  plain s.1 -> plain t.1 -> section_display s = section_display t -> s = t.
Proof.
  intros Hs Ht H. unfold section_display in H.
  apply (first_cut (fun c => plain_char c = true)) in H as [H1 H2]; [|done|done| |].
  - destruct s as [s []], t as [t []]; cbn in *; subst; try discriminate H2; done.
  - destruct s.2; done.
  - destruct t.2; done.
Qed.

Lemma quoted_inj (a b x y : str) :
  shown a -> shown b -> quoted a ++ x = quoted b ++ y -> a = b /\ x = y.
Proof.
  intros Ha Hb H. unfold quoted in H. rewrite <- !app_assoc in H. apply app_inv_head in H.
  apply (first_cut (fun c => shown_char c = true)) in H as [H1 H2]; [|done..].
  split; [done|]. by injection H2.
Qed.

(** The first character that is none of a displayed name. *)
Fixpoint first_other (s : str) : option ascii :=
  match s with [] => None | c :: s' => if shown_char c then first_other s' else Some c end.

Lemma first_other_app (a x : str) : shown a -> first_other (a ++ x) = first_other x.
Proof. induction 1 as [|c a Hc Ha IH]; [done|]. cbn. by rewrite Hc. Qed.

Lemma quoted_end (a b : str) : quoted a = quoted b -> a = b.
Proof. unfold quoted. intros H. apply app_inv_head in H. by apply app_inv_tail in H. Qed.

Lemma some_pair {A B : Type} (a c : A) (b d : B) : Some (a, b) = Some (c, d) -> a = c /\ b = d.
Proof. by intros [= -> ->]. Qed.

Section headlines.
  Context {K : Type} `{EqDecision K} (name_leb : K -> K -> bool) (name_text : K -> str).

  Definition headline := display name_leb name_text false.

  (** The displayed name at the beginning of a headline in backticks, and what follows. *)
  Definition ticked (p : shown_problem K) : option (str * str) :=
    match p with
    | RUsesBuildScript p => Some (pkg_display p, lit " has a build script")
    | RUnsafe p k _ => Some (sel_display p k, lit " uses unsafe")
    | RExtern p k _ => Some (sel_display p k, lit " uses extern")
    | RProcMacro p => Some (pkg_display p, lit " is a proc macro")
    | RApi p s api _ => Some (pkg_display p, lit " uses the " ++ quoted api ++ lit " API" ++ scope_note s)
    | ROffTree p _ api _ r =>
        Some (pkg_display p, lit " uses " ++ quoted api ++ lit " API from non-dependency " ++ quoted (pkg_display r))
    | RUnusedApis s _ => Some (lit "pkg." ++ section_display s, lit " allows APIs that aren't used")
    | _ => None
    end.

  Lemma ticked_headline (p : shown_problem K) (a x : str) :
    ticked p = Some (a, x) -> headline p = quoted a ++ x.
  Proof.
    unfold headline, display. destruct p; cbn [ticked]; intros [=<- <-]; rewrite ?app_nil_r; try done.
    unfold quoted. by rewrite <- !app_assoc.
  Qed.

  Lemma ticked_shown (p : shown_problem K) (a x : str) :
    plain_problem p -> ticked p = Some (a, x) -> shown a.
  Proof.
    destruct p; cbn [ticked plain_problem]; intros Hp [=<- <-]; try by apply sel_shown.
    - apply sel_shown, Hp.
    - apply sel_shown, Hp.
    - change (shown (lit "pkg." ++ section_display s)).
      apply Forall_app. split; [by apply lit_shown|by apply section_shown].
  Qed.

  Lemma ticked_same (p q : shown_problem K) (a x : str) :
    plain_problem p -> plain_problem q -> ticked p = Some (a, x) -> ticked q = Some (a, x) -> same_subject p q.
  Proof.
    intros Hp Hq Ep Eq. destruct p; cbn [ticked] in Ep; try discriminate Ep; apply some_pair in Ep as [Ea Ex];
      destruct q; cbn [ticked] in Eq; try discriminate Eq; apply some_pair in Eq as [Eb Ey];
      rewrite <- Eb in Ea; rewrite <- Ey in Ex; try discriminate Ex; cbn [plain_problem] in *.
    - constructor. by eapply sel_inj.
    - apply sel_inj in Ea as [Hs <-]; [|done..]. by constructor.
    - apply sel_inj in Ea as [Hs <-]; [|done..]. by constructor.
    - constructor. by eapply sel_inj.
    - apply sel_inj in Ea as [Hs _]; [|apply Hp|apply Hq].
      apply app_inv_head in Ex. apply quoted_inj in Ex as [<- Ex].
      2:{ apply plain_shown, Hp. } 2:{ apply plain_shown, Hq. }
      apply app_inv_head in Ex.
      match goal with H : scope_note ?s = scope_note ?t |- _ =>
        destruct s, t; try discriminate H; by constructor end.
    - apply sel_inj in Ea as [Hs _]; [|apply Hp|apply Hq].
      apply app_inv_head in Ex. apply quoted_inj in Ex as [<- Ex].
      2:{ apply plain_shown, Hp. } 2:{ apply plain_shown, Hq. }
      apply app_inv_head in Ex. apply quoted_end in Ex.
      apply sel_inj in Ex as [Hr _]; [|apply Hp|apply Hq]. by constructor.
    - apply app_inv_head in Ea. apply section_inj in Ea as <-; [|done..]. constructor.
  Qed.

  Lemma ticked_other (p : shown_problem K) (a x : str) :
    ticked p = Some (a, x) -> first_other (headline p) = Some "`"%char.
  Proof. intros H%ticked_headline. by rewrite H. Qed.

  Lemma not_ticked (p : shown_problem K) (x : str) :
    plain_problem p -> ticked p = None -> headline p = "`"%char :: x -> False.
  Proof.
    unfold headline. destruct p; cbn [ticked plain_problem]; intros Hp Et H; try discriminate Et; try done.
    - destruct k; discriminate H.
    - cbn [display] in H. apply (f_equal first_other) in H. unfold pkg_display in H.
      rewrite first_other_app in H by (by apply sel_shown). discriminate H.
  Qed.

  Lemma headline_same (p q : shown_problem K) :
    plain_problem p -> plain_problem q -> headline p = headline q -> same_subject p q.
  Proof.
    intros Hp Hq H.
    destruct (ticked p) as [[a x]|] eqn:Ep, (ticked q) as [[b y]|] eqn:Eq.
    - pose proof (ticked_headline _ _ _ Ep) as H1. pose proof (ticked_headline _ _ _ Eq) as H2.
      rewrite H1, H2 in H. apply quoted_inj in H as [-> ->].
      + by eapply ticked_same.
      + exact (ticked_shown p a x Hp Ep).
      + exact (ticked_shown q b y Hq Eq).
    - exfalso. apply ticked_headline in Ep. rewrite Ep in H. symmetry in H.
      exact (not_ticked q ((a ++ lit "`") ++ x) Hq Eq (eq_trans H (eq_sym (app_assoc _ _ _)))).
    - exfalso. apply ticked_headline in Eq. rewrite Eq in H.
      exact (not_ticked p ((b ++ lit "`") ++ y) Hp Ep (eq_trans H (eq_sym (app_assoc _ _ _)))).
    - assert (Hinstr : forall p i, plain_pkg p ->
                first_other (headline (RInstruction p i)) = Some "'"%char).
      { intros p0 i H0. unfold headline, display, pkg_display.
        rewrite first_other_app by (by apply sel_shown). done. }
      unfold headline in H, Hinstr.
      destruct p; cbn [ticked] in Ep; try discriminate Ep; try done;
      destruct q; cbn [ticked] in Eq; try discriminate Eq; try done; cbn [plain_problem] in *;
        try discriminate H; try (destruct k; discriminate H);
        try (apply (f_equal first_other) in H; rewrite Hinstr in H by done;
             first [discriminate H|destruct k; discriminate H]).
      + cbn [display] in H. apply app_inv_head in H. unfold quoted in H. rewrite <- !app_assoc in H.
        apply app_inv_head in H. change (lit "`" ++ lit " not found") with (lit "` not found") in H.
        apply app_inv_tail in H as ->. constructor.
      + cbn [display] in H. rewrite !app_nil_r in H.
        destruct k, k0; try discriminate H; apply app_inv_head in H; apply quoted_inj in H as [H _];
          try (by apply sel_shown); apply sel_inj in H as [H _]; try done; by constructor.
      + cbn [display] in H. unfold pkg_display in H.
        apply (first_cut (fun c => shown_char c = true)) in H as [H1 H2];
          [|by apply sel_shown|by apply sel_shown|done|done].
        apply sel_inj in H1 as [H1 _]; [|done..]. apply app_inv_head, quoted_end in H2 as ->. by constructor.
      + cbn [display] in H. apply app_inv_head in H. apply quoted_inj in H as [H _]; [|by apply section_shown..].
        apply section_inj in H as ->; [|done..]. constructor.
      + constructor.
      + cbn [display] in H. apply app_inv_head, quoted_end in H as ->. constructor.
      + cbn [display] in H. apply app_inv_head in H. apply quoted_inj in H as [H1 H2].
        2:{ apply sel_shown, Hp. } 2:{ apply sel_shown, Hq. }
        apply sel_inj in H1 as [H1 _]; [|apply Hp|apply Hq]. apply app_inv_head, quoted_end in H2 as ->. by constructor.
      + cbn [display] in H. apply app_inv_head in H. apply quoted_inj in H as [H1 H2].
        2:{ apply sel_shown, Hp. } 2:{ apply sel_shown, Hq. } discriminate H2.
      + cbn [display] in H. apply app_inv_head in H. apply quoted_inj in H as [H1 H2].
        2:{ apply sel_shown, Hp. } 2:{ apply sel_shown, Hq. } discriminate H2.
      + cbn [display] in H. apply app_inv_head in H. apply quoted_inj in H as [H1 H2].
        2:{ apply sel_shown, Hp. } 2:{ apply sel_shown, Hq. }
        apply sel_inj in H1 as [H1 _]; [|apply Hp|apply Hq]. apply app_inv_head, quoted_end in H2 as ->. by constructor.
      + cbn [display] in H. apply app_inv_head in H. apply quoted_inj in H as [H _]; [|by apply section_shown..].
        apply section_inj in H as ->; [|done..]. constructor.
      + cbn [display] in H. apply app_inv_head, app_inv_tail, number_inj in H as ->. constructor.
  Qed.
End headlines.
