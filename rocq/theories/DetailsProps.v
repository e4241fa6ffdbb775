(** The pane with details. *)
From Verif Require Import Base BaseFacts TextModel TextFacts ApiMapModel ConfigModel ReportModel ReportSpec ReportProofs DetailsModel
  DetailsSpec.
From Verif Require VetProps.

(** ** C238 *)

Section claims.
  Context {K : Type} `{EqDecision K} (name_leb : K -> K -> bool) (name_text : K -> str).
  Notation full := (display name_leb name_text true).
  Notation headline := (display name_leb name_text false).

  (** For a problem without single uses the list and the pane together show the full report, and nothing twice. *)
  Theorem C238_full_report (p : shown_problem K) :
    ~ has_uses p -> ~ has_own_text p ->
    pane name_leb name_text (Some p) = full p /\ headline p <> full p \/
    pane name_leb name_text (Some p) = [] /\ headline p = full p.
  Proof.
    intros Hu Ho.
    assert (problem_details name_leb name_text p = full p) as E.
    { destruct p; try reflexivity; exfalso.
      - apply Ho. left. by eexists.
      - apply Hu. right. by eexists.
      - apply Hu. right. by eexists.
      - apply Hu. left. by eexists.
      - apply Hu. left. by eexists.
      - apply Ho. right. by eexists. }
    unfold pane. rewrite E. destruct (str_eqb (headline p) (full p)) eqn:D.
    - right. split; [done|]. by apply str_eqb_spec.
    - left. split; [done|]. intros H. apply str_eqb_spec in H. congruence.
  Qed.

  (** For a problem with single uses the pane says something besides the headline. *)
  Theorem C238_uses (p : shown_problem K) :
    has_uses p -> pane name_leb name_text (Some p) <> [] /\ pane name_leb name_text (Some p) <> headline p.
  Proof.
    intros Hu. unfold pane.
    assert (headline p <> problem_details name_leb name_text p /\ problem_details name_leb name_text p <> []) as [H1 H2].
    { destruct p; cbn [has_uses uses_of places_of] in Hu;
        try (destruct Hu as [[? H]|[? H]]; discriminate H);
        (split; [|done]); cbn [display problem_details]; intros H; discriminate H. }
    destruct (str_eqb (headline p) (problem_details name_leb name_text p)) eqn:E; [by apply str_eqb_spec in E|].
    split; [done|]. intros H. by rewrite H in H1.
  Qed.

  (** ** C239 *)

  (** When a newer version is announced the pane names it and tells what changed with that very version. *)
  Theorem C239_notes (v : N) (notes : str) :
    notes_for v notes ->
    pane name_leb name_text (Some (RNewVersion v))
    = lit "A newer config version " ++ decimal v ++ lit " is available" ++ [nl; nl] ++ notes.
  Proof.
    intros H. unfold pane.
    assert (problem_details name_leb name_text (RNewVersion v)
      = lit "A newer config version " ++ decimal v ++ lit " is available" ++ [nl; nl] ++ notes) as ->.
    { by destruct H. }
    destruct (str_eqb _ _) eqn:E; [|done]. apply str_eqb_spec in E. discriminate E.
  Qed.

  (** Versions that have no notes, or that this program does not know, do no harm. *)
  Theorem C239_other (v : N) :
    (forall notes, ~ notes_for v notes) ->
    pane name_leb name_text (Some (RNewVersion v))
    = lit "A newer config version " ++ decimal v ++ lit " is available" ++ [nl; nl].
  Proof.
    intros H. unfold pane.
    assert (problem_details name_leb name_text (RNewVersion v)
      = lit "A newer config version " ++ decimal v ++ lit " is available" ++ [nl; nl]) as ->.
    { cbn [problem_details].
      assert (match versions !! N.to_nat v with Some x => x.2 | None => [] end = []) as ->; [|done].
      destruct (decide (v = 0%N)) as [->|]; [done|]. destruct (decide (v = 1%N)) as [->|]; [done|].
      destruct (decide (v = 2%N)) as [->|]; [exfalso; eapply H; constructor|].
      destruct (decide (v = 3%N)) as [->|]; [exfalso; eapply H; constructor|].
      rewrite lookup_ge_None_2; [done|]. cbn [versions length]. lia. }
    destruct (str_eqb _ _) eqn:E; [|done]. apply str_eqb_spec in E. discriminate E.
  Qed.
End claims.
Print Assumptions C238_full_report.
Print Assumptions C238_uses.
Print Assumptions C239_notes.
Print Assumptions C239_other.

Definition dt_failed : shown_problem nat :=
  RExecutionFailed (ShownPkg (lit "foo") (lit "1.0.0") true) BuildScript (lit "err") (lit "out") None.
Definition dt_macro : shown_problem nat := RProcMacro (ShownPkg (lit "foo") (lit "1.0.0") true).
Definition dt_unsafe : shown_problem nat :=
  RUnsafe (ShownPkg (lit "foo") (lit "1.0.0") true) Primary [Place (lit "/w/a.rs") 3 (Some 5%N)].

Example C238_ex :
  ~ has_uses dt_failed /\ ~ has_own_text dt_failed /\ has_uses dt_unsafe /\
  pane Nat.leb (fun _ => []) (Some dt_failed) = lit "Build script for package `foo` failed" ++ [nl] ++ lit "errout" /\
  pane Nat.leb (fun _ => []) (Some dt_macro) = [] /\
  pane Nat.leb (fun _ => []) (Some dt_unsafe) = lit "Press 'd' to see details of each usage".
Proof.
  split; [intros [[? H]|[? H]]; discriminate H|]. split; [intros [[? H]|[? H]]; discriminate H|].
  split; [right; by eexists|]. split_and!; by vm_compute.
Qed.

Example C239_ex :
  notes_for 3 (lit "Added field allow_extern") /\ (forall notes, ~ notes_for 7 notes) /\
  pane Nat.leb (fun _ => []) (Some (RNewVersion 3 : shown_problem nat))
  = lit "A newer config version 3 is available" ++ [nl; nl] ++ lit "Added field allow_extern".
Proof. split; [constructor|]. split; [intros notes H; inversion H|]. by vm_compute. Qed.

(** The notes for version 2 are true: if a default sandbox is configured and nothing said about rustc, then rustc is not
    sandboxed with version 1 and is with any later one, the file being the same otherwise. *)
Theorem C239_sandboxed (built_ins : gmap str api_config) (exports : str -> list nat -> option (gmap str api_config))
    (idx : crate_index) (root : option str) (before after : raw_config) (c c' : config) :
  load_config built_ins exports idx root before = Loaded c -> load_config built_ins exports idx root after = Loaded c' ->
  rc_version before = 1%Z -> (2 <= rc_version after)%Z ->
  rc_sandbox after = rc_sandbox before -> rc_rustc_sandbox after = rc_rustc_sandbox before ->
  sb_kind (rc_sandbox before) = Some Bubblewrap -> sb_kind (rc_rustc_sandbox before) = None ->
  sb_kind (rc_rustc_sandbox (cf_raw c)) = Some Disabled /\
  sb_kind (rc_rustc_sandbox (cf_raw c')) = Some Bubblewrap.
Proof.
  intros Hc Hc' Hv Hv' Hs Hr Hk Hn.
  destruct (VetProps.C188_own_then_common _ _ _ _ _ _ Hc) as [H _].
  destruct (VetProps.C188_own_then_common _ _ _ _ _ _ Hc') as [H' _].
  cbn zeta in H, H'. rewrite H, H', Hr, Hs, Hn, Hk, Hv. split; [done|].
  rewrite bool_decide_false by lia. done.
Qed.
Print Assumptions C239_sandboxed.

Example C239_ex_sandboxed :
  (sb_kind <$> VetProps.vt_rustc 1 None) = Some (Some Disabled) /\
  (sb_kind <$> VetProps.vt_rustc 2 None) = Some (Some Bubblewrap).
Proof. by vm_compute. Qed.
