(** Properties C254 and C255. *)
From Coq Require Import Lia ZArith.
From Verif Require Import Base BaseFacts DiffModel DiffSpec DiffProofs DiffProps PreviewModel PreviewSpec PreviewProofs.

Lemma changes_dec (script : list diff_line) : changes script \/ Forall (fun d => is_change d = false) script.
Proof.
  induction script as [|d script IH]; [by right|]. destruct (is_change d) eqn:E; [left; exists d; split; [left|done]|].
  destruct IH as [(x & Hx & Hc)|IH]; [left; exists x; split; [by right|done]|right; by constructor].
Qed.

Lemma no_changes (script : list diff_line) : Forall (fun d => is_change d = false) script -> ~ changes script.
Proof. intros H (d & Hd & Hc). rewrite Forall_forall in H. by rewrite (H d Hd) in Hc. Qed.

Lemma diff_empty (script : list diff_line) : diff_lines script = [] <-> ~ changes script.
Proof.
  rewrite C101_shown. split.
  - intros E (d & Hd & Hc). destruct (C101_changes script) as (shown & Es & _ & Hf).
    rewrite C101_shown, E in Es. destruct shown; [|done].
    assert (d ∈ List.filter is_change script) as Hin.
    { apply elem_of_list_In, filter_In. split; [by apply elem_of_list_In|done]. }
    rewrite <- Hf in Hin. by apply elem_of_nil in Hin.
  - intros Hn. destruct (changes_dec script) as [H|H]; [done|]. by rewrite (select_nothing script [] H).
Qed.

Lemma introduction_lines (help : str) (error : option str) (script : list diff_line) :
  introduction help error script
    ([help] ++ match error with Some e => [[]; e] | None => [] end ++
     (if bool_decide (diff_lines script = []) then [] else [[]; lit "=== Diff of cackle.toml ==="])).
Proof.
  destruct (decide (diff_lines script = [])) as [E|E].
  - rewrite bool_decide_true by done. apply diff_empty in E. destruct error; by constructor.
  - rewrite bool_decide_false by done.
    assert (changes script) as H.
    { destruct (changes_dec script) as [H|H]; [done|]. destruct E. by apply diff_empty, no_changes. }
    destruct error; by constructor.
Qed.

Lemma introduction_length help error script lines : introduction help error script lines -> length lines <= 5.
Proof. intros H. destruct H; cbn; lia. Qed.

(** ** C254 *)

(** In a pane of nine lines or more, and in one of any size if the program was built without checks for overflow, the
    preview says what the fix does, why it cannot be applied if it cannot, and shows every change to the file. Context
    is only left out if the pane is too small, and then the preview fits unless there is no context left. *)
Theorem C254_preview (checks : bool) (height : nat) (help : str) (error : option str) (script : list diff_line) :
  checks = false \/ 9 <= height ->
  exists before out,
    preview_lines checks height help error (diff_lines script) = Some (before ++ out) /\
    introduction help error script before /\
    shortened (map displayed (select in_section [] script)) out /\
    (forall d, d ∈ script -> is_change d = true -> displayed d ∈ out) /\
    (length (before ++ out) <= height - 4 \/ Forall (fun s => ~ context_line s) out) /\
    (length (before ++ map displayed (select in_section [] script)) <= height - 4 ->
     out = map displayed (select in_section [] script)).
Proof.
  intros Hc. pose proof (introduction_lines help error script) as Hi. unfold preview_lines.
  set (before := [help] ++ _) in *.
  assert (subtract checks (height - 4) (length before) = Some (Z.of_nat (height - 4) - Z.of_nat (length before))%Z) as ->.
  { unfold subtract. apply introduction_length in Hi.
    destruct checks; [|done]. destruct Hc as [Hc|Hc]; [done|].
    assert (Nat.ltb (height - 4) (length before) = false) as -> by (apply Nat.ltb_ge; lia). done. }
  set (max := (Z.of_nat (height - 4) - Z.of_nat (length before))%Z).
  destruct (shorten_spec (diff_lines script) max) as (H1 & H2 & H3). cbn zeta in *.
  exists before, (shorten (diff_lines script) max). split; [done|]. split; [done|].
  rewrite C101_shown in *. split; [done|]. split; [|split].
  - intros d Hd Hch. apply (change_kept _ _ _ H1).
    + destruct (C101_changes script) as (shown & Es & _ & Hf). rewrite C101_shown in Es.
      rewrite Es. apply elem_of_list_fmap. exists d. split; [done|].
      assert (d ∈ List.filter is_change shown) as Hin.
      { rewrite Hf. apply elem_of_list_In, filter_In. split; [by apply elem_of_list_In|done]. }
      apply elem_of_list_In, filter_In in Hin as [Hin _]. by apply elem_of_list_In.
    + intros [s E]. by destruct d.
  - destruct H3 as [H3|H3]; [left|by right]. rewrite app_length. lia.
  - intros Hl. apply H2. rewrite app_length in Hl. lia.
Qed.
Print Assumptions C254_preview.

Definition pv_script : list diff_line :=
  [DBoth (lit "[pkg.a]"); DBoth (lit "x = 1"); DBoth (lit "y = 1"); DBoth (lit "z = 1"); DRight (lit "allow_unsafe = true")].

Example C254_ex :
  changes pv_script /\
  preview_lines true 30 (lit "Allow unsafe") None (diff_lines pv_script)
  = Some (map lit ["Allow unsafe"; ""; "=== Diff of cackle.toml ==="; " [pkg.a]"; " x = 1"; " y = 1"; " z = 1";
                   "+allow_unsafe = true"]) /\
  preview_lines true 9 (lit "Allow unsafe") None (diff_lines pv_script)
  = Some (map lit ["Allow unsafe"; ""; "=== Diff of cackle.toml ==="; "..."; "+allow_unsafe = true"]) /\
  preview_lines false 3 (lit "Allow unsafe") None (diff_lines pv_script)
  = Some (map lit ["Allow unsafe"; ""; "=== Diff of cackle.toml ==="; "..."; "+allow_unsafe = true"]) /\
  preview_lines true 30 (lit "Allow unsafe") (Some (lit "no")) [] = Some (map lit ["Allow unsafe"; ""; "no"]).
Proof.
  split; [eexists; split; [do 4 right; left|done]|]. split_and!; by vm_compute.
Qed.

(** ** C255 *)

(** Refuted: in a program that was built with checks for overflow, showing a change in a pane of less than seven lines
    crashes, whatever the change. With checks that is every pane too small for the heading. *)
Theorem C255_crash (height : nat) (help : str) (error : option str) (script : list diff_line) :
  height < 7 -> changes script -> preview_lines true height help error (diff_lines script) = None.
Proof.
  intros Hh Hc. pose proof (introduction_lines help error script) as Hi. unfold preview_lines.
  set (before := [help] ++ _) in *.
  assert (3 <= length before) as Hl by (clearbody before; destruct Hi; first [done|cbn; lia]).
  unfold subtract. assert (Nat.ltb (height - 4) (length before) = true) as -> by (apply Nat.ltb_lt; lia). done.
Qed.
Print Assumptions C255_crash.

Theorem C255_refuted :
  exists (height : nat) (help : str) (script : list diff_line),
    0 < height /\ changes script /\ preview_lines true height help None (diff_lines script) = None.
Proof.
  exists 6, (lit "Allow unsafe"), pv_script. split; [lia|]. split; [apply C254_ex|]. apply C255_crash; [lia|apply C254_ex].
Qed.
Print Assumptions C255_refuted.
