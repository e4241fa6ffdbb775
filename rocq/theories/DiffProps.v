(** Properties of displayed diffs. *)
From Verif Require Import Base BaseFacts DiffModel DiffSpec DiffProofs.

(** ** C40: shortening *)

(** Only context lines are left out, the others stay in order, and every gap is marked unless it is at the
    end; a diff that is short enough stays as it is; the result is short enough unless there is no context
    left, and not shorter than needed (except for the mark at the end). *)
Theorem C40_shortened :
  forall (lines : list str) (max : nat),
  let out := remove_excess_context lines max in
  shortened lines out /\
  (length lines <= max -> out = lines) /\
  (length out <= max \/ Forall (fun s => ~ context_line s) out) /\
  (max < length lines -> max <= length out + 1).
Proof. exact remove_spec. Qed.
Print Assumptions C40_shortened.

(** In particular all changes are still there. *)
Theorem C40_changes :
  forall (lines : list str) (max : nat) (s : str),
  s ∈ lines -> ~ context_line s -> s ∈ remove_excess_context lines max.
Proof.
  intros lines max s Hin Hn. destruct (remove_spec lines max) as [Hs _].
  revert Hin. induction Hs as [|line l l' _ IH|run Hc|run line l l' _ Hc _ IH]; intros Hin.
  - done.
  - apply elem_of_cons in Hin as [->|Hin]; [left|right; auto].
  - rewrite Forall_forall in Hc. by destruct Hn; apply Hc.
  - apply elem_of_app in Hin as [Hin|Hin]; [|right; auto].
    rewrite Forall_forall in Hc. by destruct Hn; apply Hc.
Qed.
Print Assumptions C40_changes.

Example C40_ex :
  remove_excess_context (map lit [" [common]"; "-version = 1"; "+version = 2"; " a"; " b"; " c"; " d"; " e";
                                  " f"; " g"; " h"; "+foo = 1"; " l"; " m"]) 10 =
  map lit [" [common]"; "-version = 1"; "+version = 2"; " a"; "..."; " g"; " h"; "+foo = 1"; " l"; " m"] /\
  remove_excess_context (map lit ["-a"; " b"; " c"; "+d"; " e"; " f"]) 0 = map lit ["-a"; "..."; "+d"].
Proof. by vm_compute. Qed.

(** ** C101: what is shown *)

Lemma render_displayed (l : list diff_line) : map render l = map displayed l.
Proof. apply map_ext. by intros []. Qed.

Theorem C101_shown :
  forall script : list diff_line, diff_lines script = map displayed (select in_section [] script).
Proof. intros script. rewrite <-render_displayed. unfold diff_lines. rewrite (diff_loop_spec script [] []); [|done|done]. by destruct (change_near script). Qed.
Print Assumptions C101_shown.

(** In particular nothing but the lines of the script is shown, in order, and every change is. *)
Lemma select_sublist {A} (P : list A -> A -> list A -> bool) (l : list A) : forall before,
  select P before l `sublist_of` l.
Proof.
  induction l as [|x l IH]; intros before; cbn [select]; [constructor|].
  destruct (P before x l); cbn [app]; constructor; apply IH.
Qed.
Lemma select_keeps {A} (P : list A -> A -> list A -> bool) (Q : A -> bool) (l : list A) :
  (forall before x after, Q x = true -> P before x after = true) ->
  forall before, List.filter Q (select P before l) = List.filter Q l.
Proof.
  intros HP. induction l as [|x l IH]; intros before; cbn [select]; [done|].
  rewrite List.filter_app, IH. cbn [List.filter]. destruct (Q x) eqn:E.
  - rewrite HP by done. cbn [List.filter]. by rewrite E.
  - destruct (P before x l); cbn [List.filter]; [|done]. by rewrite E.
Qed.

Theorem C101_changes :
  forall script : list diff_line,
  exists shown : list diff_line,
    diff_lines script = map displayed shown /\ shown `sublist_of` script /\
    List.filter is_change shown = List.filter is_change script.
Proof.
  intros script. exists (select in_section [] script). split; [apply C101_shown|].
  split; [apply select_sublist|]. apply select_keeps. intros before x after Hx. unfold in_section. by rewrite Hx.
Qed.
Print Assumptions C101_changes.

Definition two_sections : list diff_line :=
  [DBoth (lit "[pkg.a]"); DBoth (lit "x = 1"); DLeft (lit "y = 1"); DRight (lit "y = 2"); DBoth (lit "z = 1");
   DBoth (lit "[pkg.b]"); DBoth (lit "u = 1"); DRight (lit "allow_unsafe = true"); DBoth (lit "[pkg.c]")].

Example C101_ex :
  diff_lines (DBoth (lit "v = 1") :: take 5 two_sections) =
  map lit [" [pkg.a]"; " x = 1"; "-y = 1"; "+y = 2"; " z = 1"].
Proof. by vm_compute. Qed.

(** ** C102: sections *)

(** The claim that a change is shown together with the header of its section fails if the section before has
    changes as well: here the change of [pkg.b] seems to be one of [pkg.a]. *)
Theorem C102_header_refuted :
  exists (script before after : list diff_line) (header d : diff_line) (between : list diff_line),
    script = before ++ [header] ++ between ++ [d] ++ after /\
    is_header header = true /\ is_change d = true /\ Forall (fun x => is_header x = false) between /\
    displayed d ∈ diff_lines script /\ displayed header ∉ diff_lines script.
Proof.
  exists two_sections, (take 5 two_sections), [DBoth (lit "[pkg.c]")], (DBoth (lit "[pkg.b]")),
    (DRight (lit "allow_unsafe = true")), [DBoth (lit "u = 1")].
  split_and!; try done; [by repeat constructor| |]; apply (bool_decide_unpack _); by vm_compute.
Qed.
Print Assumptions C102_header_refuted.

(** ** C103: the basic interface *)

Theorem C103_shown :
  forall script : list diff_line, show_diff script = map displayed (select within_two [] script).
Proof.
  intros script. rewrite <-render_displayed. unfold show_diff. rewrite (show_loop_spec script []); [done|]. by constructor; [|cbn; lia].
Qed.
Print Assumptions C103_shown.

Example C103_ex :
  show_diff (two_sections ++ [DBoth (lit "1"); DBoth (lit "2"); DBoth (lit "3"); DLeft (lit "4")]) =
  map lit [" [pkg.a]"; " x = 1"; "-y = 1"; "+y = 2"; " z = 1"; " [pkg.b]"; " u = 1"; "+allow_unsafe = true";
           " [pkg.c]"; " 1"; " 2"; " 3"; "-4"] /\
  show_diff [DBoth (lit "1"); DBoth (lit "2"); DBoth (lit "3"); DLeft (lit "4"); DBoth (lit "5");
             DBoth (lit "6"); DBoth (lit "7")] = map lit [" 2"; " 3"; "-4"; " 5"; " 6"].
Proof. by vm_compute. Qed.
