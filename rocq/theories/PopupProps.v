(** C261-C264: what the boxes over the screen of the full-screen interface show. *)
From Coq Require Import NArith.
From Verif Require Import Base TermModel TermSpec KeysModel KeysSpec PopupModel PopupSpec PopupProofs.

(** Breaks a line whenever a row is full. *)
Fixpoint fill (room w : nat) (row line : str) : list str :=
  match line, room with
  | [], _ => [row]
  | c :: line, S room => fill room w (row ++ [c]) line
  | c :: line, 0 => row :: fill (Nat.pred w) w [c] line
  end.
Definition filled (w : nat) (line : str) : list str := fill w w [] line.

Lemma filled_breaks : breaks_lines filled.
Proof.
  assert (B : forall line room w row, broken (row ++ line) (fill room w row line)).
  { induction line as [|c line IH]; intros room w row; cbn [fill].
    - rewrite app_nil_r. destruct room; constructor.
    - destruct room as [|room].
      + apply broken_on. exact (IH (Nat.pred w) w [c]).
      + replace (row ++ c :: line) with ((row ++ [c]) ++ line) by by rewrite <- app_assoc. apply IH. }
  assert (F : forall line room w row, 0 < w -> length row + room <= w ->
            Forall (fun r : str => length r <= w) (fill room w row line)).
  { induction line as [|c line IH]; intros room w row Hp Hl; cbn [fill].
    - destruct room; repeat constructor; lia.
    - destruct room as [|room].
      + constructor; [lia|]. apply IH; cbn; lia.
      + apply IH; [done|]. rewrite app_length. cbn. lia. }
  assert (A : forall line room w row, length line <= room -> fill room w row line = [row ++ line]).
  { induction line as [|c line IH]; intros room w row Hl; cbn [fill].
    - rewrite app_nil_r. by destruct room.
    - destruct room as [|room]; [cbn in Hl; lia|]. rewrite IH by (cbn in Hl; lia). by rewrite <- app_assoc. }
  intros w line Hp. split_and!.
  - exact (B line w w []).
  - apply F; cbn; lia.
  - intros Hl. unfold filled. rewrite A; done.
Qed.

(** ** C261: messages *)

(** A message that there is room for is shown as it is. *)
Theorem C261_complete :
  forall (wrap : nat -> str -> list str) (width height : nat) (lines : list str),
  breaks_lines wrap -> screen width height -> has_room width height lines ->
  message_rows wrap width height lines = lines.
Proof.
  intros wrap width height lines Hb (Hw & Hw' & Hh & Hh') [Hl Hf]. unfold message_rows, centre. cbn [snd].
  assert (Hg : longest lines <= width - 2).
  { apply longest_le. eapply Forall_impl; [exact Hf|]. cbn. intros; lia. }
  rewrite (as_u16_small (longest lines + 2)) by lia. rewrite (as_u16_small (length lines + 2)) by lia.
  rewrite concat_alone; [|done|lia|].
  - apply take_ge. lia.
  - apply longest_le. lia.
Qed.
Print Assumptions C261_complete.

(** Otherwise what is missing is at the end, and the rows that there is room for are shown. *)
Theorem C261_first :
  forall (wrap : nat -> str -> list str) (width height : nat) (lines : list str),
  breaks_lines wrap -> screen width height -> (N.of_nat (longest lines + 2) < 65536)%N ->
  (N.of_nat (length lines + 2) < 65536)%N ->
  exists (w : nat) (rest : list str),
    (w + 2 = width \/ Forall (fun l : str => length l <= w) lines) /\ w + 2 <= width /\
    concat (map (wrap w) lines) = message_rows wrap width height lines ++ rest /\
    (rest = [] \/ length (message_rows wrap width height lines) + 2 = height \/
     length lines <= length (message_rows wrap width height lines)).
Proof.
  intros wrap width height lines Hb (Hw & Hw' & Hh & Hh') Hx Hy. unfold message_rows, centre. cbn [snd].
  rewrite (as_u16_small (longest lines + 2)) by done. rewrite (as_u16_small (length lines + 2)) by done.
  set (w := Nat.min (Nat.max (longest lines + 2) 20) width - 2).
  set (h := Nat.min (Nat.max (length lines + 2) 5) height - 2).
  exists w, (skipn h (concat (map (wrap w) lines))). split_and!.
  - destruct (decide (w + 2 = width)) as [|Hn]; [by left|right]. apply longest_le. lia.
  - lia.
  - by rewrite take_drop.
  - rewrite take_length. destruct (decide (h < length (concat (map (wrap w) lines)))) as [Hlt|Hge].
    + right. destruct (decide (h + 2 = height)) as [|Hn]; [left; lia|right; lia].
    + left. apply drop_ge. lia.
Qed.
Print Assumptions C261_first.

Example C261_ex :
  screen 80 24 /\ has_room 80 24 [lit "foo v1.0.0"; lit "bar v2.0.0"] /\
  message_rows filled 80 24 [lit "foo v1.0.0"; lit "bar v2.0.0"] = [lit "foo v1.0.0"; lit "bar v2.0.0"] /\
  message_rows filled 12 24 [lit "foo v1.0.0 (*)"; lit "bar"] = [lit "foo v1.0.0"; lit " (*)"; lit "bar"].
Proof. split; [unfold screen; lia|]. split; [split; [cbn; lia|repeat constructor; cbn; lia]|]. by vm_compute. Qed.

(** ** C262: the question before fixes are accepted automatically *)

Definition how_to_answer : str := lit "Press enter to accept, or escape to cancel.".

(** The line that says how to answer it is shown on no screen of 160 columns or less, however high it is and however lines
    are broken. *)
Theorem C262_hidden :
  forall (wrap : nat -> str -> list str) (width height : nat),
  breaks_lines wrap -> screen width height -> width <= 160 ->
  how_to_answer ∉ message_rows wrap width height accept_lines.
Proof.
  intros wrap width height Hb (Hw & Hw' & Hh & Hh') H160. unfold message_rows, centre. cbn [snd].
  replace (as_u16 (longest accept_lines + 2)) with 161 by (vm_compute; reflexivity).
  replace (as_u16 (length accept_lines + 2)) with 7 by (vm_compute; reflexivity).
  set (w := Nat.min (Nat.max 161 20) width - 2). set (h := Nat.min (Nat.max 7 5) height - 2).
  assert (Hp : 0 < w) by lia. assert (Hw158 : w <= 158) by lia. assert (Hh5 : h <= 5) by lia. clearbody w h.
  assert (K : forall a b c d e : list str, 1 <= length a -> 1 <= length b -> 2 <= length c -> 1 <= length d ->
            forall x, x ∈ firstn h (a ++ b ++ c ++ d ++ e) -> x ∈ a \/ x ∈ b \/ x ∈ c \/ x ∈ d).
  { intros a b c d e Ha Hb' Hc Hd x Hx.
    replace (a ++ b ++ c ++ d ++ e) with ((a ++ b ++ c ++ d) ++ e) in Hx by by rewrite <- !app_assoc.
    rewrite take_app_le in Hx by (rewrite !app_length; lia).
    apply elem_of_take in Hx as (i & Hx & _). apply elem_of_list_lookup_2 in Hx. rewrite !elem_of_app in Hx. tauto. }
  unfold accept_lines. cbn [map concat]. rewrite app_nil_r. intros Hin.
  assert (R : forall line, 1 <= length (wrap w line)).
  { intros line. destruct (Hb w line Hp) as (H & _). destruct H; cbn; lia. }
  apply K in Hin; [| apply R | apply R | | apply R].
  - assert (P : "P"%char ∈ how_to_answer) by (apply (bool_decide_unpack _); vm_compute; exact I).
    assert (N : forall line : str, how_to_answer ∈ wrap w line -> "P"%char ∈ line).
    { intros line H. destruct (Hb w line Hp) as (Hbr & _). exact (broken_chars line _ "P"%char how_to_answer Hbr H P). }
    destruct Hin as [H|[H|[H|H]]]; apply N in H; revert H; apply (bool_decide_unpack _); vm_compute; exact I.
  - match goal with |- 2 <= length (wrap w ?l) => set (line := l) end.
    assert (Hlen : length line = 159) by (vm_compute; reflexivity). clearbody line.
    destruct (Hb w line Hp) as (Hbr & Hf & _).
    apply (broken_two line _ w Hbr Hf). lia.
Qed.
Print Assumptions C262_hidden.

(** On wider screens the question is complete. *)
Theorem C262_wide :
  forall (wrap : nat -> str -> list str) (width height : nat),
  breaks_lines wrap -> screen width height -> 160 < width -> 7 <= height ->
  message_rows wrap width height accept_lines = accept_lines.
Proof.
  intros wrap width height Hb Hs H160 H7. apply C261_complete; [done|done|]. split; [cbn; lia|].
  assert (H : longest accept_lines <= width - 2).
  { replace (longest accept_lines) with 159 by (vm_compute; reflexivity). lia. }
  apply longest_le in H. eapply Forall_impl; [exact H|]. cbn. intros x Hx. lia.
Qed.
Print Assumptions C262_wide.

(** On a screen of 80 columns and 24 rows it says nothing about the keys. *)
Theorem C262_refuted :
  exists (wrap : nat -> str -> list str) (width height : nat) (line : str),
    breaks_lines wrap /\ screen width height /\ line ∈ accept_lines /\ length line + 2 <= width /\
    length accept_lines + 2 <= height /\ line ∉ message_rows wrap width height accept_lines.
Proof.
  exists filled, 80, 24, how_to_answer. split_and!.
  - exact filled_breaks.
  - unfold screen. lia.
  - unfold accept_lines, how_to_answer. do 4 right. left.
  - apply Nat.leb_le. by vm_compute.
  - cbn. lia.
  - apply C262_hidden; [exact filled_breaks|unfold screen; lia|lia].
Qed.
Print Assumptions C262_refuted.

(** ** C263: the names of keys in the help *)

(** In the views of problems and of uses the help is complete if there is room. *)
Theorem C263_complete :
  forall (m : mode) (width height : nat),
  screen width height -> m = SelectProblem \/ m = SelectUsage ->
  70 <= width -> 11 <= height ->
  help_screen width height (Some m) = help_rows (Some m).
Proof.
  intros m width height _ [->| ->] Hw Hh; unfold help_screen, centre; cbn [snd].
  - replace (as_u16 (longest (map snd (help_rows (Some SelectProblem))) + 5 + 3)) with 70 by (vm_compute; reflexivity).
    replace (as_u16 (length (help_rows (Some SelectProblem)) + 2)) with 11 by (vm_compute; reflexivity).
    rewrite !Nat.min_l by lia. by vm_compute.
  - replace (as_u16 (longest (map snd (help_rows (Some SelectUsage))) + 5 + 3)) with 52 by (vm_compute; reflexivity).
    replace (as_u16 (length (help_rows (Some SelectUsage)) + 2)) with 11 by (vm_compute; reflexivity).
    rewrite !Nat.min_l by lia. by vm_compute.
Qed.
Print Assumptions C263_complete.

Example C263_ex :
  nth_error (help_screen 80 24 (Some SelectUsage)) 4 = Some (lit "d/esc", lit "Return to problem list") /\
  nth_error (help_screen 80 24 (Some SelectEdit)) 0 = Some (lit "space", lit "Apply this edit").
Proof. by vm_compute. Qed.

(** Enter applies a fix, as its row says (C240); the row has the name of the key cut off on every screen. *)
Theorem C263_refuted :
  exists (m : mode) (k : key) (label text : str),
    (label, text) ∈ help_rows (Some m) /\ k ∈ keys_named label /\
    forall (width height : nat) (r : str * str), r ∈ help_screen width height (Some m) -> k ∉ keys_named r.1.
Proof.
  exists SelectEdit, KEnter, (lit "space/enter/f"), (lit "Apply this edit").
  split; [unfold help_rows; left|]. split; [apply (bool_decide_unpack _); vm_compute; exact I|].
  intros width height r Hr. unfold help_screen in Hr. apply elem_of_list_fmap in Hr as ([a b] & -> & Hr).
  apply elem_of_take in Hr as (i & Hi & _). apply elem_of_list_lookup_2 in Hi. cbn [fst snd].
  assert (H : forallb (fun r : str * str => forallb (fun n => negb (bool_decide (KEnter ∈ keys_named (firstn n r.1)))) (seq 0 6))
                (help_rows (Some SelectEdit)) = true) by (vm_compute; reflexivity).
  rewrite forallb_forall in H. apply elem_of_list_In in Hi. specialize (H _ Hi). cbn [fst] in H.
  rewrite forallb_forall in H. 
  match goal with |- _ ∉ keys_named (firstn ?n _) => specialize (H n); set (q := n) in * end.
  assert (Hq : In q (seq 0 6)) by (apply in_seq; lia). specialize (H Hq).
  apply negb_true_iff, bool_decide_eq_false in H. exact H.
Qed.
Print Assumptions C263_refuted.

(** ** C264: the prompt for a comment *)

(** As long as a comment is shorter than the prompt, it is shown, with the cursor in its place. *)
Theorem C264_visible :
  forall (width height : nat) (i : input),
  screen width height -> length (in_value i) + 2 < Nat.min 80 width -> in_cursor i <= length (in_value i) ->
  let '(start, text, cursor) := comment_box width i in
  text = in_value i /\ cursor = start + in_cursor i /\ start + length text < width /\ cursor + 1 < width.
Proof.
  intros width height i (Hw & Hw' & _) Hl Hc. unfold comment_box, centre.
  rewrite (as_u16_small (in_cursor i)) by lia.
  assert (Hd : (width - Nat.min 80 width) / 2 <= width - Nat.min 80 width) by (apply Nat.div_le_upper_bound; lia).
  assert (Ht : firstn (Nat.min 80 width - 2) (in_value i) = in_value i) by (apply take_ge; lia).
  rewrite Ht. split_and!; [done|lia|lia|lia].
Qed.
Print Assumptions C264_visible.

(** In the middle of a wide screen, and at the left of a narrow one. *)
Example C264_ex :
  comment_box 120 (input_of (lit "needed for tests")) = (21, lit "needed for tests", 37) /\
  comment_box 30 (Input (lit "needed") 2) = (1, lit "needed", 3).
Proof. by vm_compute. Qed.

(** A comment that is longer is shown only in part: neither the place where is typed nor what was typed there is in the
    prompt, however wide the screen is. *)
Theorem C264_refuted :
  exists (v : str) (c : ascii), forall (width height : nat), screen width height ->
    let '(start, text, cursor) := comment_box width (input_of (v ++ [c])) in
    c ∈ v ++ [c] /\ c ∉ text /\ start + length text < cursor.
Proof.
  exists (replicate 80 "a"%char), "b"%char. intros width height (Hw & Hw' & _). unfold comment_box, centre, input_of. cbn [in_value in_cursor].
  assert (Hl : as_u16 (length (replicate 80 "a"%char ++ ["b"%char])) = 81) by (vm_compute; reflexivity).
  rewrite Hl. split_and!.
  - apply elem_of_app. right. left.
  - rewrite take_app_le by (rewrite replicate_length; lia). intros H.
    apply elem_of_take in H as (i & H & _). apply lookup_replicate_1 in H as [H _]. discriminate.
  - rewrite take_length. lia.
Qed.
Print Assumptions C264_refuted.
