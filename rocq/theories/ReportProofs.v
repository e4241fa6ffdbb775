(** Proofs about reports. *)
From stdpp Require Import pretty sorting.
From Verif Require Import Base BaseFacts TextModel ConfigModel ReportModel ReportSpec BuildScriptProofs SummaryProofs EditorMoreProofs.

(** ** Numbers *)

Lemma number_digits (n : N) (c : ascii) :
  c ∈ number n -> c ∈ [ "0"; "1"; "2"; "3"; "4"; "5"; "6"; "7"; "8"; "9" ]%char.
Proof.
  unfold number, pretty, pretty_N. case_decide.
  - cbn. intros ->%elem_of_list_singleton. set_solver.
  - intros [H1|(d & ->)]%pretty_go_digits; [by apply elem_of_nil in H1|].
    apply digit_char_cases.
Qed.

Lemma number_inj (m n : N) : number m = number n -> m = n.
Proof.
  unfold number. intros H. apply (inj pretty). rewrite <- (string_of_list_ascii_of_string (pretty m)), H.
  apply string_of_list_ascii_of_string.
Qed.

Lemma number_not (n : N) (c : ascii) :
  c ∉ [ "0"; "1"; "2"; "3"; "4"; "5"; "6"; "7"; "8"; "9" ]%char -> c ∉ number n.
Proof. intros H Hc. by apply H, (number_digits n). Qed.

Lemma number_one_line (n : N) : one_line (number n).
Proof. apply number_not. apply (bool_decide_unpack _). vm_compute. exact I. Qed.

Lemma in_brackets_one_line (l : N) (c : option N) : one_line (in_brackets l c).
Proof.
  pose proof (number_one_line l) as Hl. unfold one_line, in_brackets in *.
  assert (Ha : nl ∉ lit "[") by (apply (bool_decide_unpack _); vm_compute; exact I).
  assert (Hb : nl ∉ lit "]") by (apply (bool_decide_unpack _); vm_compute; exact I).
  assert (Hc : nl ∉ lit ":") by (apply (bool_decide_unpack _); vm_compute; exact I).
  destruct c as [c|]; rewrite !elem_of_app; [|rewrite elem_of_nil; tauto].
  pose proof (number_one_line c). unfold one_line in *. tauto.
Qed.

(** ** Groups *)

Section groups.
  Context {K V : Type} `{EqDecision K} (leb : K -> K -> bool).

  Definition flat (l : list (K * list V)) : list (K * V) :=
    concat (map (fun g => map (pair g.1) g.2) l).

  Lemma push_group_flat (k : K) (v : V) (l : list (K * list V)) :
    flat (push_group leb k v l) ≡ₚ (k, v) :: flat l.
  Proof.
    induction l as [|[k' vs] l IH]; [done|]. cbn [push_group].
    destruct (decide (k = k')) as [<-|Hk].
    - unfold flat. cbn. rewrite map_app. cbn. rewrite <- app_assoc. cbn.
      by rewrite <- Permutation_middle.
    - destruct (leb k k'); [done|].
      unfold flat in *. cbn. rewrite IH. by rewrite <- Permutation_middle.
  Qed.

  Lemma group_by_flat (key : V -> K) (vs : list V) :
    flat (group_by leb key vs) ≡ₚ map (fun v => (key v, v)) vs.
  Proof.
    unfold group_by.
    assert (H : forall l, flat (fold_left (fun l v => push_group leb (key v) v l) vs l) ≡ₚ
                          flat l ++ map (fun v => (key v, v)) vs).
    { induction vs as [|v vs IH]; intros l; cbn [map fold_left]; [by rewrite app_nil_r|].
      rewrite IH, push_group_flat. cbn [app]. by rewrite <- Permutation_middle. }
    by rewrite H.
  Qed.

  Lemma group_key (key : V -> K) (vs : list V) (k : K) (g : list V) (v : V) :
    (k, g) ∈ group_by leb key vs -> v ∈ g -> key v = k /\ v ∈ vs.
  Proof.
    intros Hg Hv.
    assert (H : (k, v) ∈ flat (group_by leb key vs)).
    { unfold flat. apply elem_of_list_In, in_concat. exists (map (pair k) g). split.
      - apply in_map_iff. exists (k, g). split; [done|]. by apply elem_of_list_In.
      - apply in_map. by apply elem_of_list_In. }
    rewrite group_by_flat in H. apply elem_of_list_In, in_map_iff in H as (w & [=<- ->] & H).
    split; [done|by apply elem_of_list_In].
  Qed.

  (** Keys are in strict order if the order is one. *)
  Context (leb_trans : forall a b c, leb a b = true -> leb b c = true -> leb a c = true).
  Context (leb_total : forall a b, leb a b = false -> leb b a = true).
  Context (leb_antisym : forall a b, leb a b = true -> leb b a = true -> a = b).

  Definition strictly (a b : K) : Prop := leb a b = true /\ a <> b.

  Lemma push_group_keys (k : K) (v : V) (l : list (K * list V)) (x : K) :
    x ∈ map fst (push_group leb k v l) <-> x = k \/ x ∈ map fst l.
  Proof.
    induction l as [|[k' vs] l IH]; cbn; [by rewrite elem_of_list_singleton, elem_of_nil; naive_solver|].
    destruct (decide (k = k')) as [<-|]; [|destruct (leb k k')]; cbn; rewrite ?elem_of_cons, ?IH; naive_solver.
  Qed.

  Lemma push_group_sorted (k : K) (v : V) (l : list (K * list V)) :
    StronglySorted strictly (map fst l) -> StronglySorted strictly (map fst (push_group leb k v l)).
  Proof.
    induction l as [|[k' vs] l IH]; intros H; cbn; [by repeat constructor|].
    cbn in H. apply StronglySorted_inv in H as [H Hk].
    destruct (decide (k = k')) as [<-|Hne]; [cbn; by constructor|].
    destruct (leb k k') eqn:E; cbn.
    - constructor; [by constructor|]. constructor; [done|].
      eapply Forall_impl; [exact Hk|]. intros x [Hx Hx']. split; [eauto|].
      intros <-. apply Hx'. by apply leb_antisym.
    - constructor; [by apply IH|]. apply Forall_forall. intros x [->|Hx]%push_group_keys.
      + split; [by apply leb_total|done].
      + by eapply Forall_forall in Hk.
  Qed.

  Lemma group_by_sorted (key : V -> K) (vs : list V) :
    StronglySorted strictly (map fst (group_by leb key vs)).
  Proof.
    unfold group_by.
    assert (H : forall l, StronglySorted strictly (map fst l) ->
              StronglySorted strictly (map fst (fold_left (fun l v => push_group leb (key v) v l) vs l))).
    { induction vs as [|v vs IH]; intros l Hl; cbn; [done|]. apply IH. by apply push_group_sorted. }
    apply H. constructor.
  Qed.

  Lemma group_by_keys (key : V -> K) (vs : list V) (x : K) :
    x ∈ map fst (group_by leb key vs) <-> exists v, v ∈ vs /\ key v = x.
  Proof.
    unfold group_by.
    assert (H : forall l, x ∈ map fst (fold_left (fun l v => push_group leb (key v) v l) vs l) <->
                          x ∈ map fst l \/ exists v, v ∈ vs /\ key v = x).
    { clear. induction vs as [|v vs IH]; intros l; cbn.
      - split; [by left|]. intros [?|(v & Hv & _)]; [done|]. by apply elem_of_nil in Hv.
      - rewrite IH, push_group_keys. split.
        + intros [[->|?]|(w & Hw & <-)]; [right; exists v; split; [left|done]|by left|].
          right. exists w. split; [by right|done].
        + intros [?|(w & [->|Hw]%elem_of_cons & <-)]; [left; by right|left; by left|].
          right. by exists w. }
    rewrite H. cbn. rewrite elem_of_nil. naive_solver.
  Qed.
End groups.

(** ** Reading reports *)

Lemma lines_of_line (s rest : str) : one_line s -> lines_of (s ++ newline ++ rest) = s :: lines_of rest.
Proof. intros H. unfold lines_of. apply split_char_app. exact H. Qed.

Lemma read_header (file from l : str) (ls : list str) :
  starts_with (lit "  ") l = false -> read_uses file from (l :: ls) = read_uses file from ls.
Proof.
  intros H. cbn [read_uses].
  assert (Ha : strip_prefix (lit "  ") l = None) by (by apply strip_prefix_None).
  assert (Hb : forall p, starts_with (lit "  " ++ p) l = false).
  { intros p. apply not_true_iff_false. intros [r Hr]%starts_with_spec. apply not_true_iff_false in H.
    apply H. apply starts_with_spec. exists (p ++ r). by rewrite Hr, <- app_assoc. }
  assert (Hc : strip_prefix (lit "    ") l = None) by (apply strip_prefix_None; exact (Hb (lit "  "))).
  assert (Hd : strip_prefix (lit "      -> ") l = None).
  { apply strip_prefix_None. exact (Hb (lit "    -> ")). }
  by rewrite Hd, Hc, Ha.
Qed.

Section reading.
  Context {K : Type} `{EqDecision K} (name_leb : K -> K -> bool) (name_text : K -> str).

  Definition use_text (u : use K) : str :=
    ru_to u ++ lit " " ++ in_brackets (pl_line (ru_place u)) (pl_column (ru_place u)).

  Lemma use_text_says (u : use K) :
    says (use_text u) (ru_to u) (pl_line (ru_place u)) (pl_column (ru_place u)).
  Proof.
    unfold use_text, in_brackets. destruct (pl_column (ru_place u)) as [c|].
    - change (lit " " ++ lit "[" ++ number (pl_line (ru_place u)) ++ (lit ":" ++ number c) ++ lit "]")
        with (lit " [" ++ decimal (pl_line (ru_place u)) ++ (lit ":" ++ decimal c) ++ lit "]").
      rewrite <- (app_assoc (lit ":")). apply says_column.
    - change (lit " " ++ lit "[" ++ number (pl_line (ru_place u)) ++ [] ++ lit "]")
        with (lit " [" ++ decimal (pl_line (ru_place u)) ++ [] ++ lit "]"). apply says_line.
  Qed.

  Lemma use_line_eq (u : use K) : use_line u = (lit "      -> " ++ use_text u) ++ newline.
  Proof. unfold use_line, use_text. by rewrite <- !app_assoc. Qed.

  Lemma use_text_one_line (u : use K) : one_line (ru_to u) -> one_line (lit "      -> " ++ use_text u).
  Proof.
    pose proof (in_brackets_one_line (pl_line (ru_place u)) (pl_column (ru_place u))) as Hb.
    unfold use_text, one_line in *. intros H. rewrite !elem_of_app.
    assert (nl ∉ lit "      -> ") by (apply (bool_decide_unpack _); vm_compute; exact I).
    assert (nl ∉ lit " ") by (apply (bool_decide_unpack _); vm_compute; exact I). tauto.
  Qed.

  Lemma read_use_lines (file from : str) (us : list (use K)) (rest : str) :
    Forall (readable name_text) us ->
    read_uses file from (lines_of (concat (map use_line us) ++ rest)) =
    map (fun u => (file, from, use_text u)) us ++ read_uses file from (lines_of rest).
  Proof.
    induction 1 as [|u us Hu Hus IH]; [done|]. cbn [map concat].
    rewrite use_line_eq, <- !app_assoc.
    change (lit "      -> " ++ use_text u ++ newline ++ concat (map use_line us) ++ rest)
      with (lit "      -> " ++ use_text u ++ newline ++ (concat (map use_line us) ++ rest)).
    rewrite (app_assoc (lit "      -> ")), lines_of_line by (apply use_text_one_line; apply Hu).
    cbn [read_uses]. rewrite strip_prefix_app, IH. done.
  Qed.

  Lemma prefix_one_line (p s : str) : one_line p -> one_line s -> one_line (p ++ s).
  Proof. unfold one_line. rewrite elem_of_app. tauto. Qed.

  Lemma read_from_header (file from f : str) (ls : list str) :
    starts_with (lit "  -> ") f = false ->
    read_uses file from ((lit "    " ++ f) :: ls) = read_uses file f ls.
  Proof.
    intros H. cbn [read_uses].
    assert (Ha : strip_prefix (lit "      -> ") (lit "    " ++ f) = None).
    { apply strip_prefix_None. exact H. }
    by rewrite Ha, strip_prefix_app.
  Qed.

  Lemma read_file_header (file from f : str) (ls : list str) :
    starts_with (lit "  ") f = false ->
    read_uses file from ((lit "  " ++ f) :: ls) = read_uses f from ls.
  Proof.
    intros H. cbn [read_uses].
    assert (Hb : forall p, starts_with (lit "  " ++ p) f = false).
    { intros p. apply not_true_iff_false. intros [r Hr]%starts_with_spec. apply not_true_iff_false in H.
      apply H. apply starts_with_spec. exists (p ++ r). by rewrite Hr, <- app_assoc. }
    assert (Ha : strip_prefix (lit "      -> ") (lit "  " ++ f) = None).
    { apply strip_prefix_None. exact (Hb (lit "  -> ")). }
    assert (Hc : strip_prefix (lit "    ") (lit "  " ++ f) = None).
    { apply strip_prefix_None. exact H. }
    by rewrite Ha, Hc, strip_prefix_app.
  Qed.

  Definition from_block (g : K * list (use K)) : str :=
    lit "    " ++ name_text g.1 ++ newline ++ concat (map use_line g.2).

  Definition good_group (g : K * list (use K)) : Prop :=
    one_line (name_text g.1) /\ starts_with (lit "  -> ") (name_text g.1) = false /\
    Forall (readable name_text) g.2.

  Lemma read_from_blocks (file : str) (gs : list (K * list (use K))) (rest : str) :
    Forall good_group gs ->
    forall from, exists from',
    read_uses file from (lines_of (concat (map from_block gs) ++ rest)) =
    concat (map (fun g => map (fun u => (file, name_text g.1, use_text u)) g.2) gs) ++
    read_uses file from' (lines_of rest).
  Proof.
    induction 1 as [|g gs (Hg1 & Hg2 & Hg3) Hgs IH]; intros from; [by exists from|].
    cbn [map concat]. destruct (IH (name_text g.1)) as [from' IHf]. exists from'.
    unfold from_block at 1. rewrite <- !app_assoc, (app_assoc (lit "    ")).
    rewrite lines_of_line.
    2:{ apply prefix_one_line; [|done]. apply (bool_decide_unpack _). vm_compute. exact I. }
    rewrite read_from_header by done. rewrite read_use_lines by done. by rewrite IHf.
  Qed.

  Definition file_block (f : str * list (use K)) : str :=
    lit "  " ++ f.1 ++ newline ++ concat (map from_block (group_by name_leb ru_from f.2)).

  Definition good_file (f : str * list (use K)) : Prop :=
    one_line f.1 /\ starts_with (lit "  ") f.1 = false /\ Forall (readable name_text) f.2.

  Lemma good_groups (us : list (use K)) :
    Forall (readable name_text) us -> Forall good_group (group_by name_leb ru_from us).
  Proof.
    intros H. apply Forall_forall. intros [k g] Hg.
    assert (Hall : forall u, u ∈ g -> ru_from u = k /\ readable name_text u).
    { intros u Hu. destruct (group_key name_leb _ _ _ _ _ Hg Hu) as [Hk Hu']. split; [done|].
      by eapply Forall_forall in H. }
    assert (Hk : k ∈ map fst (group_by name_leb ru_from us)).
    { apply elem_of_list_In, in_map_iff. exists (k, g). split; [done|]. by apply elem_of_list_In. }
    apply group_by_keys in Hk as (u & Hu & <-). eapply Forall_forall in H as Hr; [|exact Hu].
    split; [apply Hr|]. split; [apply Hr|]. apply Forall_forall. intros w Hw. by apply Hall.
  Qed.

  Lemma good_files (us : list (use K)) :
    Forall (readable name_text) us ->
    Forall good_file (group_by str_leb (fun u => pl_file (ru_place u)) us).
  Proof.
    intros H. apply Forall_forall. intros [k g] Hg.
    assert (Hk : k ∈ map fst (group_by str_leb (fun u : use K => pl_file (ru_place u)) us)).
    { apply elem_of_list_In, in_map_iff. exists (k, g). split; [done|]. by apply elem_of_list_In. }
    apply group_by_keys in Hk as (u & Hu & <-). eapply Forall_forall in H as Hr; [|exact Hu].
    split; [apply Hr|]. split; [apply Hr|]. apply Forall_forall. intros w Hw.
    destruct (group_key str_leb _ _ _ _ _ Hg Hw) as [_ Hw']. by eapply Forall_forall in H.
  Qed.

  Definition file_entries (f : str * list (use K)) : list (str * str * str) :=
    concat (map (fun g => map (fun u => (f.1, name_text g.1, use_text u)) g.2) (group_by name_leb ru_from f.2)).

  Lemma read_file_blocks (fs : list (str * list (use K))) :
    Forall good_file fs ->
    forall file from, read_uses file from (lines_of (concat (map file_block fs))) = concat (map file_entries fs).
  Proof.
    induction 1 as [|f fs (Hf1 & Hf2 & Hf3) Hfs IH]; intros file from.
    - done.
    - cbn [map concat]. unfold file_block at 1. rewrite <- !app_assoc, (app_assoc (lit "  ")).
      rewrite lines_of_line.
      2:{ apply prefix_one_line; [|done]. apply (bool_decide_unpack _). vm_compute. exact I. }
      rewrite read_file_header by done.
      destruct (read_from_blocks f.1 (group_by name_leb ru_from f.2) (concat (map file_block fs))
                  (good_groups _ Hf3) from) as [from' ->].
      by rewrite IH.
  Qed.

  Lemma display_uses_eq (us : list (use K)) :
    display_uses name_leb name_text us =
    concat (map file_block (group_by str_leb (fun u => pl_file (ru_place u)) us)).
  Proof. done. Qed.

  Definition entry (u : use K) : str * str * str :=
    (pl_file (ru_place u), name_text (ru_from u), use_text u).

  Lemma file_entries_perm (us : list (use K)) (f : str * list (use K)) :
    f ∈ group_by str_leb (fun u => pl_file (ru_place u)) us -> file_entries f ≡ₚ map entry f.2.
  Proof.
    intros Hf. unfold file_entries.
    assert (H : concat (map (fun g => map (fun u => (f.1, name_text g.1, use_text u)) g.2)
                          (group_by name_leb ru_from f.2)) =
                map (fun x : K * use K => (f.1, name_text x.1, use_text x.2))
                  (flat (group_by name_leb ru_from f.2))).
    { unfold flat. rewrite concat_map, map_map. f_equal. apply map_ext. intros g. by rewrite map_map. }
    rewrite H, group_by_flat, map_map. match goal with |- ?a ≡ₚ ?b => enough (a = b) as -> by done end.
    apply map_ext_in. intros u Hu.
    unfold entry. cbn. destruct f as [k g]. cbn in *.
    destruct (group_key str_leb _ _ _ _ u Hf) as [-> _]; [by apply elem_of_list_In|done].
  Qed.

  Lemma read_display (us : list (use K)) (file from : str) :
    Forall (readable name_text) us ->
    read_uses file from (lines_of (display_uses name_leb name_text us)) ≡ₚ map entry us.
  Proof.
    intros H. rewrite display_uses_eq, read_file_blocks by (by apply good_files).
    assert (Hp : concat (map file_entries (group_by str_leb (fun u => pl_file (ru_place u)) us)) ≡ₚ
                 concat (map (fun f => map entry f.2) (group_by str_leb (fun u => pl_file (ru_place u)) us))).
    { pose proof (file_entries_perm us) as Hf. revert Hf.
      generalize (group_by str_leb (fun u : use K => pl_file (ru_place u)) us) as fs.
      induction fs as [|f fs IH]; intros Hf; cbn; [done|].
      rewrite (Hf f) by left. rewrite IH; [done|]. intros g Hg. apply Hf. by right. }
    rewrite Hp.
    assert (Hq : concat (map (fun f => map entry f.2) (group_by str_leb (fun u : use K => pl_file (ru_place u)) us)) =
                 map (fun x : str * use K => entry x.2)
                   (flat (group_by str_leb (fun u => pl_file (ru_place u)) us))).
    { unfold flat. rewrite concat_map, map_map. f_equal. apply map_ext. intros g. by rewrite map_map. }
    rewrite Hq, group_by_flat, map_map. done.
  Qed.
End reading.

(** ** Headings *)

Lemma starts_with_app (p s : str) : starts_with p (p ++ s) = true.
Proof. apply starts_with_spec. by exists s. Qed.

Section headings.
  Context {K : Type} `{EqDecision K} (name_leb : K -> K -> bool) (name_text : K -> str).

  Lemma read_files_uses (us : list (use K)) (rest : str) :
    Forall (readable name_text) us ->
    read_files (lines_of (concat (map use_line us) ++ rest)) = read_files (lines_of rest).
  Proof.
    induction 1 as [|u us Hu Hus IH]; [done|]. cbn [map concat].
    rewrite use_line_eq, <- !app_assoc.
    rewrite (app_assoc (lit "      -> ")), lines_of_line by (apply use_text_one_line; apply Hu).
    exact IH.
  Qed.

  Lemma read_files_froms (gs : list (K * list (use K))) (rest : str) :
    Forall (good_group name_text) gs ->
    read_files (lines_of (concat (map (from_block name_text) gs) ++ rest)) = read_files (lines_of rest).
  Proof.
    induction 1 as [|g gs (Hg1 & Hg2 & Hg3) Hgs IH]; [done|]. cbn [map concat].
    unfold from_block at 1. rewrite <- !app_assoc, (app_assoc (lit "    ")).
    rewrite lines_of_line.
    2:{ apply prefix_one_line; [|done]. apply (bool_decide_unpack _). vm_compute. exact I. }
    change (read_files ((lit "    " ++ name_text g.1) ::
              lines_of (concat (map use_line g.2) ++ concat (map (from_block name_text) gs) ++ rest)))
      with (read_files (lines_of (concat (map use_line g.2) ++ concat (map (from_block name_text) gs) ++ rest))).
    by rewrite read_files_uses.
  Qed.

  Lemma read_files_blocks (fs : list (str * list (use K))) :
    Forall (good_file name_text) fs ->
    read_files (lines_of (concat (map (file_block name_leb name_text) fs))) = map fst fs.
  Proof.
    induction 1 as [|f fs (Hf1 & Hf2 & Hf3) Hfs IH]; [done|].
    cbn [map concat]. unfold file_block at 1. rewrite <- !app_assoc, (app_assoc (lit "  ")).
    rewrite lines_of_line.
    2:{ apply prefix_one_line; [|done]. apply (bool_decide_unpack _). vm_compute. exact I. }
    assert (Hh : (if starts_with (lit "    ") (lit "  " ++ f.1) then None
                  else strip_prefix (lit "  ") (lit "  " ++ f.1)) = Some f.1).
    { assert (Ha : starts_with (lit "    ") (lit "  " ++ f.1) = false) by exact Hf2.
      by rewrite Ha, strip_prefix_app. }
    unfold read_files at 1. cbn [omap list_omap]. rewrite Hh. f_equal.
    match goal with |- _ ?a = _ => change (read_files a = map fst fs) end.
    rewrite read_files_froms by (by apply good_groups). exact IH.
  Qed.

  Lemma read_files_display (us : list (use K)) :
    Forall (readable name_text) us ->
    read_files (lines_of (display_uses name_leb name_text us)) =
    map fst (group_by str_leb (fun u => pl_file (ru_place u)) us).
  Proof. intros H. rewrite display_uses_eq. apply read_files_blocks. by apply good_files. Qed.
End headings.

Lemma str_leb_antisym (a b : str) : str_leb a b = true -> str_leb b a = true -> a = b.
Proof.
  revert b. induction a as [|x a IH]; intros [|y b]; cbn; try done.
  destruct (N.ltb_spec (N_of_ascii x) (N_of_ascii y)) as [H1|H1].
  - intros _. destruct (N.ltb_spec (N_of_ascii y) (N_of_ascii x)); [lia|].
    destruct (N.eqb_spec (N_of_ascii y) (N_of_ascii x)); [lia|done].
  - destruct (N.eqb_spec (N_of_ascii x) (N_of_ascii y)) as [H2|]; [|done].
    destruct (N.ltb_spec (N_of_ascii y) (N_of_ascii x)); [lia|].
    destruct (N.eqb_spec (N_of_ascii y) (N_of_ascii x)); [|done].
    intros Ha Hb. f_equal; [|by apply IH].
    rewrite <- (ascii_N_embedding x), H2. apply ascii_N_embedding.
Qed.

(** ** Cutting texts *)

Lemma last_cut (c : ascii) (a b x y : str) :
  c ∉ x -> c ∉ y -> a ++ c :: x = b ++ c :: y -> a = b /\ x = y.
Proof.
  intros Hx Hy H. apply app_eq_inv in H as [(k & -> & Hk)|(k & -> & Hk)].
  - destruct k as [|d k]; [injection Hk as ->; by rewrite app_nil_r|].
    injection Hk as -> ->. exfalso. apply Hy. set_solver.
  - destruct k as [|d k]; [injection Hk as ->; by rewrite app_nil_r|].
    injection Hk as -> ->. exfalso. apply Hx. set_solver.
Qed.

Section cutting.
  Context (P : ascii -> Prop).

  Definition stops (x : str) : Prop := match x with [] => True | c :: _ => ~ P c end.

  Lemma first_cut (a b x y : str) :
    Forall P a -> Forall P b -> stops x -> stops y -> a ++ x = b ++ y -> a = b /\ x = y.
  Proof.
    intros Ha Hb Hx Hy H. apply app_eq_inv in H as [(k & -> & Hk)|(k & -> & Hk)].
    - destruct k as [|d k]; [by rewrite app_nil_r|].
      subst y. exfalso. apply Hy. apply Forall_app in Ha as [_ Ha]. by apply Forall_cons in Ha as [? _].
    - destruct k as [|d k]; [by rewrite app_nil_r|].
      subst x. exfalso. apply Hx. apply Forall_app in Hb as [_ Hb]. by apply Forall_cons in Hb as [? _].
  Qed.
End cutting.

Lemma says_inj (t a b : str) (l m : N) (c d : option N) :
  says t a l c -> says t b m d -> a = b /\ l = m /\ c = d.
Proof.
  assert (Hcut : forall (a b x y : str), "["%char ∉ x -> "["%char ∉ y ->
            a ++ lit " [" ++ x ++ lit "]" = b ++ lit " [" ++ y ++ lit "]" -> a = b /\ x = y).
  { intros a0 b0 x y Hx Hy H.
    change (a0 ++ lit " [" ++ x ++ lit "]") with (a0 ++ lit " " ++ "["%char :: (x ++ lit "]")) in H.
    change (b0 ++ lit " [" ++ y ++ lit "]") with (b0 ++ lit " " ++ "["%char :: (y ++ lit "]")) in H.
    rewrite !app_assoc in H. apply last_cut in H as [H1 H2].
    - apply app_inj_tail in H1 as [-> _]. apply app_inj_tail in H2 as [-> _]. done.
    - rewrite elem_of_app. intros [?|Hn]; [done|].
      revert Hn. apply (bool_decide_unpack _). vm_compute. exact I.
    - rewrite elem_of_app. intros [?|Hn]; [done|].
      revert Hn. apply (bool_decide_unpack _). vm_compute. exact I. }
  assert (Hd : forall (n : N), "["%char ∉ decimal n).
  { intros n. apply number_not. apply (bool_decide_unpack _). vm_compute. exact I. }
  assert (Hd2 : forall (n : N), ":"%char ∉ decimal n).
  { intros n. apply number_not. apply (bool_decide_unpack _). vm_compute. exact I. }
  assert (Hd3 : forall (n k : N), "["%char ∉ decimal n ++ lit ":" ++ decimal k).
  { intros n k. rewrite !elem_of_app. intros [?|[Hn|?]]; [by eapply Hd| |by eapply Hd].
    revert Hn. apply (bool_decide_unpack _). vm_compute. exact I. }
  assert (Hform : forall t a l c, says t a l c ->
            t = a ++ lit " [" ++ (decimal l ++ match c with Some c => lit ":" ++ decimal c | None => [] end) ++ lit "]").
  { intros t0 a0 l0 c0 [to l'|to l' c']; [by rewrite app_nil_r|]. by rewrite <- !app_assoc. }
  intros H1%Hform H2%Hform. rewrite H1 in H2.
  apply Hcut in H2 as [-> E].
  2:{ destruct c; [apply Hd3|rewrite app_nil_r; apply Hd]. }
  2:{ destruct d; [apply Hd3|rewrite app_nil_r; apply Hd]. }
  split; [done|]. apply (first_cut (fun c => c <> ":"%char)) in E as [E1 E2].
  - apply number_inj in E1. split; [done|].
    destruct c as [c|], d as [d|]; try done.
    change (lit ":") with [":"%char] in E2. injection E2 as E2. apply number_inj in E2. by subst.
  - apply Forall_forall. intros x Hx ->. by eapply Hd2.
  - apply Forall_forall. intros x Hx ->. by eapply Hd2.
  - destruct c; [by intros Hn|done].
  - destruct d; [by intros Hn|done].
Qed.
