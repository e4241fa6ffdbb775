(** Proofs about names and details. *)
From Verif Require Import Base CollectModel NamingModel NamingSpec.

Lemma join_path (ps : list str) : ps <> [] -> path_text ps (join (lit "::") ps).
Proof.
  induction ps as [|p ps IH]; [done|]. intros _. destruct ps as [|q ps]; [constructor|].
  change (path_text (p :: q :: ps) (p ++ lit "::" ++ join (lit "::") (q :: ps))).
  apply (path_more p (q :: ps)). by apply IH.
Qed.

Lemma ns_more (ps : list str) (out : str) :
  (foldl add_part (out, false) ps).1 = out ++ concat (map (fun p => lit "::" ++ p) ps).
Proof.
  revert out. induction ps as [|p ps IH]; intros out; cbn [foldl]; [by rewrite app_nil_r|].
  unfold add_part at 2. cbn [fst snd]. rewrite IH. cbn [map concat]. by rewrite !app_assoc.
Qed.

Lemma ns_display (p : str) (ps : list str) :
  namespace_display (p :: ps) = p ++ concat (map (fun p => lit "::" ++ p) ps).
Proof. unfold namespace_display. change ((foldl add_part (p, false) ps).1 = p ++ concat (map (fun p => lit "::" ++ p) ps)). apply ns_more. Qed.

Lemma concat_join (p : str) (ps : list str) : p ++ concat (map (fun p => lit "::" ++ p) ps) = join (lit "::") (p :: ps).
Proof.
  revert p. induction ps as [|q ps IH]; intros p; [cbn; by rewrite app_nil_r|].
  change (join (lit "::") (p :: q :: ps)) with (p ++ lit "::" ++ join (lit "::") (q :: ps)).
  rewrite <- IH. cbn [map concat]. by rewrite !app_assoc.
Qed.

Lemma debug_path (d : debug_name) : path_text (dn_namespace d ++ [dn_name d]) (debug_display d).
Proof.
  unfold debug_display. destruct (dn_namespace d) as [|p ps] eqn:E.
  - cbn. constructor.
  - rewrite bool_decide_eq_false_2 by done. rewrite ns_display.
    replace ((p ++ concat (map (fun p => lit "::" ++ p) ps)) ++ lit "::" ++ dn_name d)
      with (p ++ concat (map (fun p => lit "::" ++ p) (ps ++ [dn_name d]))).
    + rewrite concat_join. apply (join_path ((p :: ps) ++ [dn_name d])). done.
    + rewrite map_app, concat_app. cbn [map concat]. by rewrite app_nil_r, !app_assoc.
Qed.

Lemma colon_split (p q x y : str) :
  colonless p -> colonless q -> p ++ ":"%char :: x = q ++ ":"%char :: y -> p = q /\ x = y.
Proof.
  revert q. induction p as [|a p IH]; intros [|b q] Hp Hq E; cbn in E.
  - by injection E as ->.
  - injection E as <- _. destruct Hq. by left.
  - injection E as -> _. destruct Hp. by left.
  - injection E as -> E. destruct (IH q) as [-> ->]; [|..|done|done].
    + intros H. apply Hp. by right.
    + intros H. apply Hq. by right.
Qed.

Lemma path_inj (ps qs : list str) (t : str) :
  Forall colonless ps -> Forall colonless qs -> path_text ps t -> path_text qs t -> ps = qs.
Proof.
  intros Hp Hq H. revert qs Hq. induction H as [p|p ps t H IH]; intros qs Hq H'.
  - inversion H' as [q|q qs' t' H1 E1 E2]; subst; [done|].
    destruct (Forall_inv Hp). apply elem_of_app. right. by left.
  - inversion H' as [q E1 E2|q qs' t' H1 E1 E2]; subst.
    + destruct (Forall_inv Hq). apply elem_of_app. right. by left.
    + apply colon_split in E2 as [-> E2]; [|by apply (Forall_inv Hq)|by apply (Forall_inv Hp)].
      injection E2 as ->. f_equal. apply IH; [by apply (Forall_inv_tail Hp)|by apply (Forall_inv_tail Hq)|done].
Qed.

Lemma debug_inj (d e : debug_name) :
  Forall colonless (dn_namespace d ++ [dn_name d]) -> Forall colonless (dn_namespace e ++ [dn_name e]) ->
  debug_display d = debug_display e -> d = e.
Proof.
  intros Hd He E. pose proof (debug_path d) as P. rewrite E in P.
  pose proof (path_inj _ _ _ Hd He P (debug_path e)) as H. apply app_inj_tail in H as [H1 H2].
  destruct d, e. cbn in *. congruence.
Qed.

Lemma width_bound (l : list nat) (n : nat) : n ∈ l -> n <= foldr Nat.max 0 l.
Proof. induction 1 as [|m l n H IH]; cbn; lia. Qed.

Lemma details_rows (details : list (str * str)) (width : nat) :
  (forall d, d ∈ details -> length d.1 <= width) ->
  exists lines,
    mapM (fun d : str * str =>
            if Nat.ltb width (length d.1) then None
            else Some (d.1 ++ lit " " ++ repeat " "%char (width - length d.1), d.2)) details = Some lines /\
    Forall2 (table_of (S width)) details (map (fun l : str * str => l.1 ++ l.2) lines).
Proof.
  induction details as [|d ds IH]; intros Hw.
  - exists []. split; [done|constructor].
  - assert (Hd : length d.1 <= width) by (apply Hw; by left).
    destruct IH as (lines & E & H); [intros d' Hd'; apply Hw; by right|].
    exists ((d.1 ++ lit " " ++ repeat " "%char (width - length d.1), d.2) :: lines).
    split.
    + apply mapM_Some_2. constructor.
      * destruct (Nat.ltb_spec width (length d.1)); [lia|done].
      * by apply mapM_Some_1.
    + cbn [map]. constructor; [|done].
      exists (lit " " ++ repeat " "%char (width - length d.1)). split; [cbn [fst snd]; by rewrite !app_assoc|].
      split; [|split; [done|]].
      * intros c Hc. apply elem_of_cons in Hc as [->|Hc]; [done|].
        apply elem_of_list_In in Hc. by apply repeat_spec in Hc.
      * rewrite !app_length, repeat_length. cbn [length lit list_ascii_of_string]. change (length (lit " ")) with 1. lia.
Qed.

Lemma details_table (details : list (str * str)) :
  exists lines column, details_lines details = Some lines /\
    Forall2 (table_of column) details (map (fun l : str * str => l.1 ++ l.2) lines).
Proof.
  unfold details_lines.
  set (width := match map (fun d => length d.1) details with [] => 5 | l => foldr Nat.max 0 l end).
  destruct (details_rows details width) as (lines & E & H); [|by exists lines, (S width)].
  intros d Hd. assert (Hl : length d.1 ∈ map (fun d => length d.1) details) by (apply elem_of_list_fmap; eauto).
  unfold width. destruct (map (fun d => length d.1) details) as [|n l]; [by apply elem_of_nil in Hl|]. by apply width_bound.
Qed.
