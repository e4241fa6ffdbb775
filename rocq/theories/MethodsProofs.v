(** Proofs about v0 symbols of methods. *)
From Verif Require Import Base BaseFacts TextSpec Utf8Proofs TextModel TextFacts DemangleModel DemangleSpec
  DemangleProofs MethodsSpec.

Lemma from_vnext (s : str) (ts : list dtoken) : produces vnext s ts -> demangled (lit "_R" ++ s) ts.
Proof.
  intros H. unfold demangled. rewrite demangle_new_v0. by apply (produces_map vnext demangle_next DV0).
Qed.

(** Texts of ASCII always have tokens. *)
Lemma vnext_total (s : str) : ascii_text s -> exists ts, produces vnext s ts.
Proof.
  intros Ha. remember (length s) as n eqn:En. revert s En Ha. induction n as [n IH] using lt_wf_ind. intros s -> Ha.
  pose proof (v0_next_good (S (length s)) s ltac:(lia)) as Hg. pose proof (v0_next_safe (S (length s)) s Ha) as Hs.
  destruct (v0_next (S (length s)) s) as [t r|r| |] eqn:E; cbn in Hg, Hs; try done.
  - destruct (IH (length r) Hg r eq_refl Hs) as [ts Hts]. exists (t :: ts). by eapply produces_yield.
  - exists []. by eapply produces_stop.
Qed.

(** [Nv] in front changes nothing. *)
Lemma after_nv (s : str) : ascii_text s -> vnext (lit "Nv" ++ s) = vnext s.
Proof.
  intros Ha. change (lit "Nv" ++ s) with ("N"%char :: "v"%char :: s). unfold vnext at 1. cbn [v0_next].
  assert (Hv : ascii_text ("v"%char :: s)) by (apply ascii_cons; done).
  rewrite slice_one by (apply ascii_cons; done).
  change (is_tag "N" ["C"%char]) with false. change (is_tag "N" ["N"%char]) with true. cbv iota.
  change (is_tag "v" ["t"%char; "v"%char]) with true. cbv iota. rewrite slice_one by done.
  apply vnext_fuel. cbn [length]. lia.
Qed.

Lemma number_ascii (d : str) : disambiguator d -> ascii_text d.
Proof.
  destruct 1 as [|b Hb]; [constructor|]. rewrite !ascii_app. split_and!; [by repeat constructor| |by repeat constructor].
  eapply Forall_impl; [exact Hb|]. intros c Hc. by apply base62_ascii.
Qed.

(** A path does not look like a number or an identifier. *)
Lemma path_first (ws : list str) (p rest : str) :
  v0_path false ws p -> exists c r, p ++ rest = c :: r /\ (c = "C"%char \/ c = "N"%char).
Proof. intros [r [->| ->]]%v0_path_first; eexists _, _; split; try done; auto. Qed.

Lemma number_read (d p rest : str) (ws : list str) :
  disambiguator d -> v0_path false ws p -> ascii_text rest -> parse_disambiguator (d ++ p ++ rest) = PSome (p ++ rest).
Proof.
  intros Hd Hp Hr. pose proof (v0_path_ascii _ _ _ Hp) as Hpa. unfold parse_disambiguator. destruct Hd as [|b Hb].
  - cbn [app]. destruct (path_first ws p rest Hp) as (c & r & -> & Hc). change (lit "s") with ["s"%char].
    rewrite strip_other; [done|]. by destruct Hc as [->| ->].
  - rewrite <- !app_assoc. rewrite strip_prefix_app. change (lit "_" ++ p ++ rest) with ("_"%char :: p ++ rest).
    rewrite find_pos_app; [| |done].
    + rewrite ascii_slice_from.
      * cbn [psliced]. rewrite (cons_middle "_"%char b), app_assoc, drop_app_alt; [done|]. rewrite app_length. cbn. lia.
      * rewrite ascii_app, ascii_cons, ascii_app. split_and!; try done.
        eapply Forall_impl; [exact Hb|]. intros c Hc. by apply base62_ascii.
      * rewrite app_length. cbn. lia.
    + eapply Forall_impl; [exact Hb|]. intros c Hc. apply base62_ascii in Hc as [_ Hc]. apply Ascii.eqb_neq. congruence.
Qed.

Lemma path_no_identifier (p rest : str) (ws : list str) :
  v0_path false ws p -> parse_undisambiguated_identifier (p ++ rest) = PNone.
Proof.
  intros Hp. destruct (path_first ws p rest Hp) as (c & r & -> & Hc).
  unfold parse_undisambiguated_identifier. change (lit "u") with ["u"%char].
  rewrite strip_other by (by destruct Hc as [->| ->]). by destruct Hc as [->| ->].
Qed.

Lemma trait_tokens (d p rest : str) (ws : list str) (ts : list dtoken) :
  disambiguator d -> v0_path false ws p -> ascii_text rest -> produces vnext rest ts ->
  demangled (trait_method_symbol d p rest) (map TText ws ++ ts).
Proof.
  intros Hd Hp Hr Hts. pose proof (v0_path_ascii _ _ _ Hp) as Hpa. pose proof (number_ascii d Hd) as Hda.
  assert (Ha : ascii_text (d ++ p ++ rest)) by (rewrite !ascii_app; done).
  unfold trait_method_symbol. change (lit "_RNvX") with (lit "_R" ++ lit "Nv" ++ lit "X"). rewrite <- !app_assoc.
  apply from_vnext. eapply produces_same; [apply after_nv; rewrite ascii_app; split; [by repeat constructor|done]|].
  eapply produces_same; [|by apply (v0_path_produces ws p Hp rest ts)].
  change (lit "X" ++ d ++ p ++ rest) with ("X"%char :: d ++ p ++ rest). unfold vnext at 1. cbn [v0_next].
  rewrite slice_one by (apply ascii_cons; done).
  change (is_tag "X" ["C"%char]) with false. change (is_tag "X" ["N"%char]) with false.
  change (is_tag "X" ["v"%char; "t"%char; "m"%char]) with false. change (is_tag "X" ["M"%char]) with false.
  change (is_tag "X" ["X"%char]) with true. cbv iota. rewrite (number_read d p rest ws Hd Hp Hr).
  apply vnext_fuel. cbn [length]. rewrite !app_length. lia.
Qed.

(** What [M] does, depending on what is skipped. *)
Lemma after_m (s : str) : ascii_text s ->
  vnext (lit "NvM" ++ s) = match skip_v0_type s with
                          | PSome r => vnext r | PNone => vnext s | PPanic => SPanic | PFuel => SFuel end.
Proof.
  intros Ha. change (lit "NvM" ++ s) with (lit "Nv" ++ "M"%char :: s).
  rewrite after_nv by (apply ascii_cons; done). unfold vnext at 1. cbn [v0_next].
  rewrite slice_one by (apply ascii_cons; done).
  change (is_tag "M" ["C"%char]) with false. change (is_tag "M" ["N"%char]) with false.
  change (is_tag "M" ["v"%char; "t"%char; "m"%char]) with false. change (is_tag "M" ["M"%char]) with true. cbv iota.
  destruct (skip_v0_type_ok s) as [_ Hl]. destruct (skip_v0_type s) as [r| | |]; try done.
  specialize (Hl r eq_refl). apply vnext_fuel. cbn [length]. lia.
Qed.

Lemma after_m_skip (s r : str) : ascii_text s -> skip_v0_type s = PSome r -> vnext (lit "NvM" ++ s) = vnext r.
Proof. intros Ha Hs. by rewrite after_m, Hs. Qed.
Lemma after_m_none (s : str) : ascii_text s -> skip_v0_type s = PNone -> vnext (lit "NvM" ++ s) = vnext s.
Proof. intros Ha Hs. by rewrite after_m, Hs. Qed.

Lemma skip_nested (c : ascii) (s : str) : ascii_text s ->
  (c = "t"%char \/ c = "m"%char -> skip_v0_type ("N"%char :: c :: s) = PNone) /\
  (c = "v"%char -> skip_v0_type ("N"%char :: c :: s) = PSome s).
Proof.
  intros Ha. unfold skip_v0_type.
  replace (2 * length ("N"%char :: c :: s) + 2) with (S (S (2 * length s + 4))) by (cbn [length]; lia).
  generalize (2 * length s + 4). intros n.
  split; [intros [->| ->]|intros ->]; cbn [skip_type];
    rewrite slice_one by (by repeat (apply ascii_cons; split)); cbn [psliced pbind];
    change (is_tag "N" ["C"%char]) with false;
    change (is_tag "N" ["N"%char; "p"%char; "R"%char; "Q"%char; "A"%char; "S"%char]) with true; cbv iota;
    rewrite slice_one by (by repeat (apply ascii_cons; split)); done.
Qed.

(** The first implementation in a module. *)
Lemma first_tokens (p rest : str) (ws : list str) (ts : list dtoken) :
  v0_path false ws p -> 2 <= length ws -> ascii_text rest -> produces vnext rest ts ->
  demangled (method_symbol [] p rest) (map TText ws ++ ts).
Proof.
  intros Hp Hlen Hr Hts. pose proof (v0_path_ascii _ _ _ Hp) as Hpa.
  assert (Ha : ascii_text (p ++ rest)) by (rewrite !ascii_app; done).
  unfold method_symbol. change (lit "_RNvM") with (lit "_R" ++ lit "NvM"). rewrite <- !app_assoc. cbn [app].
  pose proof (v0_path_produces ws p Hp rest ts Hr Hts) as Hprod.
  apply from_vnext.
  inversion Hp as [w t Hi|ns ws' w p' t Hns Hp' Hi]; subst; [cbn in Hlen; lia|].
  pose proof (v0_path_ascii _ _ _ Hp') as Hpa'. pose proof (v0_identifier_ascii _ _ _ Hi) as Hta.
  rewrite <- !app_assoc in *.
  set (tail := p' ++ t ++ rest) in *.
  assert (Htail : ascii_text tail) by (unfold tail; rewrite !ascii_app; done).
  assert (Hskip : skip_v0_type (lit "N" ++ ns ++ tail) = PNone \/
                  ns = lit "v" /\ skip_v0_type (lit "N" ++ ns ++ tail) = PSome tail).
  { destruct Hns as [->|[->| ->]].
    - left. apply (proj1 (skip_nested "t" tail Htail)). by left.
    - right. split; [done|]. by apply (proj2 (skip_nested "v" tail Htail)).
    - left. apply (proj1 (skip_nested "m" tail Htail)). by right. }
  destruct Hskip as [Hskip|[-> Hskip]].
  - eapply produces_same; [|exact Hprod]. by apply after_m_none.
  - eapply produces_same; [|exact Hprod]. rewrite (after_m_skip _ tail) by done.
    change (lit "N" ++ lit "v" ++ tail) with (lit "Nv" ++ tail). by rewrite after_nv.
Qed.

(** An implementation with a number. *)
Lemma numbered_tokens (d p rest : str) (ws : list str) :
  numbered d -> v0_path false ws p -> ascii_text rest -> demangled (method_symbol d p rest) [].
Proof.
  intros [Hd Hne] Hp Hr. pose proof (v0_path_ascii _ _ _ Hp) as Hpa. pose proof (number_ascii d Hd) as Hda.
  assert (Ha : ascii_text (d ++ p ++ rest)) by (rewrite !ascii_app; done).
  assert (Hid : parse_identifier (d ++ p ++ rest) = PNone).
  { unfold parse_identifier. rewrite (number_read d p rest ws) by done. cbn [pbind]. by apply (path_no_identifier _ _ ws). }
  assert (Hs : exists r, d ++ p ++ rest = "s"%char :: r) by (destruct Hd as [|b Hb]; [done|]; by eexists).
  destruct Hs as [r Hs].
  unfold method_symbol. change (lit "_RNvM") with (lit "_R" ++ lit "NvM"). rewrite <- app_assoc.
  apply from_vnext. eapply produces_stop. rewrite after_m by done.
  assert (Hskip : skip_v0_type (d ++ p ++ rest) = PNone).
  { unfold skip_v0_type. rewrite Hs in *. cbn [length Nat.mul Nat.add skip_type]. rewrite slice_one by done.
    cbn [psliced pbind]. rewrite Hid. done. }
  rewrite Hskip. rewrite Hs in *. unfold vnext. cbn [v0_next]. rewrite slice_one by done.
  unfold yield_identifier. rewrite Hid. reflexivity.
Qed.

(** The first implementation at the top of a crate. *)
Lemma root_tokens (w t rest : str) (ts : list dtoken) :
  v0_identifier false w t -> ascii_text rest -> produces vnext rest ts ->
  demangled (method_symbol [] (lit "C" ++ t) rest) ts.
Proof.
  intros Hi Hr Hts. pose proof (v0_identifier_ascii _ _ _ Hi) as Hta.
  unfold method_symbol. change (lit "_RNvM") with (lit "_R" ++ lit "NvM"). cbn [app].
  assert (Ha : ascii_text (("C"%char :: t) ++ rest)) by (apply ascii_cons; split; [done|]; rewrite ascii_app; done).
  apply (from_vnext (lit "NvM" ++ (lit "C" ++ t) ++ rest)).
  assert (Hskip : skip_v0_type ((lit "C" ++ t) ++ rest) = PSome rest).
  { change ((lit "C" ++ t) ++ rest) with ("C"%char :: t ++ rest) in *. unfold skip_v0_type.
    cbn [length Nat.mul Nat.add skip_type]. rewrite slice_one by done. cbn [psliced pbind].
    rewrite (v0_identifier_parse _ _ _ rest Hi Hr). done. }
  eapply produces_same; [by apply after_m_skip|done].
Qed.
