From Verif Require Import Base BaseFacts TextModel TextFacts DemangleModel DemangleSpec.

(** ** Searching and slicing *)

Lemma find_pos_some f s n :
  find_pos f s = Some n ->
  exists x c y, s = x ++ c :: y /\ length x = n /\ f c = true /\ Forall (fun b => f b = false) x.
Proof.
  revert n. induction s as [|a s IH]; intros n H; cbn in H; [done|].
  destruct (f a) eqn:Ea.
  - injection H as <-. exists [], a, s. done.
  - destruct (find_pos f s) as [m|]; [|done]. injection H as <-.
    destruct (IH m eq_refl) as (x & c & y & -> & <- & Hc & Hx).
    exists (a :: x), c, y. split; [done|]. split; [done|]. split; [done|]. by constructor.
Qed.

Lemma find_pos_app f x c y :
  Forall (fun b => f b = false) x -> f c = true -> find_pos f (x ++ c :: y) = Some (length x).
Proof.
  intros Hx Hc. induction Hx as [|a x Ha Hx IH]; cbn.
  - by rewrite Hc.
  - by rewrite Ha, IH.
Qed.

Lemma find_pos_none f s : find_pos f s = None <-> Forall (fun b => f b = false) s.
Proof.
  induction s as [|a s IH]; cbn; [split; [constructor|done]|].
  destruct (f a) eqn:Ea.
  - split; [done|]. intros H. inversion H. congruence.
  - destruct (find_pos f s) as [m|]; split; try done.
    + intros H. inversion H; subst. destruct IH as [_ IH]. by specialize (IH H3).
    + intros _. constructor; [done|]. by apply IH.
Qed.

Lemma ascii_app x y : ascii_text (x ++ y) <-> ascii_text x /\ ascii_text y.
Proof. apply Forall_app. Qed.
Lemma ascii_cons a y : ascii_text (a :: y) <-> is_ascii a = true /\ ascii_text y.
Proof. unfold ascii_text. by rewrite Forall_cons. Qed.

Lemma ascii_boundary s n : ascii_text s -> n <= length s -> boundary s n = true.
Proof.
  intros Hs Hn. unfold boundary. destruct (Nat.eqb n 0) eqn:E; [done|].
  destruct (s !! n) as [c|] eqn:El.
  - unfold ascii_text in Hs. rewrite Forall_lookup in Hs. pose proof (Hs _ _ El) as Hc. cbn in Hc.
    by rewrite ascii_not_cont.
  - apply lookup_ge_None in El. apply Nat.eqb_eq. lia.
Qed.

Lemma ascii_slice_from s n : ascii_text s -> n <= length s -> slice_from s n = Some (drop n s).
Proof. intros Hs Hn. unfold slice_from. by rewrite ascii_boundary. Qed.
Lemma ascii_slice_to s n : ascii_text s -> n <= length s -> slice_to s n = Some (take n s).
Proof. intros Hs Hn. unfold slice_to. by rewrite ascii_boundary. Qed.

Lemma ascii_drop s n : ascii_text s -> ascii_text (drop n s).
Proof. intros H. by apply Forall_drop. Qed.
Lemma ascii_take s n : ascii_text s -> ascii_text (take n s).
Proof. intros H. by apply Forall_take. Qed.

Lemma slice_from_len s n r : slice_from s n = Some r -> r = drop n s /\ length r = length s - n.
Proof.
  unfold slice_from. destruct (boundary s n) eqn:E; [|done]. intros [= <-].
  split; [done|]. by rewrite drop_length.
Qed.

Lemma slice1 a s r : slice_from (a :: s) 1 = Some r -> r = s.
Proof. intros [-> _]%slice_from_len. cbn. by rewrite drop_0. Qed.

(** ** Lengths decrease; fuel suffices (arbitrary bytes) *)

Lemma decimal_loop_len v n s v' len : decimal_loop v n s = Some (v', len) -> n <= len <= n + length s.
Proof.
  revert v n. induction s as [|b s IH]; cbn; intros v n H.
  - injection H as -> ->. lia.
  - destruct (is_digit b); [|injection H as -> ->; lia].
    destruct (N.leb _ _); [|done]. apply IH in H. lia.
Qed.

Lemma parse_decimal_len s v r : parse_decimal s = PSome (v, r) -> length r < length s.
Proof.
  unfold parse_decimal. destruct (decimal_loop 0 0 s) as [[v' len]|] eqn:E; [|done].
  destruct (Nat.eqb len 0) eqn:E0; [done|]. apply Nat.eqb_neq in E0.
  apply decimal_loop_len in E.
  destruct (slice_from s len) as [r'|] eqn:Es; cbn; [|done]. intros [= -> ->].
  apply slice_from_len in Es as [_ Hl]. lia.
Qed.

Lemma strip_prefix_len p s r : strip_prefix p s = Some r -> length s = length p + length r.
Proof. intros ->%strip_prefix_spec. by rewrite app_length. Qed.

Lemma parse_disambiguator_len s r : parse_disambiguator s = PSome r -> length r <= length s.
Proof.
  unfold parse_disambiguator. destruct (strip_prefix (lit "s") s) as [r'|] eqn:E.
  - apply strip_prefix_len in E. destruct (find_pos _ r'); [|done].
    destruct (slice_from r' _) as [x|] eqn:Es; [|done]. cbn. intros [= <-].
    apply slice_from_len in Es as [_ Hl]. lia.
  - by intros [= ->].
Qed.

Lemma parse_identifier_len s i r : parse_identifier s = PSome (i, r) -> length r < length s.
Proof.
  unfold parse_identifier. destruct (parse_disambiguator s) as [s1| | |] eqn:E; [|done..]. cbn [pbind].
  apply parse_disambiguator_len in E. unfold parse_undisambiguated_identifier.
  set (s2 := match strip_prefix (lit "u") s1 with Some r => r | None => s1 end).
  assert (H2 : length s2 <= length s1).
  { unfold s2. destruct (strip_prefix (lit "u") s1) eqn:Eu; [|done].
    apply strip_prefix_len in Eu. lia. }
  destruct (parse_decimal s2) as [[len s3]| | |] eqn:Ed; [|done..]. cbn [pbind].
  apply parse_decimal_len in Ed.
  set (s4 := match strip_prefix (lit "_") s3 with Some r => r | None => s3 end).
  assert (H4 : length s4 <= length s3).
  { unfold s4. destruct (strip_prefix (lit "_") s3) eqn:Eu; [|done].
    apply strip_prefix_len in Eu. lia. }
  destruct (N.leb _ _); [|done].
  destruct (slice_to s4 _); [|done]. destruct (slice_from s4 _) as [s5|] eqn:E5; [|done].
  intros [= _ ->]. apply slice_from_len in E5 as [_ Hl]. lia.
Qed.

Lemma parse_decimal_fuel s : parse_decimal s <> PFuel.
Proof.
  unfold parse_decimal. destruct (decimal_loop 0 0 s) as [[v len]|]; [|done].
  destruct (Nat.eqb len 0); [done|]. by destruct (slice_from s len).
Qed.

Lemma parse_disambiguator_fuel s : parse_disambiguator s <> PFuel.
Proof.
  unfold parse_disambiguator. destruct (strip_prefix _ s) as [r|]; [|done].
  destruct (find_pos _ r) as [e|]; [|done]. by destruct (slice_from r (e + 1)).
Qed.

Lemma parse_identifier_fuel s : parse_identifier s <> PFuel.
Proof.
  unfold parse_identifier. pose proof (parse_disambiguator_fuel s) as H.
  destruct (parse_disambiguator s) as [s1| | |]; try done. cbn [pbind].
  unfold parse_undisambiguated_identifier.
  pose proof (parse_decimal_fuel (match strip_prefix (lit "u") s1 with Some r => r | None => s1 end)) as H1.
  destruct (parse_decimal _) as [[len s3]| | |]; try done. cbn [pbind].
  destruct (N.leb _ _); [|done].
  destruct (slice_to _ _); [|done]. by destruct (slice_from _ _).
Qed.

Lemma skip_types fuel :
  (forall data, 2 * length data + 1 <= fuel ->
     skip_type fuel data <> PFuel /\ forall r, skip_type fuel data = PSome r -> length r < length data) /\
  (forall data, 2 * length data + 2 <= fuel ->
     skip_until_end fuel data <> PFuel /\
     forall r, skip_until_end fuel data = PSome r -> length r < length data).
Proof.
  induction fuel as [|fuel [IH1 IH2]]; [split; intros; lia|]. split.
  - intros data Hf. cbn [skip_type]. destruct data as [|tag data]; [done|].
    destruct (slice_from (tag :: data) 1) as [rest|] eqn:Er; [|done]. cbn [psliced pbind].
    apply slice1 in Er as ->. cbn [length] in *.
    destruct (IH1 data) as [Hf1 Hl1]; [lia|].
    destruct (is_tag tag ["C"%char]).
    { pose proof (parse_identifier_fuel data) as Hp.
      destruct (parse_identifier data) as [[i r]| | |] eqn:E; cbn; try done.
      split; [done|]. intros r' [= <-]. apply parse_identifier_len in E. lia. }
    destruct (is_tag tag _).
    { split; [done|]. intros r Hr. apply Hl1 in Hr. lia. }
    destruct (is_tag tag _).
    { destruct (IH2 data) as [Hf2 Hl2]; [lia|]. split; [done|].
      intros r Hr. apply Hl2 in Hr. lia. }
    destruct (is_tag tag _).
    { destruct (skip_type fuel data) as [cur| | |] eqn:E; [|done..].
      specialize (Hl1 cur eq_refl). destruct (IH2 cur) as [Hf2 Hl2]; [lia|].
      split; [done|]. intros r Hr. apply Hl2 in Hr. lia. }
    destruct (is_tag tag _).
    { split; [done|]. intros r [= <-]. lia. }
    destruct (is_base62_digit tag).
    { pose proof (parse_identifier_fuel (tag :: data)) as Hp.
      destruct (parse_identifier (tag :: data)) as [[i r]| | |] eqn:E; cbn; try done.
      split; [done|]. intros r' [= <-]. by apply parse_identifier_len in E. }
    split; [done|]. intros r [= <-]. lia.
  - intros data Hf. cbn [skip_until_end]. destruct data as [|c data]; [done|].
    destruct (Ascii.eqb c "E").
    { destruct (slice_from (c :: data) 1) as [rest|] eqn:Er; [|done]. cbn.
      apply slice1 in Er as ->. split; [done|]. intros r [= <-]. lia. }
    destruct (IH1 (c :: data)) as [Hf1 Hl1]; [lia|].
    destruct (skip_type fuel (c :: data)) as [r| | |] eqn:E; [|done..].
    specialize (Hl1 r eq_refl). destruct (IH2 r) as [Hf2 Hl2]; [lia|].
    split; [done|]. intros r' Hr. apply Hl2 in Hr. lia.
Qed.

Lemma skip_v0_type_ok s :
  skip_v0_type s <> PFuel /\ forall r, skip_v0_type s = PSome r -> length r < length s.
Proof. unfold skip_v0_type. apply (proj1 (skip_types _)). lia. Qed.

(** What holds of a step from a text: no fuel problem, and a token leaves less. *)
Definition good_step (bound : nat) (r : stepped str) : Prop :=
  match r with
  | SYield _ s => length s < bound
  | SFuel => False
  | _ => True
  end.

Lemma good_weaken a b r : a <= b -> good_step a r -> good_step b r.
Proof. intros H. destruct r; cbn; try done. lia. Qed.

Lemma yield_identifier_good old s n : length s <= n -> good_step n (yield_identifier old s).
Proof.
  intros Hn. unfold yield_identifier. pose proof (parse_identifier_fuel s).
  destruct (parse_identifier s) as [[i r]| | |] eqn:E; cbn; try done.
  apply parse_identifier_len in E. lia.
Qed.

Lemma v0_next_good fuel s : length s < fuel -> good_step (length s) (v0_next fuel s).
Proof.
  revert s. induction fuel as [|fuel IH]; intros s Hf; [lia|].
  cbn [v0_next]. destruct s as [|tag s]; [done|].
  destruct (slice_from (tag :: s) 1) as [rest|] eqn:Er; [|done].
  apply slice1 in Er as ->. cbn [length] in *.
  assert (IH' : forall r, length r <= length s -> good_step (S (length s)) (v0_next fuel r)).
  { intros r Hr. eapply good_weaken; [|apply IH; lia]. lia. }
  assert (Hs : good_step (S (length s)) (v0_next fuel s)) by by apply IH'.
  assert (Hy : forall t, good_step (S (length s)) (SYield t s)) by (intros; cbn; lia).
  destruct (is_tag tag ["C"%char]); [apply yield_identifier_good; lia|].
  destruct (is_tag tag ["N"%char]).
  { destruct s as [|nt s']; [done|]. destruct (is_tag nt _).
    - destruct (slice_from (nt :: s') 1) as [r1|] eqn:E1; [|done].
      apply slice_from_len in E1 as [_ E1]. apply IH'. lia.
    - destruct (is_tag nt _); [done|].
      pose proof (parse_identifier_fuel (nt :: s')).
      destruct (parse_identifier (nt :: s')) as [[i r]| | |] eqn:E; try done.
      apply parse_identifier_len in E. cbn in E |- *. lia. }
  destruct (is_tag tag _); [done|].
  destruct (is_tag tag _).
  { destruct (skip_v0_type_ok s) as [H1 H2].
    destruct (skip_v0_type s) as [r| | |]; try done. apply IH'. specialize (H2 r eq_refl). lia. }
  destruct (is_tag tag _).
  { pose proof (parse_disambiguator_fuel s).
    destruct (parse_disambiguator s) as [r| | |] eqn:E; try done.
    apply parse_disambiguator_len in E. by apply IH'. }
  destruct (is_tag tag _); [done|].
  destruct (is_tag tag _).
  { destruct (find_pos _ s) as [pos|]; [|done].
    destruct (slice_from s _) as [r|] eqn:E; [|done]. apply slice_from_len in E as [_ E].
    apply IH'. lia. }
  repeat (destruct (is_tag tag _); [done|]).
  destruct (is_base62_digit tag); [by apply yield_identifier_good|]. done.
Qed.

(** ** v0: termination *)

Lemma collect_v0 s n :
  length s < n ->
  (exists ts, collect demangle_next n (DV0 s) = Finished ts /\ length ts <= length s) \/
  collect demangle_next n (DV0 s) = Panicked.
Proof.
  revert s. induction n as [|n IH]; intros s Hn; [lia|]. cbn [collect demangle_next].
  pose proof (v0_next_good (S (length s)) s ltac:(lia)) as Hg.
  destruct (v0_next (S (length s)) s) as [t r| | |]; cbn in Hg |- *.
  - destruct (IH r) as [(ts & -> & Hl)| ->]; [lia| |by right].
    left. exists (t :: ts). split; [done|]. cbn. lia.
  - left. exists []. split; [done|]. cbn. lia.
  - by right.
  - done.
Qed.

(** ** v0: no panic on ASCII *)

Definition safe_parse {A} (P : A -> Prop) (r : parsed A) : Prop :=
  match r with PSome a => P a | PPanic => False | _ => True end.

Lemma slice_from_safe s n :
  ascii_text s -> n <= length s -> safe_parse ascii_text (psliced (slice_from s n)).
Proof. intros Hs Hn. rewrite ascii_slice_from by done. by apply ascii_drop. Qed.

Lemma parse_decimal_safe s : ascii_text s -> safe_parse (fun x => ascii_text x.2) (parse_decimal s).
Proof.
  intros Hs. unfold parse_decimal. destruct (decimal_loop 0 0 s) as [[v len]|] eqn:E; [|done].
  destruct (Nat.eqb len 0); [done|]. apply decimal_loop_len in E.
  pose proof (slice_from_safe s len Hs ltac:(lia)) as H.
  by destruct (slice_from s len).
Qed.

Lemma ascii_strip p s : ascii_text s -> ascii_text (match strip_prefix p s with Some r => r | None => s end).
Proof.
  intros Hs. destruct (strip_prefix p s) as [r|] eqn:E; [|done].
  apply strip_prefix_spec in E as ->. by apply ascii_app in Hs as [_ ?].
Qed.

Lemma find_pos_lt f s n : find_pos f s = Some n -> n < length s.
Proof.
  intros (x & c & y & -> & <- & _)%find_pos_some. rewrite app_length. cbn. lia.
Qed.

Lemma parse_disambiguator_safe s : ascii_text s -> safe_parse ascii_text (parse_disambiguator s).
Proof.
  intros Hs. unfold parse_disambiguator.
  destruct (strip_prefix (lit "s") s) as [r|] eqn:E; [|done].
  apply strip_prefix_spec in E as ->. apply ascii_app in Hs as [_ Hr].
  destruct (find_pos _ r) as [e|] eqn:Ef; [|done]. apply find_pos_lt in Ef.
  apply slice_from_safe; [done|lia].
Qed.

Lemma parse_identifier_safe s :
  ascii_text s -> safe_parse (fun x => ascii_text x.1 /\ ascii_text x.2) (parse_identifier s).
Proof.
  intros Hs. unfold parse_identifier. pose proof (parse_disambiguator_safe s Hs) as H1.
  destruct (parse_disambiguator s) as [s1| | |]; try done. cbn [safe_parse pbind] in *.
  unfold parse_undisambiguated_identifier.
  pose proof (ascii_strip (lit "u") s1 H1) as H2.
  set (s2 := match strip_prefix (lit "u") s1 with Some r => r | None => s1 end) in *.
  pose proof (parse_decimal_safe s2 H2) as H3.
  destruct (parse_decimal s2) as [[len s3]| | |]; try done. cbn [safe_parse pbind snd] in *.
  pose proof (ascii_strip (lit "_") s3 H3) as H4.
  set (s4 := match strip_prefix (lit "_") s3 with Some r => r | None => s3 end) in *.
  destruct (N.leb len (N.of_nat (length s4))) eqn:El; [|done]. apply N.leb_le in El.
  rewrite ascii_slice_to, ascii_slice_from by (done || lia). cbn.
  split; [by apply ascii_take|by apply ascii_drop].
Qed.

Lemma skip_types_safe fuel :
  (forall data, ascii_text data -> safe_parse ascii_text (skip_type fuel data)) /\
  (forall data, ascii_text data -> safe_parse ascii_text (skip_until_end fuel data)).
Proof.
  induction fuel as [|fuel [IH1 IH2]]; [done|].
  assert (Hid : forall s, ascii_text s ->
            safe_parse ascii_text (pbind (parse_identifier s) (fun '(_, r) => PSome r))).
  { intros s Hs. pose proof (parse_identifier_safe s Hs) as H.
    destruct (parse_identifier s) as [[i r]| | |]; cbn in *; tauto. }
  split; intros data Hd.
  - cbn [skip_type]. destruct data as [|tag data]; [done|].
    rewrite ascii_slice_from by (done || (cbn; lia)). cbn [psliced pbind].
    change (drop 1 (tag :: data)) with (drop 0 data). rewrite drop_0.
    pose proof (proj2 (proj1 (ascii_cons _ _) Hd)) as Ht.
    destruct (is_tag tag ["C"%char]); [by apply Hid|].
    destruct (is_tag tag _); [by apply IH1|].
    destruct (is_tag tag _); [by apply IH2|].
    destruct (is_tag tag _).
    { pose proof (IH1 data Ht) as H. destruct (skip_type fuel data); try done. by apply IH2. }
    destruct (is_tag tag _); [done|]. destruct (is_base62_digit tag); [by apply Hid|done].
  - cbn [skip_until_end]. destruct data as [|c data]; [done|].
    destruct (Ascii.eqb c "E").
    { apply slice_from_safe; [done|cbn; lia]. }
    pose proof (IH1 _ Hd) as H. destruct (skip_type fuel (c :: data)); try done. by apply IH2.
Qed.

Definition safe_step {S} (P : S -> Prop) (r : stepped S) : Prop :=
  match r with SYield _ s => P s | SPanic => False | _ => True end.

Lemma yield_identifier_safe old s :
  ascii_text s -> safe_step ascii_text (yield_identifier old s).
Proof.
  intros Hs. unfold yield_identifier. pose proof (parse_identifier_safe s Hs) as H.
  destruct (parse_identifier s) as [[i r]| | |]; cbn in *; tauto.
Qed.

Lemma v0_next_safe fuel s : ascii_text s -> safe_step ascii_text (v0_next fuel s).
Proof.
  revert s. induction fuel as [|fuel IH]; intros s Hs; [done|].
  cbn [v0_next]. destruct s as [|tag s]; [done|].
  rewrite ascii_slice_from by (done || (cbn; lia)).
  change (drop 1 (tag :: s)) with (drop 0 s). rewrite drop_0.
  pose proof (proj2 (proj1 (ascii_cons _ _) Hs)) as Ht.
  pose proof (IH s Ht) as Hn.
  destruct (is_tag tag ["C"%char]); [by apply yield_identifier_safe|].
  destruct (is_tag tag ["N"%char]).
  { destruct s as [|nt s']; [done|].
    pose proof (proj2 (proj1 (ascii_cons _ _) Ht)) as Ht'.
    destruct (is_tag nt _).
    - rewrite ascii_slice_from by (done || (cbn; lia)).
      change (drop 1 (nt :: s')) with (drop 0 s'). rewrite drop_0. by apply IH.
    - destruct (is_tag nt _); [done|].
      pose proof (parse_identifier_safe _ Ht) as H.
      destruct (parse_identifier (nt :: s')) as [[i r]| | |]; cbn in H |- *; tauto. }
  destruct (is_tag tag _); [done|].
  destruct (is_tag tag _).
  { pose proof (proj1 (skip_types_safe (2 * length s + 2)) s Ht) as H.
    unfold skip_v0_type. destruct (skip_type _ s); try done. by apply IH. }
  destruct (is_tag tag _).
  { pose proof (parse_disambiguator_safe s Ht) as H.
    destruct (parse_disambiguator s); try done. by apply IH. }
  destruct (is_tag tag _); [done|].
  destruct (is_tag tag _).
  { destruct (find_pos _ s) as [pos|] eqn:E; [|done]. apply find_pos_lt in E.
    rewrite ascii_slice_from by (done || lia). apply IH. by apply ascii_drop. }
  repeat (destruct (is_tag tag _); [done|]).
  destruct (is_base62_digit tag); [by apply yield_identifier_safe|done].
Qed.

(** ** Legacy symbols *)

Definition lnext (s : legacy) : stepped legacy := legacy_next (length (lg_outer s) + 2) s.

Lemma slice_to_nil_usize s : slice_to s 0 = Some [] .
Proof. done. Qed.

Lemma outer_next_again again1 again2 outer :
  (forall s, length (lg_outer s) < length outer -> again1 s = again2 s) ->
  outer_next again1 outer = outer_next again2 outer.
Proof.
  intros H. unfold outer_next. destruct outer as [|c0 outer0]; [done|].
  destruct (find_pos _ _) as [n|] eqn:Ef; [|done].
  destruct (slice_to (c0 :: outer0) n) as [ls|] eqn:E0; [|done].
  destruct (slice_from (c0 :: outer0) n) as [rest|] eqn:E1; [|done].
  destruct (parse_usize ls) as [len|] eqn:Ep; [|done].
  assert (Hn : 0 < n).
  { destruct n; [|lia]. rewrite slice_to_nil_usize in E0. by injection E0 as <-. }
  destruct (N.ltb _ _); [done|].
  destruct (slice_to rest _) as [part|] eqn:E2; [|done].
  destruct (slice_from rest _) as [rest'|] eqn:E3; [|done].
  apply slice_from_len in E1 as [_ H1]. apply slice_from_len in E3 as [_ H3].
  assert (Hlt : length rest' < length (c0 :: outer0)) by (cbn [length] in *; lia).
  destruct (strip_prefix _ part); [by apply H|]. destruct (has_char _ part); [by apply H|done].
Qed.

Lemma legacy_fuel n f1 f2 s :
  length (lg_outer s) <= n -> n < f1 -> n < f2 -> legacy_next f1 s = legacy_next f2 s.
Proof.
  revert f1 f2 s. induction n as [n IH] using lt_wf_ind; intros f1 f2 s Hs H1 H2.
  destruct f1 as [|f1]; [lia|]. destruct f2 as [|f2]; [lia|]. cbn [legacy_next].
  assert (Ho : outer_next (legacy_next f1) (lg_outer s) = outer_next (legacy_next f2) (lg_outer s)).
  { apply outer_next_again. intros s' Hs'. apply (IH (length (lg_outer s'))); lia. }
  by rewrite Ho.
Qed.

Lemma lnext_eq s :
  lnext s = match lg_inner s with
            | Some (c :: data) => inner_next (lg_outer s) (c :: data)
            | _ => outer_next lnext (lg_outer s)
            end.
Proof.
  unfold lnext at 1. replace (length (lg_outer s) + 2) with (S (length (lg_outer s) + 1)) by lia.
  cbn [legacy_next].
  assert (Ho : outer_next (legacy_next (length (lg_outer s) + 1)) (lg_outer s)
               = outer_next lnext (lg_outer s)).
  { apply outer_next_again. intros s' Hs'. unfold lnext.
    apply (legacy_fuel (length (lg_outer s'))); lia. }
  by rewrite Ho.
Qed.

(** Numbers. *)
Lemma is_digit_spec c : is_digit c = true <-> digit c.
Proof. unfold is_digit, digit. apply between_spec. Qed.

Lemma digit_ascii c : digit c -> is_ascii c = true.
Proof. unfold digit, is_ascii. intros H. apply N.ltb_lt. lia. Qed.

Lemma decimal_fold_ge v ds :
  (v <= fold_left (fun v d => v * 10 + (N_of_ascii d - 48)) ds v)%N.
Proof.
  revert v. induction ds as [|d ds IH]; intros v; cbn [fold_left]; [lia|].
  etrans; [|apply IH]. lia.
Qed.

Lemma decimal_loop_digits v n ds :
  Forall digit ds -> (v <= u64_max)%N ->
  decimal_loop v n ds =
  let r := fold_left (fun v d => v * 10 + (N_of_ascii d - 48))%N ds v in
  if N.leb r u64_max then Some (r, n + length ds) else None.
Proof.
  intros Hd. revert v n. induction Hd as [|d ds Hd Hds IH]; intros v n Hv.
  - cbn [decimal_loop fold_left length]. rewrite Nat.add_0_r.
    apply N.leb_le in Hv. cbv zeta. by rewrite Hv.
  - cbn [decimal_loop fold_left length]. apply is_digit_spec in Hd. rewrite Hd.
    unfold digit_value. cbv zeta.
    destruct (N.leb (v * 10 + (N_of_ascii d - 48)) u64_max) eqn:E.
    + apply N.leb_le in E. rewrite IH by done. cbv zeta.
      by replace (S n + length ds) with (n + S (length ds)) by lia.
    + apply N.leb_gt in E.
      pose proof (decimal_fold_ge (v * 10 + (N_of_ascii d - 48)) ds) as Hge.
      destruct (N.leb (fold_left _ ds _) u64_max) eqn:E2; [|done].
      apply N.leb_le in E2. lia.
Qed.

Lemma parse_usize_digits ds :
  Forall digit ds -> ds <> [] ->
  parse_usize ds =
  let r := fold_left (fun v d => v * 10 + (N_of_ascii d - 48))%N ds 0%N in
  if N.leb r u64_max then Some r else None.
Proof.
  intros Hd Hne. unfold parse_usize. destruct ds as [|d ds]; [done|].
  rewrite decimal_loop_digits by (done || (unfold u64_max; lia)). cbv zeta.
  destruct (N.leb _ u64_max); [|done]. by rewrite Nat.eqb_refl.
Qed.

(** Digits before a byte that is not one. *)
Lemma digits_prefix ds c t :
  Forall digit ds -> ~ digit c ->
  find_pos (fun b => negb (is_digit b)) (ds ++ c :: t) = Some (length ds).
Proof.
  intros Hd Hc. apply find_pos_app.
  - eapply Forall_impl; [exact Hd|]. intros b Hb%is_digit_spec. cbn. by rewrite Hb.
  - destruct (is_digit c) eqn:E; [|done]. by apply is_digit_spec in E.
Qed.

Lemma digits_split ds ds' x y c c' t t' :
  Forall digit ds -> Forall digit ds' -> x = c :: t -> ~ digit c -> y = c' :: t' -> ~ digit c' ->
  ds ++ x = ds' ++ y -> ds = ds' /\ x = y.
Proof.
  intros Hd Hd' -> Hc -> Hc' H.
  assert (Hl : Some (length ds) = Some (length ds')).
  { rewrite <- (digits_prefix ds c t), <- (digits_prefix ds' c' t') by done. by rewrite H. }
  injection Hl as Hl. by apply app_inj_1.
Qed.

Lemma part_at_fun s ds p rest ds' p' rest' :
  part_at s ds p rest -> part_at s ds' p' rest' -> ds = ds' /\ p = p' /\ rest = rest'.
Proof.
  intros (-> & (Hne & Hd & Hv) & (c & t & Hc & Hnd) & _)
         (Heq & (Hne' & Hd' & Hv') & (c' & t' & Hc' & Hnd') & _).
  destruct (digits_split ds ds' (p ++ rest) (p' ++ rest') c c' t t') as [-> Hx]; try done.
  rewrite Hv in Hv'. apply Nat2N.inj in Hv'.
  split; [done|]. by apply app_inj_1.
Qed.

Lemma parts_of_fun s ps ps' : parts_of s ps -> parts_of s ps' -> ps = ps'.
Proof.
  intros H. revert ps'. induction H as [s Hno|s ds p rest ps Hp H IH]; intros ps' H'.
  - inversion H' as [|? ds p rest ps1 Hp]; subst; [done|]. by destruct (Hno ds p rest).
  - inversion H' as [? Hno|? ds1 p1 rest1 ps1 Hp1 H1]; subst; [by destruct (Hno ds p rest)|].
    destruct (part_at_fun _ _ _ _ _ _ _ Hp Hp1) as (_ & -> & ->). f_equal. by apply IH.
Qed.

Definition start_part (again : legacy -> stepped legacy) (p rest : str) : stepped legacy :=
  match strip_prefix (lit "_") p with
  | Some inner => again (LegacyState rest (Some inner))
  | None =>
      if has_char "$"%char p then again (LegacyState rest (Some p))
      else SYield (TText p) (LegacyState rest None)
  end.

Lemma outer_next_part again outer ds p rest :
  ascii_text outer -> part_at outer ds p rest ->
  outer_next again outer = start_part again p rest.
Proof.
  intros Ha (-> & (Hne & Hd & Hv) & (c & t & Hc & Hnd) & Hmax). unfold outer_next.
  rewrite Hc. rewrite (digits_prefix ds c t Hd Hnd).
  assert (Hmatch : forall (A : Type) (x y : A), match ds ++ c :: t with [] => x | _ => y end = y).
  { intros A x y. by destruct ds. }
  rewrite Hmatch, <- Hc.
  rewrite ascii_slice_to, ascii_slice_from by (done || (rewrite app_length; lia)).
  rewrite take_app, drop_app.
  rewrite parse_usize_digits by done. cbv zeta. rewrite Hv.
  apply N.leb_le in Hmax. rewrite Hmax.
  assert (Hlt : N.ltb (N.of_nat (length (p ++ rest))) (N.of_nat (length p)) = false).
  { apply N.ltb_ge. rewrite app_length. lia. }
  rewrite Hlt. rewrite Nat2N.id.
  apply ascii_app in Ha as [_ Ha].
  rewrite ascii_slice_to, ascii_slice_from by (done || (rewrite app_length; lia)).
  rewrite take_app, drop_app. done.
Qed.

Lemma find_digits s n :
  find_pos (fun b => negb (is_digit b)) s = Some n ->
  exists ds c t, s = ds ++ c :: t /\ length ds = n /\ Forall digit ds /\ ~ digit c.
Proof.
  intros (ds & c & t & -> & Hl & Hc & Hd)%find_pos_some. exists ds, c, t.
  split; [done|]. split; [done|]. split.
  - eapply Forall_impl; [exact Hd|]. intros b Hb. cbn in Hb. apply is_digit_spec.
    by destruct (is_digit b).
  - intros H%is_digit_spec. by rewrite H in Hc.
Qed.

Lemma outer_next_cases outer :
  ascii_text outer ->
  ((forall ds p rest, ~ part_at outer ds p rest) /\
   forall again, outer_next again outer = SStop (LegacyState outer None)) \/
  exists ds p rest, part_at outer ds p rest.
Proof.
  intros Ha.
  assert (Hdec : (exists ds p rest, part_at outer ds p rest) \/ 
                 forall again, outer_next again outer = SStop (LegacyState outer None)).
  { unfold outer_next. destruct outer as [|c0 outer0] eqn:Eo; [by right|]. rewrite <- Eo in *.
    destruct (find_pos _ outer) as [n|] eqn:Ef; [|by right].
    apply find_digits in Ef as (ds & c & t & Hs & Hl & Hd & Hc). rewrite Hs in *.
    rewrite <- Hl.
    rewrite ascii_slice_to, ascii_slice_from by (done || (rewrite app_length; lia)).
    rewrite take_app, drop_app.
    destruct (decide (ds = [])) as [->|Hne]; [by right|].
    rewrite parse_usize_digits by done. cbv zeta.
    set (r := fold_left _ ds 0%N).
    destruct (N.leb r u64_max) eqn:Em; [|by right].
    destruct (N.ltb _ r) eqn:Elt; [by right|]. left. apply N.ltb_ge in Elt.
    exists ds, (take (N.to_nat r) (c :: t)), (drop (N.to_nat r) (c :: t)).
    assert (Hlen : length (take (N.to_nat r) (c :: t)) = N.to_nat r).
    { rewrite take_length. lia. }
    split; [by rewrite take_drop|]. split.
    - split; [done|]. split; [done|]. rewrite Hlen, N2Nat.id. done.
    - split; [exists c, t; by rewrite take_drop|]. rewrite Hlen, N2Nat.id. by apply N.leb_le. }
  destruct Hdec as [H|H]; [by right|].
  left. split; [|done]. intros ds p rest Hp.
  specialize (H (fun _ => SPanic)). rewrite (outer_next_part _ _ _ _ _ Ha Hp) in H.
  unfold start_part in H. destruct (strip_prefix _ p); [done|].
  by destruct (has_char _ p).
Qed.

Lemma parts_of_total s : ascii_text s -> exists ps, parts_of s ps.
Proof.
  remember (length s) as n eqn:Hn. revert s Hn.
  induction n as [n IH] using lt_wf_ind; intros s -> Ha.
  destruct (outer_next_cases s Ha) as [[Hno _]|(ds & p & rest & Hp)].
  - exists []. by constructor.
  - pose proof Hp as (-> & (Hne & _ & _) & _).
    apply ascii_app in Ha as [_ [_ Ha]%ascii_app].
    destruct (IH (length rest)) with (s := rest) as [ps Hps]; [|done|done|].
    + rewrite !app_length. destruct ds; [done|]. cbn. lia.
    + exists (p :: ps). by econstructor.
Qed.

(** One token of a part with escapes. *)
Lemma strip_dots_spec s : exists ds, s = ds ++ strip_dots s /\ Forall (fun c => c = "."%char) ds.
Proof.
  induction s as [|c s IH]; [by exists []|]. cbn [strip_dots].
  destruct (Ascii.eqb c ".") eqn:E.
  - apply ascii_eqb_spec in E as ->. destruct IH as (ds & Hs & Hd).
    exists ("."%char :: ds). split; [cbn; by f_equal|]. by constructor.
  - by exists [].
Qed.

Lemma strip_dots_no s t : strip_dots s <> "."%char :: t.
Proof.
  induction s as [|c s IH]; [done|]. cbn [strip_dots].
  destruct (Ascii.eqb c ".") eqn:E; [done|]. apply ascii_eqb_false in E. congruence.
Qed.

Lemma strip_dots_id c s : c <> "."%char -> strip_dots (c :: s) = c :: s.
Proof. intros H. cbn [strip_dots]. apply ascii_eqb_false in H. by rewrite H. Qed.

Lemma dollars_app x y : dollars (x ++ y) = dollars x + dollars y.
Proof. unfold dollars. by rewrite filter_app, app_length. Qed.

Lemma dollars_none x : "$"%char ∉ x -> dollars x = 0.
Proof.
  intros H. unfold dollars. replace (filter (fun c => c = "$"%char) x) with (@nil ascii); [done|].
  symmetry. induction x as [|c x IH]; [done|]. apply not_elem_of_cons in H as [H1 H2].
  rewrite filter_cons_False by congruence. by apply IH.
Qed.

Lemma dollars_pos x : "$"%char ∈ x -> 0 < dollars x.
Proof.
  intros H. unfold dollars.
  assert (Hin : "$"%char ∈ filter (fun c => c = "$"%char) x) by by apply elem_of_list_filter.
  destruct (filter _ x); [by apply elem_of_nil in Hin|cbn; lia].
Qed.

Lemma dollars_dots s : dollars (strip_dots s) = dollars s.
Proof.
  destruct (strip_dots_spec s) as (ds & Hs & Hd). rewrite Hs at 2. rewrite dollars_app.
  rewrite (dollars_none ds); [done|]. intros H. rewrite Forall_forall in Hd.
  by specialize (Hd _ H).
Qed.

Definition dot_dollar (b : ascii) : bool := Ascii.eqb b "."%char || Ascii.eqb b "$"%char.

Lemma dot_dollar_false b : dot_dollar b = false <-> b <> "."%char /\ b <> "$"%char.
Proof. unfold dot_dollar. rewrite orb_false_iff, !ascii_eqb_false. done. Qed.

Lemma no_dot_dollar w :
  Forall (fun b => dot_dollar b = false) w <-> "."%char ∉ w /\ "$"%char ∉ w.
Proof.
  induction w as [|a w IH].
  - split; [|constructor]. intros _. split; apply not_elem_of_nil.
  - rewrite Forall_cons, IH, dot_dollar_false, !not_elem_of_cons. intuition congruence.
Qed.

Lemma inner_escape outer data esc rest :
  ascii_text data -> strip_dots data = "$"%char :: esc ++ "$"%char :: rest -> "$"%char ∉ esc ->
  inner_next outer data =
  SYield (match symbol esc with Some ch => TChar ch | None => TEscape esc end)
    (LegacyState outer (Some rest)).
Proof.
  intros Ha Hd Hesc. unfold inner_next. rewrite Hd.
  assert (Ha' : ascii_text (esc ++ "$"%char :: rest)).
  { destruct (strip_dots_spec data) as (ds & Hs & _). rewrite Hs, Hd in Ha.
    apply ascii_app in Ha as [_ Ha]. by apply ascii_cons in Ha as [_ ?]. }
  change (strip_prefix (lit "$") ("$"%char :: esc ++ "$"%char :: rest))
    with (Some (esc ++ "$"%char :: rest)). cbv iota beta.
  rewrite find_pos_app.
  - rewrite ascii_slice_from, ascii_slice_to by (done || (rewrite app_length; cbn; lia)).
    rewrite take_app. replace (length esc + 1) with (S (length esc)) by lia.
    by rewrite (cons_middle "$"%char esc rest), app_assoc, drop_app_alt
      by (rewrite app_length; cbn; lia).
  - rewrite Forall_forall. intros b Hb. apply Ascii.eqb_neq. intros <-. done.
  - done.
Qed.

Lemma inner_text outer data w r :
  ascii_text data -> strip_dots data = w ++ r -> w <> [] -> "."%char ∉ w -> "$"%char ∉ w ->
  (r = [] \/ exists b t, r = b :: t /\ dot_dollar b = true) ->
  inner_next outer data = SYield (TText w) (LegacyState outer (Some r)).
Proof.
  intros Ha Hd Hne H1 H2 Hr. unfold inner_next. rewrite Hd.
  assert (Ha' : ascii_text (w ++ r)).
  { destruct (strip_dots_spec data) as (ds & Hs & _). rewrite Hs, Hd in Ha.
    by apply ascii_app in Ha as [_ Ha]. }
  assert (Hp : strip_prefix (lit "$") (w ++ r) = None).
  { destruct w as [|c w]; [done|]. apply not_elem_of_cons in H2 as [Hc _].
    destruct (strip_prefix (lit "$") ((c :: w) ++ r)) as [x|] eqn:E; [|done].
    apply strip_prefix_spec in E. cbn in E. injection E as E _. congruence. }
  rewrite Hp.
  assert (Hf : match find_pos dot_dollar (w ++ r) with Some e => e | None => length (w ++ r) end
               = length w).
  { destruct Hr as [->|(b & t & -> & Hb)].
    - rewrite app_nil_r. assert (Hn : find_pos dot_dollar w = None)
        by (apply find_pos_none; by apply no_dot_dollar). by rewrite Hn.
    - rewrite find_pos_app; [done|by apply no_dot_dollar|done]. }
  change (fun b : ascii => Ascii.eqb b "."%char || Ascii.eqb b "$"%char) with dot_dollar.
  rewrite Hf. rewrite ascii_slice_from, ascii_slice_to by (done || (rewrite app_length; lia)).
  by rewrite take_app, drop_app.
Qed.

Lemma inner_stuck outer data x :
  ascii_text data -> strip_dots data = "$"%char :: x -> "$"%char ∉ x ->
  inner_next outer data = SYield (TText []) (LegacyState outer (Some ("$"%char :: x))).
Proof.
  intros Ha Hd Hx. unfold inner_next. rewrite Hd.
  change (strip_prefix (lit "$") ("$"%char :: x)) with (Some x). cbv iota beta.
  assert (Hn : find_pos (Ascii.eqb "$"%char) x = None).
  { apply find_pos_none. rewrite Forall_forall. intros b Hb. apply Ascii.eqb_neq. by intros <-. }
  rewrite Hn. done.
Qed.

Lemma inner_dots outer data :
  strip_dots data = [] -> inner_next outer data = SYield (TText []) (LegacyState outer (Some [])).
Proof. intros Hd. unfold inner_next. by rewrite Hd. Qed.

Lemma inner_cases data :
  (strip_dots data = []) \/
  (exists esc rest, strip_dots data = "$"%char :: esc ++ "$"%char :: rest /\ "$"%char ∉ esc) \/
  (exists x, strip_dots data = "$"%char :: x /\ "$"%char ∉ x) \/
  (exists w r, strip_dots data = w ++ r /\ w <> [] /\ "."%char ∉ w /\ "$"%char ∉ w /\
     (r = [] \/ exists b t, r = b :: t /\ dot_dollar b = true)).
Proof.
  destruct (strip_dots data) as [|c d] eqn:E; [by left|]. right.
  destruct (decide (c = "$"%char)) as [->|Hc].
  - destruct (decide ("$"%char ∈ d)) as [Hin|Hno].
    + left. apply elem_of_list_split_l in Hin as (esc & rest & -> & Hesc). eauto.
    + right. left. eauto.
  - right. right. assert (Hdot : c <> "."%char).
    { intros ->. by apply (strip_dots_no data d). }
    destruct (find_pos dot_dollar (c :: d)) as [n|] eqn:Ef.
    + apply find_pos_some in Ef as (w & b & t & Hs & _ & Hb & Hw).
      exists w, (b :: t). split; [done|]. apply no_dot_dollar in Hw as [H1 H2].
      split; [|split; [done|split; [done|right; by exists b, t]]]. intros ->. cbn in Hs. injection Hs as -> _.
      assert (Hcf : dot_dollar b = false) by by apply dot_dollar_false. congruence.
    + apply find_pos_none, no_dot_dollar in Ef as [H1 H2].
      exists (c :: d), []. rewrite app_nil_r. split_and!; try done. by left.
Qed.

(** ** Legacy: termination and its exact condition *)

Definition lsize (s : legacy) : nat :=
  length (lg_outer s) + match lg_inner s with Some d => length d | None => 0 end.

Definition lascii (s : legacy) : Prop :=
  ascii_text (lg_outer s) /\ match lg_inner s with Some d => ascii_text d | None => True end.

Definition inner_text_of (s : legacy) : str := match lg_inner s with Some d => d | None => [] end.

(** All escapes are closed in what remains. *)
Definition lclosed (s : legacy) : Prop :=
  closed_escapes (inner_text_of s) /\
  exists ps, parts_of (lg_outer s) ps /\ Forall closed_escapes ps.
Definition lopen (s : legacy) : Prop :=
  exists ps, parts_of (lg_outer s) ps /\
    (~ closed_escapes (inner_text_of s) \/ exists p, p ∈ ps /\ ~ closed_escapes p).

Lemma closed_dec p : Decision (closed_escapes p).
Proof.
  unfold closed_escapes. destruct (Nat.even (dollars p)) eqn:E.
  - left. by apply Nat.even_spec.
  - right. intros H%Nat.even_spec. congruence.
Qed.

Lemma strip_dots_len s : length (strip_dots s) <= length s.
Proof. destruct (strip_dots_spec s) as (ds & Hs & _). rewrite Hs at 2. rewrite app_length. lia. Qed.

Lemma strip_dots_ascii s : ascii_text s -> ascii_text (strip_dots s).
Proof.
  intros H. destruct (strip_dots_spec s) as (ds & Hs & _). rewrite Hs in H.
  by apply ascii_app in H as [_ ?].
Qed.

(** A step inside a part: closedness is kept; with closed escapes the rest is shorter. *)
Lemma inner_step outer data :
  ascii_text data -> data <> [] ->
  exists t rest, inner_next outer data = SYield t (LegacyState outer (Some rest)) /\
    ascii_text rest /\ (closed_escapes rest <-> closed_escapes data) /\
    (closed_escapes data -> length rest < length data).
Proof.
  intros Ha Hne. pose proof (strip_dots_ascii data Ha) as Ha'.
  pose proof (strip_dots_len data) as Hlen. pose proof (dollars_dots data) as Hdol.
  unfold closed_escapes. rewrite <- Hdol.
  destruct (inner_cases data) as [Hd|[(esc & rest & Hd & Hesc)|[(x & Hd & Hx)|(w & r & Hd & Hw & H1 & H2 & Hr)]]].
  - eexists _, _. split; [by apply inner_dots|]. rewrite Hd. split; [constructor|]. split; [done|].
    intros _. destruct data; [done|cbn; lia].
  - eexists _, _. split; [by eapply inner_escape|]. rewrite Hd in *.
    change ("$"%char :: esc ++ "$"%char :: rest) with (["$"%char] ++ esc ++ ["$"%char] ++ rest) in *.
    rewrite !dollars_app, (dollars_none esc Hesc).
    change (dollars ["$"%char]) with 1. split.
    + rewrite !ascii_app in Ha'. tauto.
    + split.
      * replace (1 + (0 + (1 + dollars rest))) with (dollars rest + 2 * 1) by lia.
        by rewrite <- !Nat.even_spec, Nat.even_add_mul_2.
      * intros _. rewrite !app_length in Hlen. cbn in Hlen. lia.
  - eexists _, _. split; [by eapply inner_stuck|]. rewrite Hd in *. split; [done|]. split; [done|].
    change ("$"%char :: x) with (["$"%char] ++ x). rewrite dollars_app, (dollars_none x Hx).
    change (dollars ["$"%char] + 0) with 1. intros Hev%Nat.even_spec. done.
  - eexists _, _. split; [by eapply inner_text|]. rewrite Hd in *. split; [by apply ascii_app in Ha' as [_ ?]|].
    rewrite dollars_app, (dollars_none w H2). split; [done|]. intros _.
    rewrite app_length in Hlen. destruct w; [done|]. cbn in Hlen. lia.
Qed.

Lemma closed_nil : closed_escapes [].
Proof. by exists 0. Qed.

Lemma strip_underscore p :
  match strip_prefix (lit "_") p with Some i => p = "_"%char :: i | None => ~ lit "_" `prefix_of` p end.
Proof.
  destruct (strip_prefix (lit "_") p) eqn:E.
  - by apply strip_prefix_spec in E.
  - apply strip_prefix_None in E. intros H%starts_with_spec. congruence.
Qed.

Lemma closed_underscore i : closed_escapes ("_"%char :: i) <-> closed_escapes i.
Proof.
  unfold closed_escapes. change ("_"%char :: i) with (["_"%char] ++ i). by rewrite dollars_app.
Qed.

Lemma closed_plain p : has_char "$" p = false -> closed_escapes p.
Proof.
  intros H. exists 0. apply dollars_none. intros Hin%has_char_spec. congruence.
Qed.

(** The state after a part has been started. *)
Lemma start_part_spec p rest :
  exists (i : option str), 
    (start_part lnext p rest = lnext (LegacyState rest i) /\ i <> None \/
     start_part lnext p rest = SYield (TText p) (LegacyState rest i) /\ i = None) /\
    length (inner_text_of (LegacyState rest i)) <= length p /\
    (closed_escapes (inner_text_of (LegacyState rest i)) <-> closed_escapes p) /\
    (ascii_text p -> lascii (LegacyState rest i) <-> ascii_text rest).
Proof.
  unfold start_part. pose proof (strip_underscore p) as Hu.
  destruct (strip_prefix (lit "_") p) as [i|].
  - subst p. exists (Some i). split; [by left|]. cbn. split; [lia|].
    split; [by rewrite closed_underscore|]. intros [_ Ha]%ascii_cons. unfold lascii. cbn. tauto.
  - destruct (has_char "$" p) eqn:Hd.
    + exists (Some p). split; [by left|]. cbn. split; [lia|]. split; [done|].
      intros Ha. unfold lascii. cbn. tauto.
    + exists None. split; [by right|]. cbn. split; [lia|]. split.
      * split; intros _; [by apply closed_plain|apply closed_nil].
      * intros _. unfold lascii. cbn. tauto.
Qed.

Lemma part_at_len s ds p rest : part_at s ds p rest -> length p + length rest < length s.
Proof.
  intros (-> & (Hne & _) & _). rewrite !app_length. destruct ds; [done|]. cbn. lia.
Qed.

Lemma part_at_ascii s ds p rest : part_at s ds p rest -> ascii_text s -> ascii_text p /\ ascii_text rest.
Proof. intros (-> & _). rewrite !ascii_app. tauto. Qed.

Lemma lnext_step s :
  lascii s ->
  (lclosed s ->
     (exists s', lnext s = SStop s') \/
     exists t s', lnext s = SYield t s' /\ lascii s' /\ lclosed s' /\ lsize s' < lsize s) /\
  (lopen s -> exists t s', lnext s = SYield t s' /\ lascii s' /\ lopen s').
Proof.
  remember (length (lg_outer s)) as n eqn:Hn. revert s Hn.
  induction n as [n IH] using lt_wf_ind; intros s -> Ha.
  destruct s as [outer inner]. rewrite lnext_eq. cbn [lg_outer lg_inner] in *.
  pose proof Ha as [Hao Hai]. cbn [lg_outer lg_inner] in Hao, Hai.
  destruct inner as [[|c data]|].
  2: { (* inside a part *)
    destruct (inner_step outer (c :: data) Hai) as (t & rest & Hstep & Har & Hcl & Hlen); [done|].
    rewrite Hstep. split.
    - intros [Hc Hps]. right. exists t, (LegacyState outer (Some rest)). split; [done|].
      cbn in Hc. split; [done|]. split; [split; [by apply Hcl|done]|].
      unfold lsize. cbn [lg_outer lg_inner]. specialize (Hlen Hc). lia.
    - intros (ps & Hps & Hor). exists t, (LegacyState outer (Some rest)). split; [done|].
      split; [done|]. exists ps. split; [done|]. cbn in Hor |- *. destruct Hor as [Hc|Hp]; [|by right].
      left. by rewrite Hcl. }
  1, 2: destruct (outer_next_cases outer Hao) as [[Hno Hstop]|(ds & p & rest & Hp)];
    [rewrite Hstop; split;
      [eauto|intros (ps & Hps & Hor); exfalso; inversion Hps as [|? ds p rest ps' Hp]; subst;
        [destruct Hor as [Hc|(p & Hp & _)]; [apply Hc, closed_nil|by apply elem_of_nil in Hp]
        |by destruct (Hno ds p rest)]]|].
  1, 2: rewrite (outer_next_part _ _ _ _ _ Hao Hp);
    pose proof (part_at_len _ _ _ _ Hp) as Hlen; pose proof (part_at_ascii _ _ _ _ Hp Hao) as [Hap Har];
    destruct (start_part_spec p rest) as (i & Hstart & Hil & Hicl & Hia);
    specialize (Hia Hap); pose proof (proj2 Hia Har) as Hsa;
    assert (Hcl : lclosed (LegacyState outer None) -> lclosed (LegacyState rest i))
      by (intros [_ (ps & Hps & Hall)]; inversion Hps as [? Hno|? ds1 p1 rest1 ps1 Hp1 Hps1]; subst;
            [by destruct (Hno ds p rest)|];
          destruct (part_at_fun _ _ _ _ _ _ _ Hp Hp1) as (_ & <- & <-);
          inversion Hall; subst; split; [by apply Hicl|]; by exists ps1);
    assert (Hop : lopen (LegacyState outer None) -> lopen (LegacyState rest i))
      by (intros (ps & Hps & Hor); inversion Hps as [? Hno|? ds1 p1 rest1 ps1 Hp1 Hps1]; subst;
            [by destruct (Hno ds p rest)|];
          destruct (part_at_fun _ _ _ _ _ _ _ Hp Hp1) as (_ & <- & <-);
          exists ps1; split; [done|]; destruct Hor as [Hc|(q & Hq & Hqc)];
            [by destruct Hc; apply closed_nil|];
          apply elem_of_cons in Hq as [->|Hq]; [left; by rewrite Hicl|right; by exists q]);
    assert (Hsz : lsize (LegacyState rest i) < length outer)
      by (unfold lsize; cbn [lg_outer lg_inner]; unfold inner_text_of in Hil; cbn in Hil;
          destruct i; cbn in Hil; lia).
  all: destruct (IH (length rest)) with (s := LegacyState rest i) as [IH1 IH2];
    [lia|done|done|].
  all: destruct Hstart as [[-> _]|[-> ->]].
  all: split; intros H.
  all: try (destruct (IH1 (Hcl H)) as [[s' Hs']|(t & s' & Hs' & H1 & H2 & H3)];
    [left; eauto|right; exists t, s'; split; [done|]; split; [done|]; split; [done|];
     unfold lsize at 2; cbn [lg_outer lg_inner length]; lia]).
  all: try (destruct (IH2 (Hop H)) as (t & s' & Hs' & H1 & H2); exists t, s'; done).
  all: try (right; eexists _, _; split; [done|]; split; [done|]; split; [by apply Hcl|];
    unfold lsize at 2; cbn [lg_outer lg_inner length]; lia).
  all: eexists _, _; split; [done|]; split; [done|]; by apply Hop.
Qed.

Lemma demangle_next_legacy s : demangle_next (DLegacy s) = smap DLegacy (lnext s).
Proof. done. Qed.

Lemma collect_closed s n :
  lascii s -> lclosed s -> lsize s < n ->
  exists ts, collect demangle_next n (DLegacy s) = Finished ts /\ length ts <= lsize s.
Proof.
  revert s. induction n as [|n IH]; intros s Ha Hc Hn; [lia|].
  cbn [collect]. rewrite demangle_next_legacy.
  destruct (proj1 (lnext_step s Ha) Hc) as [[s' ->]|(t & s' & -> & Ha' & Hc' & Hlt)]; cbn [smap].
  - exists []. split; [done|]. cbn. lia.
  - destruct (IH s' Ha' Hc') as (ts & -> & Hl); [lia|]. exists (t :: ts). split; [done|]. cbn. lia.
Qed.

Lemma collect_open s n : lascii s -> lopen s -> collect demangle_next n (DLegacy s) = Unfinished.
Proof.
  revert s. induction n as [|n IH]; intros s Ha Ho; [done|].
  cbn [collect]. rewrite demangle_next_legacy.
  destruct (proj2 (lnext_step s Ha) Ho) as (t & s' & -> & Ha' & Ho'). cbn [smap].
  by rewrite (IH s').
Qed.

(** No panic on ASCII. *)
Lemma lnext_safe s : lascii s -> safe_step lascii (lnext s).
Proof.
  intros Ha. destruct (parts_of_total (lg_outer s)) as [ps Hps]; [apply Ha|].
  assert (Hdec : lclosed s \/ lopen s).
  { destruct (closed_dec (inner_text_of s)) as [Hi|Hi]; [|right; exists ps; tauto].
    assert (Hd : Forall closed_escapes ps \/ exists p, p ∈ ps /\ ~ closed_escapes p).
    { clear Hps. induction ps as [|p ps IHps]; [left; constructor|].
      destruct (closed_dec p) as [Hp|Hp].
      - destruct IHps as [H|(q & Hq & Hqc)]; [left; by constructor|]. right. exists q.
        split; [by right|done].
      - right. exists p. split; [left|done]. }
    destruct Hd as [Hd|Hd]; [left; split; eauto|right; exists ps; tauto]. }
  destruct Hdec as [Hc|Ho].
  - destruct (proj1 (lnext_step s Ha) Hc) as [[s' ->]|(t & s' & -> & Ha' & _)]; done.
  - destruct (proj2 (lnext_step s Ha) Ho) as (t & s' & -> & Ha' & _). done.
Qed.

Definition dascii (d : demangler) : Prop :=
  match d with DV0 r => ascii_text r | DLegacy s => lascii s | DEmpty => True end.

Lemma demangle_next_safe d : dascii d -> safe_step dascii (demangle_next d).
Proof.
  destruct d as [r|s|]; cbn [dascii]; intros H.
  - cbn [demangle_next]. pose proof (v0_next_safe (S (length r)) r H) as Hs.
    by destruct (v0_next _ r).
  - rewrite demangle_next_legacy. pose proof (lnext_safe s H) as Hs. by destruct (lnext s).
  - done.
Qed.

Lemma collect_safe {S} (next : S -> stepped S) (P : S -> Prop) n s :
  (forall x, P x -> safe_step P (next x)) -> P s -> collect next n s <> Panicked.
Proof.
  intros Hn. revert s. induction n as [|n IH]; intros s Hs; [done|]. cbn [collect].
  pose proof (Hn s Hs) as H. destruct (next s) as [t s'| | |]; try done. cbn in H.
  specialize (IH s' H). by destruct (collect next n s').
Qed.

Lemma strip_ascii p s r : strip_prefix p s = Some r -> ascii_text s -> ascii_text r.
Proof. intros ->%strip_prefix_spec. rewrite ascii_app. tauto. Qed.

Lemma strip_suffix_spec c s p : strip_suffix_char c s = Some p <-> s = p ++ [c].
Proof.
  unfold strip_suffix_char. destruct (last s) as [d|] eqn:E.
  - apply last_Some in E as (q & ->).
    replace (removelast (q ++ [d])) with q by (symmetry; apply removelast_last).
    destruct (Ascii.eqb d c) eqn:Ec.
    + apply ascii_eqb_spec in Ec as ->. split; [by intros [= ->]|].
      intros H. by apply app_inj_tail in H as [-> _].
    + apply ascii_eqb_false in Ec. split; [done|]. intros H.
      apply app_inj_tail in H as [_ ->]. done.
  - apply last_None in E as ->. split; [done|]. intros H. by destruct p.
Qed.

Lemma demangle_new_ascii s : ascii_text s -> dascii (demangle_new s).
Proof.
  intros Ha. unfold demangle_new. destruct (strip_prefix (lit "_R") s) as [r|] eqn:E1.
  { by eapply strip_ascii. }
  destruct (strip_prefix (lit "_ZN") s) as [r|] eqn:E2; [|done].
  destruct (strip_suffix_char "E" r) as [x|] eqn:E3; [|done].
  apply strip_suffix_spec in E3 as ->. apply strip_ascii in E2; [|done].
  apply ascii_app in E2 as [E2 _]. done.
Qed.

Lemma demangle_safe s n : ascii_text s -> collect demangle_next n (demangle_new s) <> Panicked.
Proof.
  intros Ha. apply collect_safe with (P := dascii); [apply demangle_next_safe|].
  by apply demangle_new_ascii.
Qed.

Lemma demangle_new_v0 s : demangle_new (lit "_R" ++ s) = DV0 s.
Proof. unfold demangle_new. by rewrite strip_prefix_app. Qed.

Lemma demangle_new_legacy s : demangle_new (lit "_ZN" ++ s ++ lit "E") = DLegacy (LegacyState s None).
Proof.
  unfold demangle_new. rewrite strip_prefix_app.
  destruct (strip_prefix (lit "_R") (lit "_ZN" ++ s ++ lit "E")) eqn:E; [done|].
  change (lit "E") with ["E"%char].
  assert (H : strip_suffix_char "E" (s ++ ["E"%char]) = Some s) by by apply strip_suffix_spec.
  by rewrite H.
Qed.

(** ** Legacy: the tokens of a mangled path *)

Lemma produces_yield {S} (next : S -> stepped S) s t s' ts :
  next s = SYield t s' -> produces next s' ts -> produces next s (t :: ts).
Proof. intros H [n Hn]. exists (Datatypes.S n). cbn [collect]. by rewrite H, Hn. Qed.

Lemma produces_stop {S} (next : S -> stepped S) s s' : next s = SStop s' -> produces next s [].
Proof. intros H. exists 1. cbn [collect]. by rewrite H. Qed.

Lemma produces_same {S} (next : S -> stepped S) s s' ts :
  next s = next s' -> produces next s' ts -> produces next s ts.
Proof. intros H [[|n] Hn]; [done|]. exists (Datatypes.S n). cbn [collect] in *. by rewrite H. Qed.

Lemma collect_more {S} (next : S -> stepped S) n m s ts :
  collect next n s = Finished ts -> n <= m -> collect next m s = Finished ts.
Proof.
  revert m s ts. induction n as [|n IH]; intros m s ts H Hm; [done|].
  destruct m as [|m]; [lia|]. cbn [collect] in *. destruct (next s) as [t s'|s'| |]; try done.
  destruct (collect next n s') as [ts'| |] eqn:E; try done. rewrite (IH m s' ts' E) by lia. done.
Qed.

Lemma produces_fun {S} (next : S -> stepped S) s ts ts' :
  produces next s ts -> produces next s ts' -> ts = ts'.
Proof.
  intros [n Hn] [m Hm]. apply collect_more with (m := n `max` m) in Hn; [|lia].
  apply collect_more with (m := n `max` m) in Hm; [|lia]. congruence.
Qed.

Lemma hex_digit_value c v : hex_digit c v -> hex_value c = Some v /\ (v < 16)%N /\ is_ascii c = true /\ c <> "$"%char /\ c <> "+"%char.
Proof.
  unfold hex_digit, hex_value, is_digit, digit. intros [[H ->]|[H ->]].
  - assert (E : between 48 57 c = true) by (apply between_spec; lia). rewrite E.
    split; [done|]. split; [lia|]. split; [by apply digit_ascii|].
    split; intros ->; revert H; vm_compute; intuition congruence.
  - assert (E : between 48 57 c = false).
    { destruct (between 48 57 c) eqn:Eb; [|done]. apply between_spec in Eb. lia. }
    rewrite E. assert (E2 : between 97 102 c = true) by (apply between_spec; lia). rewrite E2.
    split; [done|]. split; [lia|]. split; [unfold is_ascii; apply N.ltb_lt; lia|].
    split; intros ->; revert H; vm_compute; intuition congruence.
Qed.

Lemma hex_loop_app v ds c :
  hex_loop v (ds ++ [c]) = match hex_loop v ds with Some w => hex_loop w [c] | None => None end.
Proof.
  revert v. induction ds as [|d ds IH]; intros v; [done|]. cbn [app hex_loop].
  destruct (hex_value d) as [x|]; [|done]. cbv zeta. destruct (N.leb _ _); [apply IH|done].
Qed.

Lemma hexadecimal_loop n ds :
  hexadecimal n ds -> (n <= u32_max)%N ->
  hex_loop 0 ds = Some n /\ ascii_text ds /\ "$"%char ∉ ds /\ exists c t, ds = c :: t /\ c <> "+"%char.
Proof.
  induction 1 as [c v Hc|n ds c v Hn IH Hc]; intros Hmax.
  - apply hex_digit_value in Hc as (H1 & H2 & H3 & H4 & H5). cbn [hex_loop]. rewrite H1. cbv zeta.
    rewrite N.mul_0_l, N.add_0_l. assert (E : N.leb v u32_max = true) by by apply N.leb_le. rewrite E.
    split; [done|]. split; [by repeat constructor|]. split; [|eauto].
    rewrite elem_of_list_singleton. congruence.
  - apply hex_digit_value in Hc as (H1 & H2 & H3 & H4 & H5).
    destruct IH as (I1 & I2 & I3 & d & t & -> & I5); [lia|].
    split; [|split; [|split]].
    + rewrite hex_loop_app, I1. cbn [hex_loop]. rewrite H1. cbv zeta.
      replace (n * 16 + v)%N with (16 * n + v)%N by lia.
      assert (E : N.leb (16 * n + v) u32_max = true) by by apply N.leb_le. by rewrite E.
    + apply ascii_app. split; [done|by repeat constructor].
    + rewrite elem_of_app, elem_of_list_singleton. intros [?|?]; [done|congruence].
    + exists d, (t ++ [c]). done.
Qed.

Lemma escape_symbol c esc : escape c esc -> symbol esc = Some c /\ ascii_text esc /\ "$"%char ∉ esc.
Proof.
  destruct 1 as [| | | | | | |n ds Hs Hh].
  1-7: split; [done|]; split; [by repeat constructor|];
    rewrite <- has_char_spec; intros H; vm_compute in H; congruence.
  assert (Hmax : (n <= u32_max)%N) by (unfold scalar in Hs; unfold u32_max; lia).
  destruct (hexadecimal_loop n ds Hh Hmax) as (H1 & H2 & H3 & d & t & Hd & H5).
  split; [|split].
  - unfold symbol. change (lit "u" ++ ds) with ("u"%char :: ds).
    assert (Hneq : forall x y, x <> "u"%char -> str_eqb ("u"%char :: ds) (x :: y) = false).
    { intros x y Hx. destruct (str_eqb _ _) eqn:E; [|done]. apply str_eqb_spec in E. congruence. }
    change (lit "LT") with ("L"%char :: lit "T"). change (lit "GT") with ("G"%char :: lit "T").
    change (lit "LP") with ("L"%char :: lit "P"). change (lit "RP") with ("R"%char :: lit "P").
    change (lit "C") with ("C"%char :: []). change (lit "BP") with ("B"%char :: lit "P").
    change (lit "RF") with ("R"%char :: lit "F").
    rewrite !Hneq by done. change (strip_prefix (lit "u") ("u"%char :: ds)) with (Some ds). cbv iota beta.
    unfold parse_hex. assert (Hp : strip_prefix (lit "+") ds = None).
    { destruct (strip_prefix (lit "+") ds) eqn:E; [|done]. apply strip_prefix_spec in E.
      rewrite Hd in E. cbn in E. injection E as E _. congruence. }
    rewrite Hp. rewrite Hd at 1. rewrite H1. unfold char_from_u32.
    assert (E : (N.leb n 55295 || (N.leb 57344 n && N.leb n 1114111)) = true).
    { unfold scalar in Hs. destruct Hs as [Hs|Hs].
      - apply orb_true_intro. left. apply N.leb_le. lia.
      - apply orb_true_intro. right. apply andb_true_intro. split; apply N.leb_le; lia. }
    by rewrite E.
  - change (lit "u" ++ ds) with ("u"%char :: ds). by apply ascii_cons.
  - change (lit "u" ++ ds) with ("u"%char :: ds). rewrite elem_of_cons. intros [?|?]; done.
Qed.

Lemma pieces_first q ps t :
  pieces_text (q :: ps) t ->
  exists c r, t = c :: r /\ is_ascii c = true /\
    match q with
    | Word w => c <> "."%char /\ c <> "$"%char /\ exists w', w = c :: w'
    | Special _ => c = "$"%char
    | Separator => c = "."%char
    end.
Proof.
  inversion 1 as [|w Hw|w q' ps' t' Hw Hq Ht|c esc ps' t' He Ht|q' ps' t' Ht]; subst.
  - destruct Hw as (Hne & Ha & H1 & H2). destruct t as [|c t]; [done|].
    apply ascii_cons in Ha as [Ha _]. apply not_elem_of_cons in H1 as [H1 _].
    apply not_elem_of_cons in H2 as [H2 _]. exists c, t. eauto 10.
  - destruct Hw as (Hne & Ha & H1 & H2). destruct w as [|c w]; [done|].
    apply ascii_cons in Ha as [Ha _]. apply not_elem_of_cons in H1 as [H1 _].
    apply not_elem_of_cons in H2 as [H2 _]. exists c, (w ++ t'). eauto 10.
  - eexists _, _. done.
  - eexists _, _. done.
Qed.

Lemma pieces_ascii ps t : pieces_text ps t -> ascii_text t.
Proof.
  induction 1 as [|w Hw|w q ps t Hw Hq Ht IH|c esc ps t He Ht IH|q ps t Ht IH].
  - constructor.
  - apply Hw.
  - apply ascii_app. split; [apply Hw|done].
  - apply escape_symbol in He as (_ & He & _). rewrite !ascii_app. split_and!; try done; by repeat constructor.
  - rewrite ascii_app. split; [by repeat constructor|done].
Qed.

Lemma strip_dots_app ds t : Forall (fun c => c = "."%char) ds -> strip_dots (ds ++ t) = strip_dots t.
Proof. induction 1 as [|c ds -> Hds IH]; [done|]. cbn. apply IH. Qed.

Lemma lnext_inner outer data : data <> [] -> lnext (LegacyState outer (Some data)) = inner_next outer data.
Proof. intros H. rewrite lnext_eq. cbn [lg_inner lg_outer]. by destruct data. Qed.

Lemma pieces_produce ps t outer ts :
  pieces_text ps t -> produces lnext (LegacyState outer None) ts ->
  forall ds, Forall (fun c => c = "."%char) ds -> ds = [] \/ ps <> [] ->
  produces lnext (LegacyState outer (Some (ds ++ t))) (concat (map piece_tokens ps) ++ ts).
Proof.
  intros Hp Hts. induction Hp as [|w Hw|w q ps t Hw Hq Ht IH|c esc ps t He Ht IH|q ps t Ht IH]; intros ds Hds Hor.
  - destruct Hor as [->|]; [|done]. cbn.
    eapply produces_same; [|exact Hts]. by rewrite !lnext_eq.
  - cbn. destruct Hw as (Hne & Ha & H1 & H2).
    eapply produces_yield; [|eapply produces_same; [|exact Hts]].
    + rewrite lnext_inner by (by destruct ds, w). eapply inner_text with (r := []); try done.
      * apply ascii_app. split; [|done]. eapply Forall_impl; [exact Hds|]. by intros x ->.
      * rewrite strip_dots_app by done. rewrite app_nil_r. destruct w as [|c w]; [done|].
        apply strip_dots_id. apply not_elem_of_cons in H1 as [H1 _]. congruence.
      * by left.
    + by rewrite !lnext_eq.
  - pose proof (pieces_ascii _ _ Ht) as Hat. destruct Hw as (Hne & Ha & H1 & H2).
    change (concat (map piece_tokens (Word w :: q :: ps)) ++ ts)
      with (TText w :: (concat (map piece_tokens (q :: ps)) ++ ts)).
    eapply produces_yield; [|apply (IH [])].
    + rewrite lnext_inner by (by destruct ds, w). eapply inner_text with (r := t); try done.
      * rewrite !ascii_app. split_and!; try done. eapply Forall_impl; [exact Hds|]. by intros x ->.
      * rewrite strip_dots_app by done. destruct w as [|c w]; [done|].
        apply strip_dots_id. apply not_elem_of_cons in H1 as [H1 _]. congruence.
      * right. apply pieces_first in Ht as (c & r & -> & _ & Hc). exists c, r. split; [done|].
        destruct q as [w'|x|]; [by destruct (Hq w')|by subst|by subst].
    + constructor.
    + by left.
  - apply escape_symbol in He as (Hsym & Hea & Hed).
    change (concat (map piece_tokens (Special c :: ps)) ++ ts)
      with (TChar c :: (concat (map piece_tokens ps) ++ ts)).
    eapply produces_yield; [|apply (IH [])].
    + rewrite lnext_inner by (by destruct ds). rewrite (inner_escape outer _ esc t).
      * by rewrite Hsym.
      * rewrite !ascii_app. split_and!; try done; [|by repeat constructor|by repeat constructor|by eapply pieces_ascii].
        eapply Forall_impl; [exact Hds|]. by intros x ->.
      * by rewrite strip_dots_app by done.
      * done.
    + constructor.
    + by left.
  - change (concat (map piece_tokens (Separator :: q :: ps))) with (concat (map piece_tokens (q :: ps))).
    replace (ds ++ lit "." ++ t) with ((ds ++ lit ".") ++ t) by by rewrite app_assoc.
    apply IH; [|by right]. apply Forall_app. split; [done|by repeat constructor].
Qed.

Lemma letter_first c : letter c \/ c = "_"%char -> ~ digit c.
Proof.
  unfold letter, digit. intros [H| ->]; [lia|]. vm_compute. intuition congruence.
Qed.

Lemma component_ascii c t : component_text c t -> ascii_text t.
Proof.
  destruct 1 as [w Ha|ps t Hp|ps t Hp]; [done|by eapply pieces_ascii|].
  apply ascii_app. split; [by repeat constructor|by eapply pieces_ascii].
Qed.

Lemma component_start c t : component_text c t -> exists a r, t = a :: r /\ ~ digit a.
Proof.
  destruct 1 as [w Ha (a & r & -> & H)|ps t Hp (a & r & -> & H)|ps t Hp].
  - exists a, r. split; [done|by apply letter_first].
  - exists a, r. split; [done|by apply letter_first].
  - exists "_"%char, t. split; [done|]. apply letter_first. by right.
Qed.

Lemma legacy_ascii cs s : legacy_path cs s -> ascii_text s.
Proof.
  induction 1 as [|c cs ds t s Hc (_ & Hd & _) Hm Hp IH]; [constructor|].
  rewrite !ascii_app. split_and!; [|by eapply component_ascii|done].
  eapply Forall_impl; [exact Hd|]. intros x. apply digit_ascii.
Qed.

Lemma legacy_produces cs s :
  legacy_path cs s -> Forall (fun c => ~ leading_underscore c) cs ->
  produces lnext (LegacyState s None) (concat (map component_tokens cs)).
Proof.
  induction 1 as [|c cs ds t s Hc Hdec Hm Hp IH]; intros Hu.
  { eapply produces_stop. by rewrite lnext_eq. }
  apply Forall_cons in Hu as [Hu Hus]. specialize (IH Hus).
  assert (Hpath : legacy_path (c :: cs) (ds ++ t ++ s)) by by constructor.
  apply legacy_ascii in Hpath.
  assert (Hpart : part_at (ds ++ t ++ s) ds t s).
  { split; [done|]. split; [done|]. split; [|done].
    destruct (component_start c t Hc) as (a & r & -> & Ha). exists a, (r ++ s). done. }
  assert (Hnext : lnext (LegacyState (ds ++ t ++ s) None) = start_part lnext t s).
  { rewrite lnext_eq. cbn [lg_inner lg_outer]. by eapply outer_next_part. }
  unfold start_part in Hnext. pose proof (strip_underscore t) as Hst.
  cbn [map concat]. destruct Hc as [w Ha Hs Hd|ps t Hps Hs Hd|ps t Hps Hne Hns].
  - destruct (strip_prefix (lit "_") w) as [i|]; [destruct Hu; subst w; by exists i|].
    destruct (has_char "$" w) eqn:Eh; [by apply has_char_spec in Eh|].
    eapply produces_yield; [exact Hnext|exact IH].
  - assert (Hno : strip_prefix (lit "_") t = None).
    { destruct (strip_prefix (lit "_") t) as [i|]; [|done]. destruct Hu. subst t.
      destruct ps as [|q ps]; [by inversion Hps|].
      apply pieces_first in Hps as (a & r & [= <- <-] & _ & Hq). cbn.
      destruct q as [w|x|]; [|done|done]. destruct Hq as (_ & _ & w' & ->). by exists w'. }
    rewrite Hno in Hnext. apply has_char_spec in Hd. rewrite Hd in Hnext.
    eapply produces_same; [exact Hnext|]. apply (pieces_produce ps t s _ Hps IH []); [constructor|by left].
  - change (strip_prefix (lit "_") (lit "_" ++ t)) with (Some t) in Hnext. cbv iota beta in Hnext.
    eapply produces_same; [exact Hnext|]. apply (pieces_produce ps t s _ Hps IH []); [constructor|by left].
Qed.

Lemma produces_map {S T} (next : S -> stepped S) (next' : T -> stepped T) (f : S -> T) s ts :
  (forall s, next' (f s) = smap f (next s)) -> produces next s ts -> produces next' (f s) ts.
Proof.
  intros Hf [n Hn]. exists n. revert s ts Hn. induction n as [|n IH]; intros s ts Hn; [done|].
  cbn [collect] in *. rewrite Hf. destruct (next s) as [t s'|s'| |]; cbn [smap]; try done.
  destruct (collect next n s') as [ts'| |] eqn:E; try done. by rewrite (IH s' ts').
Qed.

Lemma legacy_path_tokens cs s :
  legacy_path cs s -> Forall (fun c => ~ leading_underscore c) cs ->
  produces demangle_next (demangle_new (lit "_ZN" ++ s ++ lit "E")) (concat (map component_tokens cs)).
Proof.
  intros Hp Hu. rewrite demangle_new_legacy. eapply produces_map; [|by apply legacy_produces].
  intros x. apply demangle_next_legacy.
Qed.

(** ** v0 paths *)

Definition vnext (s : str) : stepped str := v0_next (S (length s)) s.

Lemma v0_fuel n f1 f2 s :
  length s <= n -> n < f1 -> n < f2 -> v0_next f1 s = v0_next f2 s.
Proof.
  revert f1 f2 s. induction n as [n IH] using lt_wf_ind; intros f1 f2 s Hs H1 H2.
  destruct f1 as [|f1]; [lia|]. destruct f2 as [|f2]; [lia|]. cbn [v0_next].
  destruct s as [|tag s0]; [done|]. remember (tag :: s0) as s eqn:Es.
  destruct (slice_from s 1) as [rest|] eqn:E1; [|done].
  rewrite Es in E1. apply slice1 in E1 as ->.
  assert (Hl : length s = S (length s0)) by by rewrite Es.
  assert (Hrec : forall r, length r <= length s0 -> v0_next f1 r = v0_next f2 r).
  { intros r Hr. apply (IH (length r)); lia. }
  destruct (is_tag tag ["C"%char]); [done|].
  destruct (is_tag tag ["N"%char]).
  { destruct s0 as [|nt s1]; [by apply Hrec|]. remember (nt :: s1) as s0 eqn:Es0.
    destruct (is_tag nt ["t"%char; "v"%char]).
    { destruct (slice_from s0 1) as [r|] eqn:E2; [|done]. apply Hrec.
      apply slice_from_len in E2 as [_ E2]. lia. }
    destruct (is_tag nt _); [by apply Hrec|].
    destruct (parse_identifier s0) as [[i r]| | |]; try done. by apply Hrec. }
  destruct (is_tag tag ["v"%char; "t"%char; "m"%char]); [by apply Hrec|].
  destruct (is_tag tag ["M"%char]).
  { pose proof (skip_v0_type_ok s0) as Hk. destruct (skip_v0_type s0) as [r| | |]; try done.
    - apply Hrec. destruct Hk as [_ Hk]. specialize (Hk r eq_refl). lia.
    - by apply Hrec. }
  destruct (is_tag tag ["X"%char]).
  { destruct (parse_disambiguator s0) as [r| | |] eqn:Ed; try done; [|by apply Hrec].
    apply Hrec. by apply parse_disambiguator_len. }
  destruct (is_tag tag ["Y"%char]); [by apply Hrec|].
  destruct (is_tag tag ["B"%char]).
  { destruct (find_pos _ s0) as [pos|]; [|by apply Hrec].
    destruct (slice_from s0 (pos + 1)) as [r|] eqn:E2; [|done]. apply Hrec.
    apply slice_from_len in E2 as [_ E2]. lia. }
  repeat (match goal with |- context[is_tag tag ?l] => destruct (is_tag tag l); [done || by apply Hrec|] end).
  destruct (is_base62_digit tag); [done|by apply Hrec].
Qed.

Lemma vnext_fuel f s : length s < f -> v0_next f s = vnext s.
Proof. intros H. unfold vnext. apply (v0_fuel (length s)); lia. Qed.

Lemma base62_spec c : is_base62_digit c = true <-> base62 c.
Proof.
  unfold is_base62_digit, is_digit, is_upper, is_lower, base62.
  rewrite !orb_true_iff, !between_spec. tauto.
Qed.

Lemma base62_ascii c : base62 c -> is_ascii c = true /\ c <> "_"%char.
Proof.
  unfold base62, is_ascii. intros H. split; [apply N.ltb_lt; lia|].
  intros ->. revert H. vm_compute. intuition congruence.
Qed.

Lemma decimal_loop_prefix v n ds t :
  Forall digit ds -> (match t with c :: _ => ~ digit c | [] => True end) ->
  (fold_left (fun v d => v * 10 + (N_of_ascii d - 48)) ds v <= u64_max)%N ->
  decimal_loop v n (ds ++ t) =
    Some (fold_left (fun v d => v * 10 + (N_of_ascii d - 48))%N ds v, n + length ds).
Proof.
  intros Hd Ht. revert v n. induction Hd as [|d ds Hd Hds IH]; intros v n Hmax.
  - cbn [app fold_left length]. rewrite Nat.add_0_r. destruct t as [|c t]; [done|]. cbn [decimal_loop].
    destruct (is_digit c) eqn:E; [by apply is_digit_spec in E|done].
  - cbn [app fold_left length decimal_loop] in *. apply is_digit_spec in Hd as Hd'. rewrite Hd'. cbv zeta.
    unfold digit_value.
    assert (Hle : N.leb (v * 10 + (N_of_ascii d - 48)) u64_max = true).
    { apply N.leb_le. etrans; [|exact Hmax]. apply decimal_fold_ge. }
    rewrite Hle, IH by done. f_equal. f_equal. lia.
Qed.

Lemma strip_other a p c s : c <> a -> strip_prefix (a :: p) (c :: s) = None.
Proof.
  intros H. destruct (strip_prefix (a :: p) (c :: s)) eqn:E; [|done].
  apply strip_prefix_spec in E. cbn in E. congruence.
Qed.

Lemma digit_not c x : digit c -> ~ digit x -> c <> x.
Proof. by intros H Hx ->. Qed.

Lemma undisambiguated_spec puny u ds sep w rest :
  u = [] \/ puny = true /\ u = lit "u" ->
  decimal (length w) ds -> (N.of_nat (length w) <= u64_max)%N -> ascii_text w -> ascii_text rest ->
  (no_digit_first w /\ ~ lit "_" `prefix_of` w /\ sep = [] \/
     w <> [] /\ ~ (no_digit_first w /\ ~ lit "_" `prefix_of` w) /\ sep = lit "_") ->
  parse_undisambiguated_identifier (u ++ ds ++ sep ++ w ++ rest) = PSome (w, rest).
Proof.
  intros Hu (Hne & Hd & Hv) Hmax Haw Har Hsep. unfold parse_undisambiguated_identifier.
  assert (Hstrip : match strip_prefix (lit "u") (u ++ ds ++ sep ++ w ++ rest) with
                   | Some r => r | None => u ++ ds ++ sep ++ w ++ rest end = ds ++ sep ++ w ++ rest).
  { destruct Hu as [->|[_ ->]].
    - cbn [app]. destruct ds as [|d ds]; [done|]. cbn [app].
      apply Forall_cons in Hd as [Hd _].
      assert (Hdu : d <> "u"%char).
      { apply digit_not; [done|]. unfold digit. vm_compute. intuition congruence. }
      change (lit "u") with ["u"%char]. by rewrite strip_other.
    - by rewrite strip_prefix_app. }
  rewrite Hstrip. unfold parse_decimal.
  rewrite decimal_loop_prefix; [|done| |by rewrite Hv].
  2: { destruct Hsep as [((c & t & -> & Hc) & _ & ->)|(_ & _ & ->)]; cbn; [done|].
       unfold digit. vm_compute. intuition congruence. }
  rewrite Hv. destruct (Nat.eqb (0 + length ds) 0) eqn:E0.
  { apply Nat.eqb_eq in E0. by destruct ds. }
  assert (Hall : ascii_text (ds ++ sep ++ w ++ rest)).
  { rewrite !ascii_app. split_and!; try done.
    - eapply Forall_impl; [exact Hd|]. intros c. apply digit_ascii.
    - destruct Hsep as [(_ & _ & ->)|(_ & _ & ->)]; by repeat constructor. }
  rewrite ascii_slice_from by (done || (rewrite app_length; cbn; lia)).
  cbn [psliced pbind]. change (0 + length ds) with (length ds). rewrite drop_app.
  assert (Hs2 : match strip_prefix (lit "_") (sep ++ w ++ rest) with
                | Some r => r | None => sep ++ w ++ rest end = w ++ rest).
  { destruct Hsep as [((c & t & -> & Hc) & Hpre & ->)|(_ & _ & ->)].
    - cbn [app]. change (lit "_") with ["_"%char]. rewrite strip_other; [done|]. intros ->. apply Hpre. by exists t.
    - by rewrite strip_prefix_app. }
  rewrite Hs2. assert (Hle : N.leb (N.of_nat (length w)) (N.of_nat (length (w ++ rest))) = true).
  { apply N.leb_le. rewrite app_length. lia. }
  rewrite Hle. cbv zeta. rewrite Nat2N.id.
  rewrite ascii_slice_to, ascii_slice_from by ((rewrite ascii_app; done) || (rewrite app_length; lia)).
  by rewrite take_app, drop_app.
Qed.

Lemma v0_identifier_ascii puny w t : v0_identifier puny w t -> ascii_text t.
Proof.
  destruct 1 as [d u ds sep w Hd Hu (_ & Hds & _) Hm Ha Hsep]. rewrite !ascii_app. split_and!; try done.
  - destruct Hd as [|b Hb]; [constructor|]. rewrite !ascii_app. split_and!; [by repeat constructor| |by repeat constructor].
    eapply Forall_impl; [exact Hb|]. intros c Hc. by apply base62_ascii.
  - destruct Hu as [->|[_ ->]]; by repeat constructor.
  - eapply Forall_impl; [exact Hds|]. intros c. apply digit_ascii.
  - destruct Hsep as [(_ & _ & ->)|(_ & _ & ->)]; by repeat constructor.
Qed.

Lemma v0_identifier_parse puny w t rest :
  v0_identifier puny w t -> ascii_text rest -> parse_identifier (t ++ rest) = PSome (w, rest).
Proof.
  intros Hi Har. pose proof (v0_identifier_ascii _ _ _ Hi) as Hat.
  destruct Hi as [d u ds sep w Hd Hu Hdec Hm Ha Hsep]. unfold parse_identifier.
  assert (Hdis : parse_disambiguator ((d ++ u ++ ds ++ sep ++ w) ++ rest)
                 = PSome (u ++ ds ++ sep ++ w ++ rest)).
  { rewrite <- !app_assoc. unfold parse_disambiguator. destruct Hd as [|b Hb].
    - cbn [app]. destruct Hdec as (Hne & Hds & _).
      assert (Hfirst : exists c r, u ++ ds ++ sep ++ w ++ rest = c :: r /\ c <> "s"%char).
      { destruct Hu as [->|[_ ->]].
        - destruct ds as [|c ds]; [done|]. eexists _, _. split; [done|].
          apply Forall_cons in Hds as [Hc _]. apply digit_not; [done|].
          unfold digit. vm_compute. intuition congruence.
        - eexists _, _. split; [done|]. done. }
      destruct Hfirst as (c & r & -> & Hc). change (lit "s") with ["s"%char]. by rewrite strip_other.
    - rewrite <- !app_assoc. rewrite strip_prefix_app.
      change (lit "_" ++ u ++ ds ++ sep ++ w ++ rest) with ("_"%char :: u ++ ds ++ sep ++ w ++ rest).
      rewrite find_pos_app; [| |done].
      + rewrite ascii_slice_from.
        * cbn [psliced]. rewrite (cons_middle "_"%char b), app_assoc, drop_app_alt; [done|].
          rewrite app_length. cbn. lia.
        * rewrite !ascii_app in Hat. destruct Hat as ((_ & Hb' & _) & H1 & H2 & H3 & H4).
          apply ascii_app. split; [done|]. apply ascii_cons. split; [done|]. rewrite !ascii_app. done.
        * rewrite app_length. cbn. lia.
      + eapply Forall_impl; [exact Hb|]. intros c Hc. apply base62_ascii in Hc as [_ Hc].
        apply Ascii.eqb_neq. congruence. }
  rewrite Hdis. cbn [pbind]. by eapply undisambiguated_spec.
Qed.

Lemma is_tag_spec c l : is_tag c l = true <-> c ∈ l.
Proof.
  unfold is_tag. rewrite existsb_exists. split.
  - intros (x & Hx & ->%ascii_eqb_spec). by apply elem_of_list_In.
  - intros H%elem_of_list_In. exists c. split; [done|]. by apply ascii_eqb_spec.
Qed.

Lemma slice_one c s : ascii_text (c :: s) -> slice_from (c :: s) 1 = Some s.
Proof. intros H. rewrite ascii_slice_from by (done || (cbn; lia)). done. Qed.

(** An identifier that is not marked as Punycode starts with a digit or an [s]. *)
Lemma v0_identifier_first w t :
  v0_identifier false w t -> exists c r, t = c :: r /\ (digit c \/ c = "s"%char).
Proof.
  destruct 1 as [d u ds sep w Hd Hu (Hne & Hds & _) Hm Ha Hsep].
  destruct Hu as [->|[? _]]; [|done]. destruct Hd as [|b Hb].
  - destruct ds as [|c ds]; [done|]. apply Forall_cons in Hds as [Hc _]. cbn. eauto.
  - eexists _, _. split; [done|]. by right.
Qed.

Lemma not_tag c l : Forall (fun x => x <> c) l -> is_tag c l = false.
Proof.
  intros H. destruct (is_tag c l) eqn:E; [|done]. apply is_tag_spec in E.
  rewrite Forall_forall in H. by destruct (H c E).
Qed.

Lemma vnext_identifier w t rest :
  v0_identifier false w t -> ascii_text rest -> vnext (t ++ rest) = SYield (TText w) rest.
Proof.
  intros Hi Har. pose proof (v0_identifier_parse _ _ _ rest Hi Har) as Hp.
  assert (Hat : ascii_text (t ++ rest)) by (apply ascii_app; split; [by eapply v0_identifier_ascii|done]).
  destruct (v0_identifier_first w t Hi) as (c & r & -> & Hc).
  unfold vnext. cbn [v0_next app]. cbn [app] in Hp, Hat. rewrite slice_one by done.
  assert (Hb : is_base62_digit c = true).
  { apply base62_spec. unfold base62. destruct Hc as [Hc| ->]; [by left|]. right; right. vm_compute. by split. }
  assert (Hcn : forall x, ~ digit x -> x <> "s"%char -> x <> c).
  { intros x Hx Hs ->. destruct Hc; done. }
  assert (Htag : forall l, forallb (fun x => negb (is_digit x) && negb (Ascii.eqb x "s"%char)) l = true ->
                 is_tag c l = false).
  { intros l Hl. apply not_tag. rewrite Forall_forall. intros x Hx. rewrite forallb_forall in Hl.
    apply elem_of_list_In in Hx. apply Hl, andb_true_iff in Hx as [H1 H2]. apply Hcn.
    - intros Hd%is_digit_spec. by rewrite Hd in H1.
    - intros ->. done. }
  rewrite !Htag by done. rewrite Hb. unfold yield_identifier. by rewrite Hp.
Qed.

Lemma v0_path_ascii puny ws p : v0_path puny ws p -> ascii_text p.
Proof.
  induction 1 as [w t Hi|ns ws w p t Hns Hp IH Hi].
  - apply ascii_app. split; [by repeat constructor|by eapply v0_identifier_ascii].
  - rewrite !ascii_app. split_and!; [by repeat constructor| |done|by eapply v0_identifier_ascii].
    destruct Hns as [->|[->| ->]]; by repeat constructor.
Qed.

Lemma v0_path_first puny ws p : v0_path puny ws p -> exists r, p = "C"%char :: r \/ p = "N"%char :: r.
Proof. destruct 1; eexists; [left|right]; done. Qed.

Lemma v0_path_produces ws p :
  v0_path false ws p -> forall rest ts, ascii_text rest ->
  produces vnext rest ts -> produces vnext (p ++ rest) (map TText ws ++ ts).
Proof.
  induction 1 as [w t Hi|ns ws w p t Hns Hp IH Hi]; intros rest ts Har Hts.
  - cbn [map app]. eapply produces_yield; [|exact Hts].
    pose proof (v0_identifier_parse _ _ _ rest Hi Har) as Hpar.
    unfold vnext.
    change (lit "C" ++ t) with ("C"%char :: t). cbn [app v0_next length].
    rewrite slice_one.
    + change (is_tag "C" ["C"%char]) with true. cbv iota. unfold yield_identifier. by rewrite Hpar.
    + apply ascii_cons. split; [done|]. apply ascii_app. split; [by eapply v0_identifier_ascii|done].
  - pose proof (v0_path_ascii _ _ _ Hp) as Hap. pose proof (v0_identifier_ascii _ _ _ Hi) as Hat.
    rewrite map_app, <- !app_assoc. cbn [map app].
    assert (Hrest : ascii_text (t ++ rest)) by (rewrite ascii_app; done).
    assert (Hsub : produces vnext (p ++ t ++ rest) (map TText ws ++ TText w :: ts)).
    { apply IH; [done|]. eapply produces_yield; [by apply vnext_identifier|done]. }
    eapply produces_same; [|exact Hsub].
    assert (Hall : ascii_text (p ++ t ++ rest)) by (rewrite ascii_app; done).
    change (lit "N" ++ ns ++ p ++ t ++ rest) with ("N"%char :: ns ++ p ++ t ++ rest).
    unfold vnext at 1. cbn [v0_next].
    assert (Hns' : ascii_text (ns ++ p ++ t ++ rest)).
    { apply ascii_app. split; [|done]. destruct Hns as [->|[->| ->]]; by repeat constructor. }
    rewrite slice_one by (apply ascii_cons; done).
    change (is_tag "N" ["C"%char]) with false. change (is_tag "N" ["N"%char]) with true. cbv iota.
    destruct Hns as [->|[->| ->]].
    + change (lit "t" ++ p ++ t ++ rest) with ("t"%char :: p ++ t ++ rest) in *. cbv iota beta.
      change (is_tag "t" ["t"%char; "v"%char]) with true. cbv iota.
      rewrite slice_one by done. apply vnext_fuel. cbn [length]. lia.
    + change (lit "v" ++ p ++ t ++ rest) with ("v"%char :: p ++ t ++ rest) in *. cbv iota beta.
      change (is_tag "v" ["t"%char; "v"%char]) with true. cbv iota.
      rewrite slice_one by done. apply vnext_fuel. cbn [length]. lia.
    + change (lit "m" ++ p ++ t ++ rest) with ("m"%char :: p ++ t ++ rest) in *. cbv iota beta.
      change (is_tag "m" ["t"%char; "v"%char]) with false.
      change (is_tag "m" ["C"%char; "S"%char]) with false. cbv iota.
      assert (Hpn : parse_identifier ("m"%char :: p ++ t ++ rest) = PNone) by done.
      rewrite Hpn. rewrite vnext_fuel by (cbn [length]; lia).
      unfold vnext at 1. cbn [v0_next]. rewrite slice_one by done.
      change (is_tag "m" ["C"%char]) with false. change (is_tag "m" ["N"%char]) with false.
      change (is_tag "m" ["v"%char; "t"%char; "m"%char]) with true. cbv iota.
      apply vnext_fuel. cbn [length]. lia.
Qed.

Lemma v0_path_tokens ws p :
  v0_path false ws p ->
  produces demangle_next (demangle_new (lit "_R" ++ p)) (map TText ws).
Proof.
  intros Hp. rewrite demangle_new_v0. apply (produces_map vnext demangle_next DV0); [done|].
  rewrite <- (app_nil_r p), <- (app_nil_r (map TText ws)).
  apply v0_path_produces; [done|constructor|]. by apply (produces_stop _ _ []).
Qed.

(** ** Names in debug information *)

Lemma separator_spec c : is_part_separator c = true <-> separator c.
Proof.
  unfold is_part_separator, separator. rewrite is_tag_spec. done.
Qed.

Lemma separator_ascii c : separator c -> is_ascii c = true.
Proof.
  unfold separator. intros H. revert c H. apply Forall_forall. by repeat constructor.
Qed.

Lemma land_mod x k : N.land x (2 ^ k - 1) = (x mod 2 ^ k)%N.
Proof. rewrite <- N.land_ones. f_equal. rewrite N.ones_equiv. lia. Qed.

Lemma low63 c : low_bits c 63 = (N_of_ascii c mod 64)%N.
Proof. exact (land_mod (N_of_ascii c) 6). Qed.
Lemma low31 c : low_bits c 31 = (N_of_ascii c mod 32)%N.
Proof. exact (land_mod (N_of_ascii c) 5). Qed.
Lemma low15 c : low_bits c 15 = (N_of_ascii c mod 16)%N.
Proof. exact (land_mod (N_of_ascii c) 4). Qed.
Lemma low7 c : low_bits c 7 = (N_of_ascii c mod 8)%N.
Proof. exact (land_mod (N_of_ascii c) 3). Qed.

Lemma cont_spec c : is_cont c = true -> (N_of_ascii c mod 64 = N_of_ascii c - 128 /\ 128 <= N_of_ascii c < 192)%N.
Proof.
  intros [H1 H2]%between_spec. split; [|lia]. 
  replace (N_of_ascii c) with (N_of_ascii c - 128 + 2 * 64)%N at 1 by lia.
  rewrite N.mod_add by lia. apply N.mod_small. lia.
Qed.

Lemma second_bounds a b :
  second_ok a b = true ->
  is_cont b = true /\
  (N_of_ascii a = 224 -> 160 <= N_of_ascii b)%N /\ (N_of_ascii a = 237 -> N_of_ascii b < 160)%N /\
  (N_of_ascii a = 240 -> 144 <= N_of_ascii b)%N /\ (N_of_ascii a = 244 -> N_of_ascii b < 144)%N.
Proof.
  intros H. split; [by eapply second_cont|]. unfold second_ok in H.
  destruct (N.eqb_spec (N_of_ascii a) 224); [apply between_spec in H; lia|].
  destruct (N.eqb_spec (N_of_ascii a) 237); [apply between_spec in H; lia|].
  destruct (N.eqb_spec (N_of_ascii a) 240); [apply between_spec in H; lia|].
  destruct (N.eqb_spec (N_of_ascii a) 244); [apply between_spec in H; lia|]. lia.
Qed.

Lemma encode2 x y : (2 <= x < 32 -> y < 64 -> utf8_encode (x * 64 + y) = [192 + x; 128 + y])%N.
Proof.
  intros Hx Hy. unfold utf8_encode.
  destruct (N.ltb_spec (x * 64 + y) 128); [lia|]. destruct (N.ltb_spec (x * 64 + y) 2048); [|lia].
  f_equal; [f_equal|f_equal; f_equal].
  - rewrite N.div_add_l by lia. rewrite N.div_small by lia. lia.
  - rewrite N.add_comm, N.mod_add by lia. by apply N.mod_small.
Qed.

Lemma encode3 x y z :
  (x < 16 -> y < 64 -> z < 64 -> 2048 <= x * 4096 + y * 64 + z ->
   utf8_encode (x * 4096 + y * 64 + z) = [224 + x; 128 + y; 128 + z])%N.
Proof.
  intros Hx Hy Hz Hmin. unfold utf8_encode. set (n := (x * 4096 + y * 64 + z)%N) in *.
  assert (Hn : n = ((x * 64 + y) * 64 + z)%N) by (unfold n; lia).
  assert (H64 : (n / 64 = x * 64 + y)%N).
  { rewrite Hn, N.div_add_l by lia. rewrite (N.div_small z) by lia. lia. }
  destruct (N.ltb_spec n 128); [lia|]. destruct (N.ltb_spec n 2048); [lia|].
  destruct (N.ltb_spec n 65536); [|lia]. rewrite H64.
  assert (H4096 : (n / 4096 = x)%N).
  { change 4096%N with (64 * 64)%N. rewrite <- N.div_div by lia. rewrite H64, N.div_add_l by lia.
    rewrite (N.div_small y) by lia. lia. }
  rewrite H4096. rewrite (N.add_comm (x * 64)), N.mod_add, (N.mod_small y) by lia.
  assert (Hm : (n mod 64 = z)%N) by (rewrite Hn, N.add_comm, N.mod_add by lia; by apply N.mod_small).
  by rewrite Hm.
Qed.

Lemma encode4 x y z w :
  (x < 8 -> y < 64 -> z < 64 -> w < 64 -> 65536 <= x * 262144 + y * 4096 + z * 64 + w ->
   utf8_encode (x * 262144 + y * 4096 + z * 64 + w) = [240 + x; 128 + y; 128 + z; 128 + w])%N.
Proof.
  intros Hx Hy Hz Hw Hmin. unfold utf8_encode. set (n := (x * 262144 + y * 4096 + z * 64 + w)%N) in *.
  assert (Hn : n = (((x * 64 + y) * 64 + z) * 64 + w)%N) by (unfold n; lia).
  assert (H64 : (n / 64 = (x * 64 + y) * 64 + z)%N).
  { rewrite Hn, N.div_add_l by lia. rewrite (N.div_small w) by lia. lia. }
  destruct (N.ltb_spec n 128); [lia|]. destruct (N.ltb_spec n 2048); [lia|].
  destruct (N.ltb_spec n 65536); [lia|].
  assert (H4096 : (n / 4096 = x * 64 + y)%N).
  { change 4096%N with (64 * 64)%N. rewrite <- N.div_div by lia. rewrite H64, N.div_add_l by lia.
    rewrite (N.div_small z) by lia. lia. }
  assert (Hbig : (n / 262144 = x)%N).
  { change 262144%N with (4096 * 64)%N. rewrite <- N.div_div by lia. rewrite H4096, N.div_add_l by lia.
    rewrite (N.div_small y) by lia. lia. }
  rewrite Hbig, H4096, H64.
  rewrite (N.add_comm (x * 64)), N.mod_add, (N.mod_small y) by lia.
  rewrite (N.add_comm ((y + x * 64) * 64)), N.mod_add, (N.mod_small z) by lia.
  assert (Hm : (n mod 64 = w)%N) by (rewrite Hn, N.add_comm, N.mod_add by lia; by apply N.mod_small).
  by rewrite Hm.
Qed.

(** The first character of a valid text. *)
Lemma first_char_spec a s :
  utf8_valid (a :: s) = true -> is_ascii a = false ->
  exists n bs r, a :: s = bs ++ r /\ bs <> [] /\ utf8_valid r = true /\
    first_char (a :: s) = Some (n, length bs) /\ char_bytes n bs /\ (128 <= n)%N.
Proof.
  intros Hv Ha. cbn [utf8_valid] in Hv. unfold first_char. rewrite Ha in *.
  destruct s as [|b s]; [done|].
  destruct (between 194 223 a) eqn:E2.
  { apply andb_true_iff in Hv as [Hb Hv]. apply cont_spec in Hb as [Hb1 Hb2].
    apply between_spec in E2. rewrite low31, low63, Hb1.
    assert (Ha' : (N_of_ascii a mod 32 = N_of_ascii a - 192)%N).
    { replace (N_of_ascii a) with (N_of_ascii a - 192 + 6 * 32)%N at 1 by lia.
      rewrite N.mod_add by lia. apply N.mod_small. lia. }
    rewrite Ha'. eexists _, [a; b], s. split; [done|]. split; [done|]. split; [done|]. split; [done|].
    split; [|lia]. split; [unfold scalar; lia|]. cbn [map]. rewrite encode2 by lia.
    f_equal; [lia|]. f_equal. lia. }
  destruct s as [|c s]; [done|].
  destruct (between 224 239 a) eqn:E3.
  { apply andb_true_iff in Hv as [[Hb Hc]%andb_true_iff Hv]. apply second_bounds in Hb as (Hb & H1 & H2 & _ & _).
    apply cont_spec in Hb as [Hb1 Hb2], Hc as [Hc1 Hc2]. apply between_spec in E3.
    rewrite low15, !low63, Hb1, Hc1.
    assert (Ha' : (N_of_ascii a mod 16 = N_of_ascii a - 224)%N).
    { replace (N_of_ascii a) with (N_of_ascii a - 224 + 14 * 16)%N at 1 by lia.
      rewrite N.mod_add by lia. apply N.mod_small. lia. }
    rewrite Ha'. eexists _, [a; b; c], s. split; [done|]. split; [done|]. split; [done|]. split; [done|].
    split; [|lia]. split; [unfold scalar; lia|]. cbn [map]. rewrite encode3 by lia.
    f_equal; [lia|]. f_equal; [lia|]. f_equal. lia. }
  destruct s as [|d s]; [done|].
  apply andb_true_iff in Hv as [[[[Hv Hb]%andb_true_iff Hc]%andb_true_iff Hd]%andb_true_iff Hs].
  apply second_bounds in Hb as (Hb & _ & _ & H3 & H4).
  apply cont_spec in Hb as [Hb1 Hb2], Hc as [Hc1 Hc2], Hd as [Hd1 Hd2]. apply between_spec in Hv.
  rewrite low7, !low63, Hb1, Hc1, Hd1.
  assert (Ha' : (N_of_ascii a mod 8 = N_of_ascii a - 240)%N).
  { replace (N_of_ascii a) with (N_of_ascii a - 240 + 30 * 8)%N at 1 by lia.
    rewrite N.mod_add by lia. apply N.mod_small. lia. }
  rewrite Ha'. eexists _, [a; b; c; d], s. split; [done|]. split; [done|]. split; [done|]. split; [done|].
  split; [|lia]. split; [unfold scalar; lia|]. cbn [map]. rewrite encode4 by lia.
  f_equal; [lia|]. f_equal; [lia|]. f_equal; [lia|]. f_equal. lia.
Qed.

Lemma strip_colons_spec s :
  exists cs, s = cs ++ strip_colons s /\ Forall (fun c => c = ":"%char) cs /\
    forall t, strip_colons s <> ":"%char :: t.
Proof.
  induction s as [|c s (cs & Hs & Hc & Hn)]; [exists []; done|]. cbn [strip_colons].
  destruct (Ascii.eqb c ":") eqn:E.
  - apply ascii_eqb_spec in E as ->. exists (":"%char :: cs). split; [cbn; by f_equal|].
    split; [by constructor|done].
  - exists []. split; [done|]. split; [constructor|]. apply ascii_eqb_false in E. congruence.
Qed.

Lemma ascii_valid s : ascii_text s -> utf8_valid s = true.
Proof. induction 1 as [|c s Hc Hs IH]; [done|]. cbn [utf8_valid]. by rewrite Hc. Qed.

Lemma debug_colons cs s ts :
  Forall (fun c => c = ":"%char) cs -> debug_tokens s ts -> debug_tokens (cs ++ s) ts.
Proof.
  induction 1 as [|c cs -> Hc IH]; intros Hs; [done|].
  change ((":"%char :: cs) ++ s) with (lit ":" ++ cs ++ s). apply debug_colon. auto.
Qed.

Lemma nonmangled_text data :
  utf8_valid data = true -> exists ts, debug_tokens data ts /\ length ts <= length data /\
    collect nonmangled_next (S (length data)) (NonMangled [] data) = Finished ts.
Proof.
  remember (length data) as n eqn:Hn. revert data Hn.
  induction n as [n IH] using lt_wf_ind; intros data -> Hv.
  destruct (strip_colons_spec data) as (cs & Hs & Hcs & Hno).
  cbn [collect]. unfold nonmangled_next at 1. cbn [nm_namespace nm_data]. cbv zeta.
  remember (strip_colons data) as d eqn:Ed. clear Ed.
  assert (Hvd : utf8_valid d = true).
  { rewrite Hs, utf8_valid_app in Hv; [done|]. apply ascii_valid.
    eapply Forall_impl; [exact Hcs|]. by intros x ->. }
  assert (Hlen : length data = length cs + length d) by (rewrite Hs at 1; apply app_length).
  destruct d as [|a d'].
  { exists []. split; [|split; [cbn; lia|done]]. rewrite Hs. apply debug_colons; [done|constructor]. }
  remember (a :: d') as d eqn:Ed.
  set (f := fun b => negb (is_ascii b) || is_part_separator b).
  assert (Hrest : forall r, utf8_valid r = true -> length r < length d ->
    forall (t : dtoken), (forall ts, debug_tokens r ts -> debug_tokens d (t :: ts)) ->
    exists ts, debug_tokens data ts /\ length ts <= length data /\
    match collect nonmangled_next (length data) (NonMangled [] r) with
    | Finished ts => Finished (t :: ts) | other => other end = Finished ts).
  { intros r Hr Hl t Ht. destruct (IH (length r)) with (data := r) as (ts & H1 & H2 & H3); [lia|done|done|].
    apply collect_more with (m := length data) in H3; [|lia]. rewrite H3.
    exists (t :: ts). split; [|split; [cbn; lia|done]].
    rewrite Hs. apply debug_colons; [done|]. by apply Ht. }
  assert (Hf : exists w r, d = w ++ r /\ match find_pos f d with Some e => e | None => length d end = length w /\
    ascii_text w /\ Forall (fun c => ~ separator c) w /\ ends_text r).
  { destruct (find_pos f d) as [e|] eqn:Ef.
    - apply find_pos_some in Ef as (w & b & t & -> & He & Hb & Hw). exists w, (b :: t).
      split; [done|]. split; [by symmetry|]. unfold f in *. split; [|split].
      + eapply Forall_impl; [exact Hw|]. intros x Hx. cbv beta in Hx. apply orb_false_iff in Hx as [Hx _].
        by apply negb_false_iff in Hx.
      + eapply Forall_impl; [exact Hw|]. intros x Hx. cbv beta in Hx. apply orb_false_iff in Hx as [_ Hx].
        intros Hsep%separator_spec. congruence.
      + cbn. apply orb_true_iff in Hb as [Hb|Hb]; [right; by apply negb_true_iff in Hb|left; by apply separator_spec].
    - apply find_pos_none in Ef. exists d, []. rewrite app_nil_r. split; [done|]. split; [done|].
      unfold f in *. split; [|split; [|done]].
      + eapply Forall_impl; [exact Ef|]. intros x Hx. cbv beta in Hx. apply orb_false_iff in Hx as [Hx _].
        by apply negb_false_iff in Hx.
      + eapply Forall_impl; [exact Ef|]. intros x Hx. cbv beta in Hx. apply orb_false_iff in Hx as [_ Hx].
        intros Hsep%separator_spec. congruence. }
  destruct Hf as (w & r & Hd & He & Haw & Hsw & Hr).
  change (fun b : ascii => negb (is_ascii b) || is_part_separator b) with f. rewrite He.
  replace (match d with [] => SStop (NonMangled [] d) | _ :: _ => if Nat.eqb (length w) 0 then
            match first_char d with
            | Some (ch, n) =>
                match slice_from d n with
                | Some rest => SYield (TChar ch) (NonMangled [] rest)
                | None => SPanic
                end
            | None => SPanic
            end
          else
            match slice_to d (length w), slice_from d (length w) with
            | Some text, Some rest => SYield (TText text) (NonMangled [] rest)
            | _, _ => SPanic
            end end) with (if Nat.eqb (length w) 0 then
            match first_char d with
            | Some (ch, n) =>
                match slice_from d n with
                | Some rest => SYield (TChar ch) (NonMangled [] rest)
                | None => SPanic
                end
            | None => SPanic
            end
          else
            match slice_to d (length w), slice_from d (length w) with
            | Some text, Some rest => SYield (TText text) (NonMangled [] rest)
            | _, _ => SPanic
            end) by by rewrite Ed.
  assert (Hvr : utf8_valid r = true) by (rewrite Hd, utf8_valid_app in Hvd; [done|by apply ascii_valid]).
  destruct w as [|c w].
  - cbn [length Nat.eqb]. cbn [app] in Hd. subst r.
    destruct (is_ascii a) eqn:Ea.
    + assert (Hsep : separator a).
      { rewrite Ed in Hr. cbn in Hr. destruct Hr as [?|?]; [done|congruence]. }
      assert (Hfc : first_char d = Some (N_of_ascii a, 1)) by (rewrite Ed; cbn; by rewrite Ea).
      assert (Hv' : utf8_valid d' = true) by (rewrite Ed in Hvd; cbn in Hvd; by rewrite Ea in Hvd).
      assert (Hsl : slice_from d 1 = Some d').
      { rewrite Ed in *. pose proof (boundary_after [] a d' Ea Hvd) as Hba. cbn [app length] in Hba.
        unfold slice_from. by rewrite Hba. }
      rewrite Hfc, Hsl. apply Hrest; [done|rewrite Ed; cbn; lia|].
      intros ts Hts. rewrite Ed. apply debug_separator; [done| |done].
      intros ->. by apply (Hno d').
    + rewrite Ed in Hvd. destruct (first_char_spec a d' Hvd Ea) as (ch & bs & r & Hr1 & Hne & Hr2 & Hfc & Hcb & Hmin).
      rewrite <- Ed in *. rewrite Hfc.
      assert (Hsl : slice_from d (length bs) = Some r).
      { rewrite Hr1. unfold slice_from.
        assert (Hb : boundary (bs ++ r) (length bs) = true).
        { unfold boundary. destruct (Nat.eqb (length bs) 0) eqn:E0; [done|].
          rewrite lookup_app_r by lia. replace (length bs - length bs) with 0 by lia.
          destruct r as [|x r]; cbn.
          - rewrite app_nil_r. apply Nat.eqb_refl.
          - by rewrite (utf8_first _ _ Hr2). }
        by rewrite Hb, drop_app. }
      rewrite Hsl. apply Hrest; [done| |].
      * rewrite Hr1, app_length. destruct bs; [done|]. cbn. lia.
      * intros ts Hts. rewrite Hr1. by apply debug_multibyte.
  - cbn [length Nat.eqb]. change (S (length w)) with (length (c :: w)).
    assert (Hb : boundary ((c :: w) ++ r) (length (c :: w)) = true).
    { unfold boundary. cbn [length Nat.eqb].
      change (S (length w)) with (length (c :: w)). rewrite lookup_app_r by lia.
      replace (length (c :: w) - length (c :: w)) with 0 by lia.
      destruct r as [|x r]; cbn.
      - rewrite app_nil_r. apply Nat.eqb_refl.
      - by rewrite (utf8_first _ _ Hvr). }
    assert (Hs1 : slice_to d (length (c :: w)) = Some (c :: w)).
    { rewrite Hd. unfold slice_to. by rewrite Hb, take_app. }
    assert (Hs2 : slice_from d (length (c :: w)) = Some r).
    { rewrite Hd. unfold slice_from. by rewrite Hb, drop_app. }
    rewrite Hs1, Hs2.
    apply Hrest; [done|rewrite Hd, app_length; cbn; lia|].
    intros ts Hts. rewrite Hd. by apply debug_text.
Qed.

Lemma nonmangled_tokens ns data :
  utf8_valid data = true -> exists ts, debug_tokens data ts /\ length ts <= length data /\
    forall n, length ns + length data < n ->
    collect nonmangled_next n (NonMangled ns data) = Finished (map TText ns ++ ts).
Proof.
  intros Hv. destruct (nonmangled_text data Hv) as (ts & H1 & H2 & H3).
  exists ts. split; [done|]. split; [done|]. induction ns as [|x ns IH]; intros n Hn.
  - eapply collect_more; [exact H3|]. cbn in Hn. lia.
  - destruct n as [|n]; [cbn in Hn; lia|]. cbn [collect nonmangled_next nm_namespace].
    rewrite IH; [done|]. cbn in Hn. lia.
Qed.

(** ** Statements about symbols *)

Lemma strip_prefix_none_new sym :
  ~ lit "_R" `prefix_of` sym -> ~ (exists s, sym = lit "_ZN" ++ s ++ lit "E") ->
  demangle_new sym = DEmpty.
Proof.
  intros H1 H2. unfold demangle_new. destruct (strip_prefix (lit "_R") sym) as [r|] eqn:E1.
  { apply strip_prefix_spec in E1. destruct H1. by exists r. }
  destruct (strip_prefix (lit "_ZN") sym) as [r|] eqn:E2; [|done].
  destruct (strip_suffix_char "E" r) as [x|] eqn:E3; [|done].
  apply strip_suffix_spec in E3 as ->. apply strip_prefix_spec in E2 as ->. destruct H2. by exists x.
Qed.

Lemma demangle_terminates sym n :
  length sym < n -> ~ (exists s, sym = lit "_ZN" ++ s ++ lit "E") ->
  (exists ts, collect demangle_next n (demangle_new sym) = Finished ts /\ length ts <= length sym) \/
  collect demangle_next n (demangle_new sym) = Panicked.
Proof.
  intros Hn Hz. destruct (decide (lit "_R" `prefix_of` sym)) as [[s ->]|Hr].
  - rewrite demangle_new_v0. rewrite app_length in Hn. cbn in Hn.
    destruct (collect_v0 s n) as [(ts & H1 & H2)|H]; [lia| |by right].
    left. exists ts. split; [done|]. rewrite app_length. lia.
  - rewrite strip_prefix_none_new by done. left. exists []. destruct n as [|n]; [lia|].
    split; [done|]. cbn. lia.
Qed.

Lemma legacy_terminates s ps n :
  ascii_text s -> parts_of s ps -> length s < n ->
  Forall closed_escapes ps ->
  exists ts, collect demangle_next n (demangle_new (lit "_ZN" ++ s ++ lit "E")) = Finished ts /\
    length ts <= length s.
Proof.
  intros Ha Hp Hn Hc. rewrite demangle_new_legacy.
  destruct (collect_closed (LegacyState s None) n) as (ts & H1 & H2).
  - by split.
  - split; [apply closed_nil|eauto].
  - unfold lsize. cbn. lia.
  - exists ts. split; [done|]. unfold lsize in H2. cbn in H2. lia.
Qed.

Lemma legacy_loops s ps p n :
  ascii_text s -> parts_of s ps -> p ∈ ps -> ~ closed_escapes p ->
  collect demangle_next n (demangle_new (lit "_ZN" ++ s ++ lit "E")) = Unfinished.
Proof.
  intros Ha Hp Hin Hc. rewrite demangle_new_legacy. apply collect_open; [by split|].
  exists ps. split; [done|]. right. eauto.
Qed.

Lemma ends_text_split w s w' s' :
  w ++ s = w' ++ s' ->
  ascii_text w -> Forall (fun c => ~ separator c) w -> ends_text s ->
  ascii_text w' -> Forall (fun c => ~ separator c) w' -> ends_text s' -> w = w' /\ s = s'.
Proof.
  revert w'. induction w as [|c w IH]; intros [|c' w'] Heq Ha Hs He Ha' Hs' He'; cbn in Heq.
  - done.
  - subst s. apply Forall_cons in Hs' as [Hs' _]. apply ascii_cons in Ha' as [Ha' _].
    cbn in He. destruct He; [done|congruence].
  - subst s'. apply Forall_cons in Hs as [Hs _]. apply ascii_cons in Ha as [Ha _].
    cbn in He'. destruct He'; [done|congruence].
  - injection Heq as -> Heq. apply Forall_cons in Hs as [_ Hs], Hs' as [_ Hs'].
    apply ascii_cons in Ha as [_ Ha], Ha' as [_ Ha'].
    destruct (IH w' Heq) as [-> ->]; done.
Qed.

Lemma char_bytes_first n bs :
  (128 <= n)%N -> char_bytes n bs -> exists a r, bs = a :: r /\ is_ascii a = false.
Proof.
  intros Hn [_ H]. unfold utf8_encode in H. destruct bs as [|a r].
  { repeat case_match; done. }
  exists a, r. split; [done|]. unfold is_ascii. apply N.ltb_ge.
  destruct (N.ltb_spec n 128); [lia|].
  assert (Hadd : forall x y, (128 <= x -> 128 <= x + y)%N) by lia.
  destruct (N.ltb_spec n 2048); [cbn [map] in H; injection H as -> _; by apply Hadd|].
  destruct (N.ltb_spec n 65536); cbn [map] in H; injection H as -> _; by apply Hadd.
Qed.

Ltac decode :=
  repeat match goal with
  | H : context [N.div ?x ?y] |- _ =>
      lazymatch goal with
      | _ : (x = y * N.div x y + N.modulo x y)%N |- _ => fail
      | _ => pose proof (N.div_mod x y ltac:(lia)); pose proof (N.mod_lt x y ltac:(lia))
      end
  | H : context [N.modulo ?x ?y] |- _ =>
      lazymatch goal with
      | _ : (x = y * N.div x y + N.modulo x y)%N |- _ => fail
      | _ => pose proof (N.div_mod x y ltac:(lia)); pose proof (N.mod_lt x y ltac:(lia))
      end
  end.

Lemma div_4096 n : (n / 4096 = n / 64 / 64)%N.
Proof. rewrite N.div_div by lia. done. Qed.
Lemma div_262144 n : (n / 262144 = n / 64 / 64 / 64)%N.
Proof. rewrite !N.div_div by lia. done. Qed.

Lemma char_bytes_split n bs s n' bs' s' :
  (128 <= n)%N -> (128 <= n')%N -> char_bytes n bs -> char_bytes n' bs' -> bs ++ s = bs' ++ s' ->
  n = n' /\ s = s'.
Proof.
  intros Hn Hn' [Hs H] [Hs' H'] Heq. unfold utf8_encode in H, H'. unfold scalar in *.
  rewrite div_4096, div_262144 in H, H'.
  destruct (N.ltb_spec n 128); [lia|]. destruct (N.ltb_spec n' 128); [lia|].
  destruct (N.ltb_spec n 2048); [|destruct (N.ltb_spec n 65536)];
  (destruct (N.ltb_spec n' 2048); [|destruct (N.ltb_spec n' 65536)]).
  all: repeat (destruct bs as [|? bs]; [try discriminate H|try discriminate H]).
  all: repeat (destruct bs' as [|? bs']; [try discriminate H'|try discriminate H']).
  all: cbn [map app] in *; simplify_eq/=.
  all: decode; repeat match goal with H : _ \/ _ |- _ => clear H end.
  all: first [exfalso; lia|split; [lia|done]].
Qed.

Lemma debug_tokens_fun s ts ts' : debug_tokens s ts -> debug_tokens s ts' -> ts = ts'.
Proof.
  intros H. revert ts'.
  induction H as [|s ts H IH|c s ts Hc Hn H IH|n bs s ts Hn Hb H IH|w s ts Hw Ha Hs He H IH];
    intros ts' H'.
  - inversion H' as [|s2 ts2 H2|c2 s2 ts2 Hc2|n2 bs2 s2 ts2 Hn2 Hb2 H2|w2 s2 ts2 Hw2]; subst; try done.
    + destruct (char_bytes_first n2 bs2 Hn2 Hb2) as (a & r & -> & _). done.
    + by destruct w2.
  - apply IH. inversion H' as [|s2 ts2 H2 Heq|c2 s2 ts2 Hc2 Hn2 H2 Heq|n2 bs2 s2 ts2 Hn2 Hb2 H2 Heq|w2 s2 ts2 Hw2 Ha2 Hs2 He2 H2 Heq]; subst; try done.
    + destruct (char_bytes_first n2 bs2 Hn2 Hb2) as (a & r & -> & Hx). cbn in Heq. injection Heq as -> _. done.
    + destruct w2 as [|x w2]; [done|]. cbn in Heq. injection Heq as -> _.
      apply Forall_cons in Hs2 as [Hs2 _]. destruct Hs2. apply separator_spec. done.
  - inversion H' as [|s2 ts2 H2 Heq|c2 s2 ts2 Hc2 Hn2 H2 Heq|n2 bs2 s2 ts2 Hn2 Hb2 H2 Heq|w2 s2 ts2 Hw2 Ha2 Hs2 He2 H2 Heq]; subst; try done.
    + f_equal. by apply IH.
    + destruct (char_bytes_first n2 bs2 Hn2 Hb2) as (a & r & -> & Hx). cbn in Heq. injection Heq as -> _.
      apply separator_ascii in Hc. congruence.
    + destruct w2 as [|x w2]; [done|]. cbn in Heq. injection Heq as -> _.
      apply Forall_cons in Hs2 as [Hs2 _]. done.
  - destruct (char_bytes_first n bs Hn Hb) as (a & r & Hbs & Hx).
    remember (bs ++ s) as whole eqn:Ew.
    destruct H' as [|s2 ts2 H2|c2 s2 ts2 Hc2 Hn2 H2|n2 bs2 s2 ts2 Hn2 Hb2 H2|w2 s2 ts2 Hw2 Ha2 Hs2 He2 H2].
    + by subst bs.
    + subst bs. cbn in Ew. injection Ew as <- _. done.
    + subst bs. cbn in Ew. injection Ew as -> _. apply separator_ascii in Hc2. congruence.
    + destruct (char_bytes_split n bs s n2 bs2 s2) as [-> ->]; try done. f_equal. by apply IH.
    + subst bs. destruct w2 as [|x w2]; [done|]. cbn in Ew. injection Ew as -> _.
      apply ascii_cons in Ha2 as [Ha2 _]. congruence.
  - remember (w ++ s) as whole eqn:Ew.
    destruct H' as [|s2 ts2 H2|c2 s2 ts2 Hc2 Hn2 H2|n2 bs2 s2 ts2 Hn2 Hb2 H2|w2 s2 ts2 Hw2 Ha2 Hs2 He2 H2].
    + by destruct w.
    + destruct w as [|x w]; [done|]. cbn in Ew. injection Ew as <- _.
      apply Forall_cons in Hs as [Hs _]. destruct Hs. by apply separator_spec.
    + destruct w as [|x w]; [done|]. cbn in Ew. injection Ew as -> _.
      apply Forall_cons in Hs as [Hs _]. done.
    + destruct (char_bytes_first n2 bs2 Hn2 Hb2) as (a & r & -> & Hx).
      destruct w as [|x w]; [done|]. cbn in Ew. injection Ew as -> _.
      apply ascii_cons in Ha as [Ha _]. congruence.
    + destruct (ends_text_split w2 s2 w s) as [-> ->]; try done. f_equal. by apply IH.
Qed.
