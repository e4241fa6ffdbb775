(** The names in symbols and debug names are read to the end. *)
From Verif Require Import Base TextSpec Utf8Proofs BaseFacts TextModel TextFacts DemangleModel DemangleSpec DemangleProofs NamesModel BuildScriptProofs.
From Verif Require Import CollectModel CollectSpec.

Lemma strip_dots_len (s : str) : length (strip_dots s) <= length s.
Proof. induction s as [|c s IH]; cbn; [done|]. destruct (Ascii.eqb c "."%char); cbn; lia. Qed.

Lemma strip_dots_head (s : str) (c : ascii) (r : str) : strip_dots s = c :: r -> Ascii.eqb c "."%char = false.
Proof.
  induction s as [|d s IH]; cbn; [done|]. destruct (Ascii.eqb d "."%char) eqn:E; [done|]. by intros [= <- _].
Qed.

(** An escape that does not end. *)
Definition stuck (s : legacy) : Prop :=
  exists d, lg_inner s = Some ("$"%char :: d) /\ find_pos (Ascii.eqb "$"%char) d = None.

Lemma inner_less (outer data : str) (t : dtoken) (s : legacy) :
  data <> [] -> inner_next outer data = SYield t s ->
  lg_outer s = outer /\
  ((exists i, lg_inner s = Some i /\ length i < length data) \/ stuck s).
Proof.
  intros Hne. unfold inner_next. pose proof (strip_dots_len data) as Hl.
  destruct (strip_dots data) as [|c r] eqn:Ed.
  { cbn. intros [= <- <-]. split; [done|]. left. exists []. split; [done|]. destruct data; [done|]. cbn. lia. }
  destruct (strip_prefix (lit "$") (c :: r)) as [rest|] eqn:Es.
  - apply strip_prefix_spec in Es. injection Es as -> ->.
    destruct (find_pos (Ascii.eqb "$"%char) rest) as [e|] eqn:Ef.
    + destruct (slice_from rest (e + 1)) as [d|] eqn:E1; [|done].
      destruct (slice_to rest e) as [esc|]; [|done]. intros H. injection H as _ <-. split; [done|].
      apply slice_from_len in E1 as [_ E1]. left. exists d. split; [done|]. cbn in Hl |- *. lia.
    + cbn [find_pos]. cbn. intros H. injection H as _ <-. split; [done|]. right. by exists rest.
  - assert (c <> "$"%char) as Hc.
    { intros ->. revert Es. cbn. destruct r; done. }
    apply strip_dots_head in Ed as Hdot.
    destruct (find_pos (fun b => Ascii.eqb b "."%char || Ascii.eqb b "$"%char) (c :: r)) as [e|] eqn:Ef.
    + destruct e as [|e].
      { cbn in Ef. rewrite Hdot in Ef. destruct (Ascii.eqb c "$"%char) eqn:Ec; [by apply Ascii.eqb_eq in Ec|].
        cbn in Ef. by destruct (find_pos _ r). }
      destruct (slice_to (c :: r) (S e)); [|done]. destruct (slice_from (c :: r) (S e)) as [d|] eqn:E1; [|done].
      intros H. injection H as _ <-. split; [done|]. apply slice_from_len in E1 as [_ E1].
      left. exists d. split; [done|]. cbn in *. lia.
    + destruct (slice_to (c :: r) _); [|done].
      destruct (slice_from (c :: r) (length (c :: r))) as [d|] eqn:E1; [|done].
      intros H. injection H as _ <-. split; [done|]. apply slice_from_len in E1 as [_ E1].
      left. exists d. split; [done|]. cbn in *. lia.
Qed.

Lemma slice_to_len (s : str) (n : nat) (r : str) : slice_to s n = Some r -> r = take n s.
Proof. unfold slice_to. destruct (boundary s n); [|done]. by intros [= <-]. Qed.

Lemma legacy_less (fuel : nat) (s : legacy) (t : dtoken) (s' : legacy) :
  legacy_next fuel s = SYield t s' -> lsize s' < lsize s \/ stuck s'.
Proof.
  revert s. induction fuel as [|fuel IH]; intros [outer inner]; [done|]. cbn [legacy_next lg_inner lg_outer].
  assert (outer_next (legacy_next fuel) outer = SYield t s' -> lsize s' < length outer \/ stuck s') as Ho.
  { unfold outer_next. destruct outer as [|c o]; [done|]. set (outer := c :: o).
    destruct (find_pos (fun b => negb (is_digit b)) outer) as [k|]; [|done].
    destruct (slice_to outer k) as [ds|] eqn:E1; [|done]. destruct (slice_from outer k) as [rest|] eqn:E2; [|done].
    destruct (parse_usize ds) as [len|] eqn:E3; [|done].
    destruct (N.ltb (N.of_nat (length rest)) len); [done|].
    destruct (slice_to rest (N.to_nat len)) as [part|] eqn:E4; [|done].
    destruct (slice_from rest (N.to_nat len)) as [rest'|] eqn:E5; [|done].
    apply slice_to_len in E1, E4. apply slice_from_len in E2 as [_ E2]. apply slice_from_len in E5 as [_ E5].
    assert (length part + length rest' < length outer) as Hlt.
    { assert (length ds <> 0) by (destruct ds; [done|cbn; lia]).
      subst ds part. rewrite take_length in *. lia. }
    assert (forall i, length i <= length part -> legacy_next fuel (LegacyState rest' (Some i)) = SYield t s' ->
              lsize s' < length outer \/ stuck s') as Hi.
    { intros i Hi H. destruct (IH _ H) as [Hl|Hs]; [left|by right]. unfold lsize in Hl at 2. cbn in Hl. lia. }
    destruct (strip_prefix (lit "_") part) as [i|] eqn:E6.
    - apply Hi. apply strip_prefix_spec in E6. rewrite E6, app_length. lia.
    - destruct (has_char "$"%char part); [by apply Hi|].
      intros H. injection H as _ <-. left. unfold lsize. cbn [lg_outer lg_inner]. lia. }
  destruct inner as [[|c data]|].
  - intros H. destruct (Ho H) as [Hl|Hs]; [left|by right]. unfold lsize at 2. cbn. lia.
  - intros H. destruct (inner_less outer (c :: data) t s' ltac:(done) H) as [E [(i & Ei & Hl)|Hs]]; [left|by right].
    unfold lsize. rewrite E, Ei. cbn [lg_outer lg_inner]. lia.
  - intros H. destruct (Ho H) as [Hl|Hs]; [left|by right]. unfold lsize at 2. cbn. lia.
Qed.

Lemma stuck_stays (fuel : nat) (s : legacy) : stuck s -> legacy_next (S fuel) s = SYield (TText []) s.
Proof.
  intros (d & E & Ef). destruct s as [outer inner]. cbn [lg_inner] in E. subst inner.
  cbn [legacy_next lg_inner lg_outer]. unfold inner_next. cbn [strip_dots].
  replace (Ascii.eqb "$"%char "."%char) with false by done. cbn zeta.
  replace (strip_prefix (lit "$") ("$"%char :: d)) with (Some d) by by destruct d. rewrite Ef. done.
Qed.

Lemma stuck_never (n : nat) (s : legacy) (ts : list dtoken) :
  stuck s -> collect demangle_next n (DLegacy s) <> Finished ts.
Proof.
  revert ts. induction n as [|n IH]; intros ts Hs; [done|]. cbn [collect demangle_next].
  rewrite Nat.add_comm. cbn [Nat.add]. rewrite stuck_stays by done. cbn [smap].
  destruct (collect demangle_next n (DLegacy s)) as [ts'| |] eqn:E; try done. by destruct (IH ts' Hs).
Qed.

Lemma legacy_bound (n : nat) (s : legacy) (ts : list dtoken) :
  collect demangle_next n (DLegacy s) = Finished ts -> length ts <= lsize s.
Proof.
  revert s ts. induction n as [|n IH]; intros s ts H; [done|]. cbn [collect demangle_next] in H.
  destruct (legacy_next (length (lg_outer s) + 2) s) as [t s'| | |] eqn:E; cbn [smap] in H; try done.
  - destruct (collect demangle_next n (DLegacy s')) as [ts'| |] eqn:Ec; try done. injection H as <-.
    apply legacy_less in E as [Hl|Hs]; [|by destruct (stuck_never n s' ts' Hs)].
    apply IH in Ec. cbn. lia.
  - injection H as <-. cbn. lia.
Qed.

(** Reading ends exactly after the last token. *)
Lemma collect_exact {S} (next : S -> stepped S) (n : nat) (s : S) (ts : list dtoken) :
  collect next n s = Finished ts -> collect next (Datatypes.S (length ts)) s = Finished ts.
Proof.
  revert s ts. induction n as [|n IH]; intros s ts H; [done|]. cbn [collect] in H |- *.
  destruct (next s) as [t s'| | |]; try done.
  destruct (collect next n s') as [ts'| |] eqn:E; try done. injection H as <-.
  cbn [length]. by rewrite (IH s' ts' E).
Qed.

Lemma demangled_bound (s : str) (ts : list dtoken) : demangled s ts -> length ts <= length s.
Proof.
  intros [n H]. unfold demangle_new in H.
  destruct (strip_prefix (lit "_R") s) as [r|] eqn:E1.
  { apply strip_prefix_spec in E1. subst s. rewrite app_length.
    destruct (collect_v0 r (S (length r + n))) as [(ts' & H1 & H2)|H1]; [lia| |].
    - assert (ts = ts') as ->; [|lia].
      eapply (produces_fun demangle_next (DV0 r)); [by exists n|by exists (S (length r + n))].
    - apply collect_more with (m := S (length r + n)) in H; [|lia]. by rewrite H1 in H. }
  destruct (strip_prefix (lit "_ZN") s) as [r|] eqn:E2.
  2: { destruct n as [|n]; [done|]. cbn in H. injection H as <-. cbn. lia. }
  apply strip_prefix_spec in E2. subst s.
  destruct (strip_suffix_char "E"%char r) as [x|] eqn:E3.
  2: { destruct n as [|n]; [done|]. cbn in H. injection H as <-. cbn. lia. }
  apply legacy_bound in H. unfold lsize in H. cbn [lg_outer lg_inner] in H.
  apply strip_suffix_char_spec in E3. subst r. rewrite !app_length. lia.
Qed.

Lemma symbol_names_spec (s : str) (ns : list (list str)) (u : list str) :
  symbol_names s = Some (ns, u) <-> names_of_symbol s ns u.
Proof.
  unfold symbol_names, names_of_symbol. rewrite <- utf8_valid_spec. destruct (utf8_valid s); [|by split; [|intros [? _]]].
  split.
  - intros H. split; [done|]. unfold read_names in H.
    destruct (collect demangle_next (S (length s)) (demangle_new s)) as [ts| |] eqn:E; try done.
    exists ts. split; [by eexists|].
    destruct (names_of ts) as [ns' u' [e|]|]; try done. by injection H as -> ->.
  - intros (_ & ts & Ht & E). apply demangled_bound in Ht as Hb. destruct Ht as [n Hn].
    apply collect_exact in Hn. apply collect_more with (m := S (length s)) in Hn; [|lia].
    rewrite Hn. cbn [read_names]. by rewrite E.
Qed.

Lemma strip_colons_len (s : str) : length (strip_colons s) <= length s.
Proof. induction s as [|c s IH]; cbn; [done|]. destruct (Ascii.eqb c ":"%char); cbn; lia. Qed.

Lemma first_char_pos (s : str) (ch : N) (n : nat) : first_char s = Some (ch, n) -> 0 < n.
Proof.
  destruct s as [|a s]; cbn; [done|]. destruct (is_ascii a); [intros [= _ <-]; lia|].
  destruct (between 194 223 a); [destruct s; [done|]; intros [= _ <-]; lia|].
  destruct (between 224 239 a); [destruct s as [|? [|? ?]]; try done; intros [= _ <-]; lia|].
  destruct s as [|? [|? [|? ?]]]; try done; intros [= _ <-]; lia.
Qed.

Lemma nonmangled_less (s : nonmangled) (t : dtoken) (s' : nonmangled) :
  nonmangled_next s = SYield t s' ->
  length (nm_namespace s') + length (nm_data s') < length (nm_namespace s) + length (nm_data s).
Proof.
  destruct s as [[|w ns] data]; cbn [nonmangled_next nm_namespace nm_data].
  2: { intros H. injection H as _ <-. cbn. lia. }
  pose proof (strip_colons_len data) as Hl. destruct (strip_colons data) as [|c r]; [done|]. cbv zeta.
  set (e := match find_pos _ (c :: r) with Some e => e | None => _ end).
  destruct (Nat.eqb e 0) eqn:Ee.
  - destruct (first_char (c :: r)) as [[ch n]|] eqn:Ef; [|done]. apply first_char_pos in Ef.
    destruct (slice_from (c :: r) n) as [rest|] eqn:Es; [|done]. intros H. injection H as _ <-.
    apply slice_from_len in Es as [_ Es]. cbn [length nm_namespace nm_data] in *. lia.
  - apply Nat.eqb_neq in Ee. destruct (slice_to (c :: r) e); [|done].
    destruct (slice_from (c :: r) e) as [rest|] eqn:Es; [|done]. intros H. injection H as _ <-.
    apply slice_from_len in Es as [_ Es]. cbn [length nm_namespace nm_data] in *. lia.
Qed.

Lemma nonmangled_bound (n : nat) (s : nonmangled) (ts : list dtoken) :
  collect nonmangled_next n s = Finished ts -> length ts <= length (nm_namespace s) + length (nm_data s).
Proof.
  revert s ts. induction n as [|n IH]; intros s ts H; [done|]. cbn [collect] in H.
  destruct (nonmangled_next s) as [t s'| | |] eqn:E; try done.
  - destruct (collect nonmangled_next n s') as [ts'| |] eqn:Ec; try done. injection H as <-.
    apply nonmangled_less in E. apply IH in Ec. cbn [length]. lia.
  - injection H as <-. cbn. lia.
Qed.

Lemma debug_names_spec (d : debug_name) (ns : list (list str)) (u : list str) :
  debug_names d = Some (ns, u) <-> names_of_debug d ns u.
Proof.
  unfold debug_names, names_of_debug. split.
  - intros H. unfold read_names in H.
    destruct (collect nonmangled_next _ _) as [ts| |] eqn:E; try done.
    exists ts. split; [by eexists|].
    destruct (names_of ts) as [ns' u' [e|]|]; try done. by injection H as -> ->.
  - intros (ts & [n Hn] & E). apply nonmangled_bound in Hn as Hb. cbn [nm_namespace nm_data] in Hb.
    apply collect_exact in Hn.
    apply collect_more with (m := S (length (dn_namespace d) + length (dn_name d))) in Hn; [|lia].
    rewrite Hn. cbn [read_names]. by rewrite E.
Qed.

Lemma no_longer_spec (a b : sym_or_debug) : no_longer a b <-> source_length a <= source_length b.
Proof.
  unfold no_longer, name_length. split.
  - intros H. apply H; by destruct a, b.
  - intros H n m Ha Hb. destruct a, b; subst; done.
Qed.
