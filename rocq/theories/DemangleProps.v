(** Splitting symbols and debug names: C16, C17, C18, C54 to C58. *)
From Verif Require Import Base BaseFacts TextSpec Utf8Proofs TextModel TextFacts DemangleModel DemangleSpec DemangleProofs.

(** ** C16: termination *)

(** Symbols that are not of the legacy form, whatever their bytes: at most as many tokens
    as there are bytes. *)
Theorem C16_terminates :
  forall (sym : str) (n : nat),
  length sym < n -> ~ (exists s, sym = lit "_ZN" ++ s ++ lit "E") ->
  (exists ts, collect demangle_next n (demangle_new sym) = Finished ts /\ length ts <= length sym) \/
  collect demangle_next n (demangle_new sym) = Panicked.
Proof. exact demangle_terminates. Qed.
Print Assumptions C16_terminates.

(** Legacy symbols: exactly those whose parts close every escape. *)
Theorem C16_legacy :
  forall (s : str) (ps : list str),
  ascii_text s -> parts_of s ps ->
  (Forall closed_escapes ps -> forall n, length s < n ->
     exists ts, collect demangle_next n (demangle_new (lit "_ZN" ++ s ++ lit "E")) = Finished ts /\
       length ts <= length s) /\
  (forall p, p ∈ ps -> ~ closed_escapes p -> forall n,
     collect demangle_next n (demangle_new (lit "_ZN" ++ s ++ lit "E")) = Unfinished).
Proof.
  intros s ps Ha Hp. split.
  - intros Hc n Hn. by apply (legacy_terminates s ps n).
  - intros p Hin Hc n. by apply (legacy_loops s ps p n).
Qed.
Print Assumptions C16_legacy.

(** The parts of a text are determined by it. *)
Theorem C16_parts_unique :
  forall s : str, ascii_text s -> exists ps, parts_of s ps /\ forall ps', parts_of s ps' -> ps' = ps.
Proof.
  intros s Ha. destruct (parts_of_total s Ha) as [ps Hp]. exists ps. split; [done|].
  intros ps' Hp'. by eapply parts_of_fun.
Qed.
Print Assumptions C16_parts_unique.

Example C16_ex :
  collect demangle_next 9 (demangle_new (lit "_RNvC1a1b")) = Finished [TText (lit "a"); TText (lit "b")] /\
  parts_of (lit "1a4_$C$") [lit "a"; lit "_$C$"] /\ Forall closed_escapes [lit "a"; lit "_$C$"].
Proof.
  split; [by vm_compute|]. split.
  - eapply (parts_cons _ (lit "1") (lit "a") (lit "4_$C$")).
    { split; [done|]. split; [split; [done|split; [repeat constructor; vm_compute; congruence|done]]|].
      split; [|done]. exists "a"%char, (lit "4_$C$"). split; [done|]. unfold digit. vm_compute. intuition congruence. }
    eapply (parts_cons _ (lit "4") (lit "_$C$") []).
    { split; [done|]. split; [split; [done|split; [repeat constructor; vm_compute; congruence|done]]|].
      split; [|done]. exists "_"%char, (lit "$C$"). split; [done|]. unfold digit. vm_compute. intuition congruence. }
    constructor. intros ds p rest (Heq & (Hne & _) & _). destruct ds; [done|]. discriminate.
  - constructor; [exists 0; by vm_compute|]. constructor; [exists 1; by vm_compute|]. constructor.
Qed.

(** C54: not all legacy symbols; an escape that is not closed yields empty texts forever. *)
Theorem C54_always_terminates_refuted :
  exists sym : str, ascii_text sym /\ is_utf8 sym /\
  forall n, collect demangle_next n (demangle_new sym) = Unfinished.
Proof.
  exists (lit "_ZN4$abcE"). split; [by repeat constructor|]. split; [apply utf8_valid_spec; by vm_compute|]. intros n.
  change (lit "_ZN4$abcE") with (lit "_ZN" ++ lit "4$abc" ++ lit "E").
  eapply (legacy_loops _ [lit "$abc"] (lit "$abc")).
  - by repeat constructor.
  - eapply (parts_cons _ (lit "4") (lit "$abc") []).
    { split; [done|]. split; [split; [done|split; [repeat constructor; vm_compute; congruence|done]]|].
      split; [|done]. exists "$"%char, (lit "abc"). split; [done|]. unfold digit. vm_compute. intuition congruence. }
    constructor. intros ds p rest (Heq & (Hne & _) & _). destruct ds; [done|]. discriminate.
  - left.
  - intros [k Hk]. change (dollars (lit "$abc")) with 1 in Hk. lia.
Qed.
Print Assumptions C54_always_terminates_refuted.

(** ** C17: no panics *)

Theorem C17_ascii_no_panic :
  forall (sym : str) (n : nat), ascii_text sym -> collect demangle_next n (demangle_new sym) <> Panicked.
Proof. intros sym n. apply demangle_safe. Qed.
Print Assumptions C17_ascii_no_panic.

(** Debug names may be any text. *)
Theorem C17_debug_no_panic :
  forall (ns : list str) (data : str) (n : nat), is_utf8 data ->
  collect nonmangled_next n (NonMangled ns data) <> Panicked.
Proof.
  intros ns data n Hv%utf8_valid_spec Hp. destruct (nonmangled_tokens ns data Hv) as (ts & _ & _ & H).
  specialize (H (S (length ns + length data + n)) ltac:(lia)).
  assert (Hmono : forall m k s, collect nonmangled_next m s = Panicked -> m <= k ->
                  collect nonmangled_next k s = Panicked).
  { intros m. induction m as [|m IH]; intros k s Hc Hk; [done|]. destruct k as [|k]; [lia|].
    cbn [collect] in *. destruct (nonmangled_next s) as [t s'| | |]; try done.
    destruct (collect nonmangled_next m s') eqn:E; try done. rewrite (IH k s' E); [done|lia]. }
  rewrite (Hmono _ _ _ Hp) in H; [done|lia].
Qed.
Print Assumptions C17_debug_no_panic.

Example C17_ex : collect demangle_next 20 (demangle_new (lit "_RNvC99a1b")) = Finished [] /\
  collect demangle_next 20 (demangle_new (lit "_ZN99aE")) = Finished [].
Proof. split; by vm_compute. Qed.

(** C55: text outside ASCII can panic, in both forms. *)
Definition e_acute : str := [ascii_of_N 195; ascii_of_N 169].

Theorem C55_no_panic_refuted :
  (exists sym, lit "_R" `prefix_of` sym /\ is_utf8 sym /\
     forall n, 1 <= n -> collect demangle_next n (demangle_new sym) = Panicked) /\
  (exists sym, lit "_ZN" `prefix_of` sym /\ is_utf8 sym /\
     forall n, 1 <= n -> collect demangle_next n (demangle_new sym) = Panicked).
Proof.
  split.
  - exists (lit "_R" ++ e_acute). split; [by exists e_acute|]. split; [apply utf8_valid_spec; by vm_compute|].
    intros [|n] Hn; [lia|]. done.
  - exists (lit "_ZN1" ++ e_acute ++ lit "E"). split; [by eexists|]. split; [apply utf8_valid_spec; by vm_compute|].
    intros [|n] Hn; [lia|]. done.
Qed.
Print Assumptions C55_no_panic_refuted.

(** ** C18: the tokens *)

(** Legacy: escapes are decoded, the components come in order. *)
Theorem C18_legacy :
  forall (cs : list component) (s : str),
  legacy_path cs s -> Forall (fun c => ~ leading_underscore c) cs ->
  demangled (lit "_ZN" ++ s ++ lit "E") (concat (map component_tokens cs)).
Proof. exact legacy_path_tokens. Qed.
Print Assumptions C18_legacy.

(** v0: paths of crates, types, values and macros. *)
Theorem C18_v0 :
  forall (ws : list str) (p : str),
  v0_path false ws p -> demangled (lit "_R" ++ p) (map TText ws).
Proof. exact v0_path_tokens. Qed.
Print Assumptions C18_v0.

(** Debug names: the namespace, then the texts and separators of the name. *)
Theorem C18_debug :
  forall (ns : list str) (data : str), is_utf8 data ->
  exists ts, debug_tokens data ts /\ length ts <= length data /\
    (forall ts', debug_tokens data ts' -> ts' = ts) /\
    forall n, length ns + length data < n ->
    collect nonmangled_next n (NonMangled ns data) = Finished (map TText ns ++ ts).
Proof.
  intros ns data Hv%utf8_valid_spec. destruct (nonmangled_tokens ns data Hv) as (ts & H1 & H2 & H3).
  exists ts. split; [done|]. split; [done|]. split; [|done]. intros ts' H'. by eapply debug_tokens_fun.
Qed.
Print Assumptions C18_debug.

(** There is only one list of tokens for a symbol. *)
Theorem C18_unique :
  forall (sym : str) (ts ts' : list dtoken), demangled sym ts -> demangled sym ts' -> ts = ts'.
Proof. intros sym ts ts'. apply produces_fun. Qed.
Print Assumptions C18_unique.

Ltac digits := split; [done|split; [repeat constructor; vm_compute; congruence|done]].

Example C18_ex_text :
  demangled (lit "_ZN4core3ptr29_$LT$A$u20$as$u20$b..C$GT$_x217h0123456789abcdefE")
    [TText (lit "core"); TText (lit "ptr");
     TChar 60; TText (lit "A"); TChar 32; TText (lit "as"); TChar 32; TText (lit "b"); TText (lit "C"); TChar 62;
     TText (lit "_x2"); TText (lit "h0123456789abcdef")].
Proof. exists 40. by vm_compute. Qed.

Example C18_ex_legacy :
  legacy_path [Ident (lit "core"); Escaped [Special 60; Word (lit "A"); Separator; Separator; Word (lit "b")]]
    (lit "4core9_$LT$A..b") /\
  Forall (fun c => ~ leading_underscore c)
    [Ident (lit "core"); Escaped [Special 60; Word (lit "A"); Separator; Separator; Word (lit "b")]].
Proof.
  split.
  - apply (path_cons _ _ (lit "4") (lit "core") (lit "9_$LT$A..b")).
    + constructor; [by repeat constructor| |].
      * exists "c"%char, (lit "ore"). split; [done|]. left. right. vm_compute. split; congruence.
      * rewrite <- has_char_spec. by vm_compute.
    + digits.
    + done.
    + apply (path_cons _ _ (lit "9") (lit "_$LT$A..b") []).
      * apply (text_escaped_underscore _ (lit "$LT$A..b")).
        -- apply (pieces_special 60 (lit "LT") _ (lit "A..b")); [constructor|].
           assert (Hw : forall c, is_ascii c = true -> c <> "."%char -> c <> "$"%char -> word [c]).
           { intros c H1 H2 H3. split; [done|]. split; [by repeat constructor|].
             rewrite !elem_of_list_singleton. split; congruence. }
           apply (pieces_word (lit "A") Separator _ (lit "..b")); [by apply Hw|done|].
           apply (pieces_separator _ _ (lit ".b")). apply (pieces_separator _ _ (lit "b")).
           apply pieces_last. by apply Hw.
        -- done.
        -- intros (c & t & [= <- _] & [Hl|Hl]); [|done]. revert Hl. unfold letter. vm_compute. intuition congruence.
      * digits.
      * done.
      * constructor.
  - constructor; [intros [x Hx]; done|]. constructor; [by intros []|]. constructor.
Qed.

Lemma letter_identifier (puny : bool) (d u ds : str) (c : ascii) (w : str) :
  disambiguator d -> u = [] \/ puny = true /\ u = lit "u" -> decimal (length (c :: w)) ds ->
  (N.of_nat (length (c :: w)) <= u64_max)%N -> ascii_text (c :: w) -> letter c ->
  v0_identifier puny (c :: w) (d ++ u ++ ds ++ c :: w).
Proof.
  intros Hd Hu Hds Hm Ha Hc. apply (v0_ident puny d u ds [] (c :: w)); try done.
  left. split; [|split; [|done]].
  - exists c, w. split; [done|]. apply letter_first. by left.
  - intros [x Hx]. cbn in Hx. injection Hx as -> _. revert Hc. unfold letter. vm_compute. intuition congruence.
Qed.

Ltac identifier :=
  first [apply no_disambiguator|digits|by left|by right|by repeat constructor
        |left; vm_compute; split; congruence|right; vm_compute; split; congruence].

Example C18_ex_v0 :
  v0_path false [lit "std"; lit "net"; lit "TcpStream"] (lit "NtNtCs1a_3std3net9TcpStream").
Proof.
  apply (v0_nested false (lit "t") [lit "std"; lit "net"] (lit "TcpStream") (lit "NtCs1a_3std3net") (lit "9TcpStream")); [by left| |].
  - apply (v0_nested false (lit "t") [lit "std"] (lit "net") (lit "Cs1a_3std") (lit "3net")); [by left| |].
    + apply (v0_crate false (lit "std") (lit "s1a_3std")).
      apply (letter_identifier false (lit "s1a_") [] (lit "3") "s" (lit "td")); try identifier.
      apply (some_disambiguator (lit "1a")). constructor; [left; vm_compute; split; congruence|].
      constructor; [right; right; vm_compute; split; congruence|]. constructor.
    + apply (letter_identifier false [] [] (lit "3") "n" (lit "et")); try identifier; done.
  - apply (letter_identifier false [] [] (lit "9") "T" (lit "cpStream")); try identifier; done.
Qed.

Example C18_ex_debug :
  collect nonmangled_next 50 (NonMangled [lit "a"] (lit "b::Vec<u8, &x>" ++ e_acute)) =
  Finished (map TText [lit "a"; lit "b"; lit "Vec"] ++ [TChar 60; TText (lit "u8"); TChar 44; TChar 32;
    TChar 38; TText (lit "x"); TChar 62; TChar 233]).
Proof. by vm_compute. Qed.

(** C56: an identifier that starts with an underscore loses it. *)
Theorem C56_underscores_kept_refuted :
  exists (cs : list component) (s : str),
  legacy_path cs s /\ ~ demangled (lit "_ZN" ++ s ++ lit "E") (concat (map component_tokens cs)).
Proof.
  exists [Ident (lit "_foo")], (lit "4_foo"). split.
  - apply (path_cons _ _ (lit "4") (lit "_foo") []); [|digits|done|constructor].
    constructor; [by repeat constructor| |].
    + exists "_"%char, (lit "foo"). split; [done|]. by right.
    + rewrite <- has_char_spec. by vm_compute.
  - intros H.
    assert (H' : demangled (lit "_ZN4_fooE") [TText (lit "foo")]) by (exists 3; by vm_compute).
    pose proof (produces_fun _ _ _ _ H H') as Heq. discriminate.
Qed.
Print Assumptions C56_underscores_kept_refuted.

(** C57: an identifier in Punycode inside a path is preceded by the text "u". *)
Theorem C57_punycode_refuted :
  exists (ws : list str) (p : str), v0_path true ws p /\ ~ demangled (lit "_R" ++ p) (map TText ws).
Proof.
  exists [lit "a"; lit "gdel_5qa"], (lit "NvC1au8gdel_5qa"). split.
  - apply (v0_nested true (lit "v") [lit "a"] (lit "gdel_5qa") (lit "C1a") (lit "u8gdel_5qa")); [right; by left| |].
    + apply (v0_crate true (lit "a") (lit "1a")).
      apply (letter_identifier true [] [] (lit "1") "a" []); try identifier; done.
    + apply (letter_identifier true [] (lit "u") (lit "8") "g" (lit "del_5qa")); try identifier; done.
  - intros H.
    assert (H' : demangled (lit "_RNvC1au8gdel_5qa") (map TText [lit "a"; lit "u"; lit "gdel_5qa"])) by (exists 5; by vm_compute).
    pose proof (produces_fun _ _ _ _ H H') as Heq. discriminate.
Qed.
Print Assumptions C57_punycode_refuted.

(** C58: the mangling of a closure inside an item is [NC], the path of the item, and an
    identifier without text; nothing of the path is found in it. *)
Theorem C58_closure_paths_refuted :
  exists (ws : list str) (p : str),
  v0_path false ws p /\ demangled (lit "_R" ++ p) (map TText ws) /\ ws <> [] /\
  demangled (lit "_RNC" ++ p ++ lit "0") [].
Proof.
  exists [lit "a"; lit "f"], (lit "NvC1a1f").
  assert (Hp : v0_path false [lit "a"; lit "f"] (lit "NvC1a1f")).
  { apply (v0_nested false (lit "v") [lit "a"] (lit "f") (lit "C1a") (lit "1f")); [right; by left| |].
    - apply (v0_crate false (lit "a") (lit "1a")).
      apply (letter_identifier false [] [] (lit "1") "a" []); try identifier; done.
    - apply (letter_identifier false [] [] (lit "1") "f" []); try identifier; done. }
  split; [done|]. split; [by apply v0_path_tokens|]. split; [done|]. exists 2. by vm_compute.
Qed.
Print Assumptions C58_closure_paths_refuted.
