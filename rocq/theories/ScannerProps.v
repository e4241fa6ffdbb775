(** C20, C21, C62: looking for [unsafe] and [extern]. *)
From Verif Require Import Base BaseFacts TextSpec Utf8Proofs TextModel TextFacts ScannerModel ScannerSpec ScannerProofs.

(** ** C20: exactly the uses are reported *)

Theorem C20_unsafe :
  forall (lexer : str -> list lexed) (ps : list source_piece),
  well_lexed ps -> lexer (source_text ps) = map lexed_piece ps -> ~ missed_end (lit "unsafe") ps ->
  exists ls, scan_unsafe lexer (source_text ps) = Some ls /\
    forall ls', places unsafe_use [] ps ls' <-> ls' = ls.
Proof.
  intros lexer ps Hw Hl Hm. unfold scan_unsafe, scan_bytes. rewrite valid_pieces, Hl by done.
  destruct (unsafe_scan ps Hw) as (ls & H1 & H2 & _). exists ls. split; [done|]. specialize (H2 Hm).
  intros ls'. split; [intros H; by eapply places_fun|by intros ->].
Qed.
Print Assumptions C20_unsafe.

Theorem C20_extern :
  forall (lexer : str -> list lexed) (ps : list source_piece),
  well_lexed ps -> lexer (source_text ps) = map lexed_piece ps -> ~ missed_end (lit "extern") ps ->
  exists ls, scan_extern lexer (source_text ps) = Some ls /\
    forall ls', places extern_use [] ps ls' <-> ls' = ls.
Proof.
  intros lexer ps Hw Hl Hm. unfold scan_extern, scan_bytes. rewrite valid_pieces, Hl by done.
  destruct (extern_scan ps Hw) as (ls & H1 & H2 & _). exists ls. split; [done|]. specialize (H2 Hm).
  intros ls'. split; [intros H; by eapply places_fun|by intros ->].
Qed.
Print Assumptions C20_extern.

(** Nothing but a use at the very end of a file can be missed. *)
Theorem C20_all_but_the_end :
  forall (lexer : str -> list lexed) (ps : list source_piece),
  well_lexed ps -> lexer (source_text ps) = map lexed_piece ps ->
  (missed_end (lit "unsafe") ps -> exists ls p,
     scan_unsafe lexer (source_text ps) = Some ls /\ places unsafe_use [] ps (ls ++ [p])) /\
  (missed_end (lit "extern") ps -> exists ls p,
     scan_extern lexer (source_text ps) = Some ls /\ places extern_use [] ps (ls ++ [p])).
Proof.
  intros lexer ps Hw Hl. unfold scan_unsafe, scan_extern, scan_bytes. rewrite valid_pieces, Hl by done. split; intros Hm.
  - destruct (unsafe_scan ps Hw) as (ls & H1 & _ & H2). destruct (H2 Hm) as [p Hp]. by exists ls, p.
  - destruct (extern_scan ps Hw) as (ls & H1 & _ & H2). destruct (H2 Hm) as [p Hp]. by exists ls, p.
Qed.
Print Assumptions C20_all_but_the_end.

(** Files that are not text, which the compiler rejects, are not looked at. *)
Theorem C20_not_text :
  forall (lexer : str -> list lexed) (bytes : str), ~ is_utf8 bytes ->
  scan_unsafe lexer bytes = Some [] /\ scan_extern lexer bytes = Some [].
Proof. intros lexer bytes H%utf8_invalid_spec. unfold scan_unsafe, scan_extern, scan_bytes. by rewrite H. Qed.
Print Assumptions C20_not_text.

(** ** C21: positions *)

Theorem C21_positions :
  forall (lexer : str -> list lexed) (ps : list source_piece) (ls : list location) (line col : nat),
  well_lexed ps -> lexer (source_text ps) = map lexed_piece ps ->
  (scan_unsafe lexer (source_text ps) = Some ls -> (line, col) ∈ ls ->
   exists before after, ps = before ++ Token (lit "unsafe") :: after /\
     line = line_after (source_text before) /\ column_after (source_text before) col) /\
  (scan_extern lexer (source_text ps) = Some ls -> (line, col) ∈ ls ->
   exists before after, ps = before ++ Token (lit "extern") :: after /\
     line = line_after (source_text before) /\ column_after (source_text before) col).
Proof.
  intros lexer ps ls line col Hw Hl. unfold scan_unsafe, scan_extern, scan_bytes. rewrite valid_pieces, Hl by done.
  assert (Hpl : forall use (ls' : list location) p, places use [] ps (ls' ++ p) -> (line, col) ∈ ls' ->
    exists before t after, ps = before ++ Token t :: after /\ use t after /\
     line = line_after (source_text before) /\ column_after (source_text before) col).
  { intros use ls' p H Hin. apply (places_in use [] ps _ (line, col) H). apply elem_of_app. by left. }
  split; intros Hs Hin.
  - destruct (unsafe_scan ps Hw) as (ls' & H1 & H2 & H3). rewrite H1 in Hs. injection Hs as ->.
    assert (exists p, places unsafe_use [] ps (ls ++ p)) as [p Hp].
    { destruct (missed_dec (lit "unsafe") None false ps) as [Hm|Hm]; rewrite missed_end_spec in Hm.
      - destruct (H3 Hm) as [q Hq]. by exists [q].
      - exists []. rewrite app_nil_r. by apply H2. }
    destruct (Hpl _ _ _ Hp Hin) as (b & t & a & E & [-> _] & H). by exists b, a.
  - destruct (extern_scan ps Hw) as (ls' & H1 & H2 & H3). rewrite H1 in Hs. injection Hs as ->.
    assert (exists p, places extern_use [] ps (ls ++ p)) as [p Hp].
    { destruct (missed_dec (lit "extern") None false ps) as [Hm|Hm]; rewrite missed_end_spec in Hm.
      - destruct (H3 Hm) as [q Hq]. by exists [q].
      - exists []. rewrite app_nil_r. by apply H2. }
    destruct (Hpl _ _ _ Hp Hin) as (b & t & a & E & [-> _] & H). by exists b, a.
Qed.
Print Assumptions C21_positions.

(** ** An example *)

Definition ex_source : list source_piece :=
  [Token (lit "fn"); Blank (lit " "); Token (lit "f"); Blank [cr; nl]; Blank (lit "/* unsafe */ ");
   Token (lit "unsafe"); Blank (lit " "); Token (lit "{"); Token (lit "}"); Blank [nl];
   Token (lit "unsafe"); Blank (lit "  "); Token (lit "extern"); Token (lit "{")].
Definition ex_lexer (s : str) : list lexed := map lexed_piece ex_source.

Example C20_ex :
  well_lexed ex_source /\ ex_lexer (source_text ex_source) = map lexed_piece ex_source /\
  ~ missed_end (lit "unsafe") ex_source /\ ~ missed_end (lit "extern") ex_source /\
  scan_unsafe ex_lexer (source_text ex_source) = Some [(2, 14)] /\
  scan_extern ex_lexer (source_text ex_source) = Some [(3, 9)].
Proof.
  split; [apply well_lexed_valid; repeat (constructor; [split; [done|by vm_compute]|]); constructor|]. split; [done|].
  assert (Hno : forall w, w <> lit "{" -> ~ missed_end w ex_source).
  { intros w Hw (b & a & n & E & Hn & _). destruct a as [|x a] using rev_ind.
    - unfold ex_source in E. change (?a :: ?b :: ?c :: ?d :: ?e :: ?f :: ?g :: ?h :: ?i :: ?j :: ?k :: ?l :: ?m :: ?o :: [])
        with ([a; b; c; d; e; f; g; h; i; j; k; l; m] ++ [o]) in E. apply app_inj_tail in E as [_ [= <-]]. done.
    - rewrite app_comm_cons, app_assoc in E. unfold ex_source in E.
      change (?a :: ?b :: ?c :: ?d :: ?e :: ?f :: ?g :: ?h :: ?i :: ?j :: ?k :: ?l :: ?m :: ?o :: [])
        with ([a; b; c; d; e; f; g; h; i; j; k; l; m] ++ [o]) in E. apply app_inj_tail in E as [_ <-].
      apply Forall_app in Hn as [_ Hn]. apply Forall_cons in Hn as [[s ?] _]. done. }
  split; [by apply Hno|]. split; [by apply Hno|]. by vm_compute.
Qed.

(** ** C62: the end of the file *)

(** The last token of a file with an even number of tokens is not reported. *)
Theorem C62_last_token_refuted :
  exists (lexer : str -> list lexed) (ps before : list source_piece),
  well_lexed ps /\ lexer (source_text ps) = map lexed_piece ps /\
  ps = before ++ [Token (lit "unsafe")] /\ unsafe_use (lit "unsafe") [] /\
  scan_unsafe lexer (source_text ps) = Some [].
Proof.
  exists (fun _ => [Lexed false 1; Lexed true 1; Lexed false 6]).
  exists [Token (lit "}"); Blank (lit " "); Token (lit "unsafe")], [Token (lit "}"); Blank (lit " ")].
  split; [apply well_lexed_valid; repeat (constructor; [split; [done|by vm_compute]|]); constructor|]. split; [done|]. split; [done|].
  split; [split; [done|intros H; inversion H]|]. by vm_compute.
Qed.
Print Assumptions C62_last_token_refuted.
