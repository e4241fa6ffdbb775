(** Reports of problems, lists of uses, and sources on the screen. *)
From stdpp Require Import pretty sorting.
From Verif Require EditorSpec BuildScriptSpec.
From Verif Require Import Base BaseFacts TextModel ConfigModel SummaryProofs EditorMoreProofs ReportModel
  ReportSpec ReportProofs ReportHeadProofs ReportViewProofs.

(** ** Heads of detailed reports *)

Lemma plain_one_line (s : str) : plain s -> one_line s.
Proof.
  intros H Hn. eapply Forall_forall in H; [|exact Hn]. vm_compute in H. discriminate H.
Qed.

Lemma shown_one_line (s : str) : Forall (fun c => shown_char c = true) s -> one_line s.
Proof.
  intros H Hn. eapply Forall_forall in H; [|exact Hn]. vm_compute in H. discriminate H.
Qed.

Lemma quoted_one_line (s : str) : one_line s -> one_line (quoted s).
Proof.
  intros H. unfold quoted. apply prefix_one_line; [apply (bool_decide_unpack _); vm_compute; exact I|].
  apply prefix_one_line; [done|]. apply (bool_decide_unpack _). vm_compute. exact I.
Qed.

Ltac one_line_tac :=
  repeat match goal with
    | |- one_line (lit _) => apply (bool_decide_unpack _); vm_compute; exact I
    | |- one_line (_ ++ _) => apply prefix_one_line
    | |- one_line (quoted _) => apply quoted_one_line
    | |- one_line (pkg_display _) => apply shown_one_line, sel_shown
    | |- one_line (sel_display _ _) => apply shown_one_line, sel_shown
    | |- one_line _ => apply plain_one_line
    end; try done.

Section heads.
  Context {K : Type} `{EqDecision K} (name_leb : K -> K -> bool) (name_text : K -> str).

  Lemma display_head (p : shown_problem K) (pkg : shown_pkg) (api : str) (us : list (use K)) :
    uses_of p = Some (pkg, api, us) -> plain_problem p ->
    exists head, one_line head /\ starts_with (lit "  ") head = false /\
      lines_of (display name_leb name_text true p) = head :: lines_of (display_uses name_leb name_text us).
  Proof.
    intros Hu Hp. destruct p; try discriminate Hu; cbn [uses_of] in Hu.
    - assert (us0 = us) as -> by congruence. cbn [plain_problem] in Hp. destruct Hp as [Hp1 Hp2].
      exists (lit "'" ++ pkg_display p ++ lit "' uses disallowed API " ++ quoted api0).
      assert (Hone : one_line (lit "'" ++ pkg_display p ++ lit "' uses disallowed API " ++ quoted api0))
        by one_line_tac.
      split; [done|]. split; [done|].
      rewrite <- lines_of_line by done. cbn [display]. by rewrite <- !app_assoc.
    - assert (us0 = us) as -> by congruence. cbn [plain_problem] in Hp. destruct Hp as (Hp1 & Hp2 & Hp3).
      exists (quoted (pkg_display p) ++ lit " uses " ++ quoted api0 ++ lit " API from non-dependency " ++
              quoted (pkg_display referenced)).
      match goal with |- one_line ?h /\ _ => assert (Hone : one_line h) by one_line_tac end.
      split; [done|]. split; [done|].
      rewrite <- lines_of_line by done. cbn [display]. by rewrite <- !app_assoc.
  Qed.

  Lemma lines_of_places (ps : list place) :
    Forall (fun p => one_line (pl_file p)) ps ->
    lines_of (places_display ps) = map place_display ps ++ [[]].
  Proof.
    induction 1 as [|p ps Hp Hps IH]; [done|]. unfold places_display in *. cbn [map concat].
    rewrite <- app_assoc, lines_of_line; [by rewrite IH|].
    unfold place_display. apply prefix_one_line; [done|].
    apply prefix_one_line; [apply (bool_decide_unpack _); vm_compute; exact I|apply in_brackets_one_line].
  Qed.

  Lemma place_says (p : place) : says (place_display p) (pl_file p) (pl_line p) (pl_column p).
  Proof. exact (use_text_says (Use tt (pl_file p) p)). Qed.
End heads.

(** ** Reports *)

(** C166. The detailed report of a problem with an API has one entry for each use, below the file and the
    function it is in, with what is used, line and column; the entries are in one-to-one correspondence
    with the uses. *)
Theorem C166_uses {K : Type} `{EqDecision K} (name_leb : K -> K -> bool) (name_text : K -> str)
    (p : shown_problem K) (pkg : shown_pkg) (api : str) (us : list (use K)) :
  uses_of p = Some (pkg, api, us) -> plain_problem p -> Forall (readable name_text) us ->
  exists es, read_uses [] [] (lines_of (display name_leb name_text true p)) ≡ₚ es /\
    Forall2 (reports name_text) es us.
Proof.
  intros Hu Hp Hr. destruct (display_head name_leb name_text p pkg api us Hu Hp) as (h & _ & Hh & ->).
  exists (map (entry name_text) us). rewrite read_header by done. split; [by apply read_display|].
  clear. induction us as [|u us IH]; constructor; [|done]. split; [done|]. split; [done|]. apply use_text_says.
Qed.
Print Assumptions C166_uses.

(** An entry says which file, function, target, line and column it is about. *)
Theorem C166_entry {K : Type} (name_text : K -> str) (e : str * str * str) (u v : use K) :
  reports name_text e u -> reports name_text e v ->
  name_text (ru_from u) = name_text (ru_from v) /\ ru_to u = ru_to v /\ ru_place u = ru_place v.
Proof.
  intros (H1 & H2 & H3) (K1 & K2 & K3). destruct (says_inj _ _ _ _ _ _ _ H3 K3) as (E1 & E2 & E3).
  split; [congruence|]. split; [done|]. destruct u as [? ? [? ? ?]], v as [? ? [? ? ?]]. cbn in *. congruence.
Qed.
Print Assumptions C166_entry.

(** Each file that has uses has one heading, and the headings are in alphabetical order. *)
Theorem C166_files {K : Type} `{EqDecision K} (name_leb : K -> K -> bool) (name_text : K -> str)
    (p : shown_problem K) (pkg : shown_pkg) (api : str) (us : list (use K)) :
  uses_of p = Some (pkg, api, us) -> plain_problem p -> Forall (readable name_text) us ->
  let files := read_files (lines_of (display name_leb name_text true p)) in
  StronglySorted EditorSpec.bytes_lt files /\
  forall f, f ∈ files <-> exists u, u ∈ us /\ pl_file (ru_place u) = f.
Proof.
  intros Hu Hp Hr. destruct (display_head name_leb name_text p pkg api us Hu Hp) as (h & _ & Hh & ->).
  cbn zeta.
  assert (Hskip : forall ls, read_files (h :: ls) = read_files ls).
  { intros ls. unfold read_files. cbn [omap list_omap].
    assert (Ha : strip_prefix (lit "  ") h = None) by (by apply strip_prefix_None).
    rewrite Ha. by destruct (starts_with (lit "    ") h). }
  rewrite Hskip, read_files_display by done. split; [|intros f; apply group_by_keys].
  eapply StronglySorted_impl_strict; [|apply (group_by_sorted str_leb str_leb_trans str_leb_total str_leb_antisym)].
  intros a b [Hab Hne]. by apply str_leb_spec in Hab as [?|?].
Qed.
Print Assumptions C166_files.

(** The detailed report of unsafe code and of extern declarations has one line for each place. *)
Theorem C166_places {K : Type} `{EqDecision K} (name_leb : K -> K -> bool) (name_text : K -> str)
    (p : shown_problem K) (pkg : shown_pkg) (places : list place) :
  places_of p = Some (pkg, places) -> plain_problem p -> Forall (fun l => one_line (pl_file l)) places ->
  exists head es, lines_of (display name_leb name_text true p) = head :: es ++ [[]] /\
    Forall2 (fun e l => says e (pl_file l) (pl_line l) (pl_column l)) es places.
Proof.
  intros Hu Hp Hr.
  assert (Hs : Forall2 (fun e l => says e (pl_file l) (pl_line l) (pl_column l)) (map place_display places) places).
  { clear. induction places; constructor; [apply place_says|done]. }
  destruct p; try discriminate Hu; cbn [places_of] in Hu; assert (places0 = places) as -> by congruence;
    cbn [plain_problem] in Hp; cbn [display]; rewrite app_assoc, lines_of_line by one_line_tac;
    rewrite lines_of_places by done; by eexists _, _.
Qed.
Print Assumptions C166_places.

(** Two uses in one function and one in another file. *)
Definition rp_pkg : shown_pkg := ShownPkg (lit "foo") (lit "1.2.0") false.
Definition rp_uses : list (use str) :=
  [Use (lit "foo::run") (lit "std::fs::read") (Place (lit "src/z.rs") 7 (Some 5%N));
   Use (lit "foo::go") (lit "std::fs::write") (Place (lit "src/a.rs") 12 None);
   Use (lit "foo::run") (lit "std::fs::copy") (Place (lit "src/z.rs") 3 (Some 1%N))].
Example C166_ex :
  uses_of (RApi rp_pkg All (lit "fs") rp_uses) = Some (rp_pkg, lit "fs", rp_uses) /\
  plain_problem (RApi (K:=str) rp_pkg All (lit "fs") rp_uses) /\
  Forall (readable (fun s => s)) rp_uses /\
  lines_of (display str_leb (fun s => s) true (RApi rp_pkg All (lit "fs") rp_uses)) =
    [lit "'foo[1.2.0]' uses disallowed API `fs`";
     lit "  src/a.rs"; lit "    foo::go"; lit "      -> std::fs::write [12]";
     lit "  src/z.rs"; lit "    foo::run"; lit "      -> std::fs::read [7:5]"; lit "      -> std::fs::copy [3:1]"; []].
Proof.
  split; [done|]. split.
  { split; [split|]; (apply Forall_forall; intros c Hc; revert c Hc; apply Forall_forall;
      apply (bool_decide_unpack _); vm_compute; exact I). }
  split; [|by vm_compute].
  repeat constructor; apply (bool_decide_unpack _); vm_compute; exact I.
Qed.
Example C166_ex_places :
  lines_of (display str_leb (fun s : str => s) true
    (RUnsafe rp_pkg BuildScript [Place (lit "build.rs") 3 (Some 9%N); Place (lit "build.rs") 4 None])) =
  [lit "`foo.build[1.2.0]` uses unsafe"; lit "build.rs [3:9]"; lit "build.rs [4]"; []].
Proof. by vm_compute. Qed.

(** C167. Two problems with the same headline are about the same thing, and about the same section of the
    configuration; and only the details of a problem do not matter for its headline. *)
Theorem C167_headline {K : Type} `{EqDecision K} (name_leb : K -> K -> bool) (name_text : K -> str)
    (p q : shown_problem K) :
  plain_problem p -> plain_problem q ->
  display name_leb name_text false p = display name_leb name_text false q <-> same_subject p q.
Proof.
  intros Hp Hq. split; [by apply headline_same|].
  assert (X : forall (p q : shown_pkg) k, same_pkg p q -> sel_display p k = sel_display q k).
  { intros [n v u] [n' v' u'] k (H1 & H2 & H3). cbn in *. subst. unfold sel_display. cbn.
    destruct u'; [done|]. by rewrite H3. }
  assert (Y : forall (p q : shown_pkg), same_pkg p q -> pkg_display p = pkg_display q) by (intros; by apply X).
  intros S. destruct S; cbn [display]; try done;
    repeat match goal with
      | H : same_pkg ?p ?q |- context [sel_display ?p ?k] => rewrite (X p q k H)
      | H : same_pkg ?p ?q |- context [pkg_display ?p] => rewrite (Y p q H)
      end; done.
Qed.
Print Assumptions C167_headline.

Example C167_ex :
  let p := RApi (K:=str) rp_pkg All (lit "fs") rp_uses in
  let q := RApi (K:=str) rp_pkg All (lit "fs") [] in
  let r := RApi (K:=str) rp_pkg FromBuild (lit "fs") rp_uses in
  plain_problem p /\ plain_problem q /\ plain_problem r /\ same_subject p q /\ ~ same_subject p r /\
  display str_leb (fun s => s) false p = lit "`foo[1.2.0]` uses the `fs` API" /\
  display str_leb (fun s => s) false r =
    lit "`foo[1.2.0]` uses the `fs` API in code included in a build script from another package".
Proof.
  cbn zeta.
  assert (H : forall s us, plain_problem (RApi (K:=str) rp_pkg s (lit "fs") us)).
  { intros s us. split; [split|]; (apply (bool_decide_unpack _); vm_compute; exact I). }
  split; [apply H|]. split; [apply H|]. split; [apply H|]. split; [by apply ss_api|].
  split; [intros S; inversion S|]. split; by vm_compute.
Qed.

(** ** The list of uses *)

(** C168. The list for a problem has each of its uses or places once; it is in the order of the places, and uses at the
    same place stay in the order of the problem. *)
Theorem C168_uses {K : Type} (name_text : K -> str) (strip : shown_pkg -> str -> option str)
    (p : shown_problem K) (pkg : shown_pkg) (api : str) (us : list (use K)) :
  uses_of p = Some (pkg, api, us) ->
  let shown := listed_uses name_text strip p in
  StronglySorted before (map ld_place shown) /\
  exists es, shown ≡ₚ es /\
    Forall2 (fun e u => ld_place e = ru_place u /\ ld_text e = name_text (ru_from u) ++ lit " -> " ++ ru_to u) es us /\
    forall l, filter (fun e => ld_place e = l) shown = filter (fun e => ld_place e = l) es.
Proof.
  intros Hu. cbn zeta. split.
  - destruct p; try discriminate Hu; unfold listed_uses;
      (eapply StronglySorted_fmap_map; apply sort_listed_sorted).
  - exists (map (fun u => Listed (ru_place u) (name_text (ru_from u) ++ lit " -> " ++ ru_to u)) us).
    assert (Hl : listed_uses name_text strip p = foldr insert_listed []
              (map (fun u => Listed (ru_place u) (name_text (ru_from u) ++ lit " -> " ++ ru_to u)) us)).
    { destruct p; try discriminate Hu; cbn [uses_of] in Hu; assert (us0 = us) as -> by congruence; done. }
    rewrite Hl. split; [apply sort_listed_perm|]. split; [|intros l; apply sort_listed_stable].
    clear. induction us; constructor; done.
Qed.
Print Assumptions C168_uses.

Theorem C168_places {K : Type} (name_text : K -> str) (strip : shown_pkg -> str -> option str)
    (p : shown_problem K) (pkg : shown_pkg) (places : list place) :
  places_of p = Some (pkg, places) ->
  let shown := listed_uses name_text strip p in
  StronglySorted before (map ld_place shown) /\
  exists es, shown ≡ₚ es /\
    Forall2 (fun e l => ld_place e = l /\
        exists file, ld_text e = file ++ lit ":" ++ decimal (pl_line l) /\
          (strip pkg (pl_file l) = None -> file = pl_file l) /\
          forall rest, strip pkg (pl_file l) = Some rest -> file = rest) es places.
Proof.
  intros Hu. cbn zeta. split.
  - destruct p; try discriminate Hu; unfold listed_uses;
      (eapply StronglySorted_fmap_map; apply sort_listed_sorted).
  - exists (map (fun l => Listed l (place_text (strip pkg) l)) places).
    assert (Hl : listed_uses name_text strip p = foldr insert_listed []
              (map (fun l => Listed l (place_text (strip pkg) l)) places)).
    { destruct p; try discriminate Hu; cbn [places_of] in Hu;
        assert (places0 = places) as -> by congruence; assert (p = pkg) as -> by congruence; done. }
    rewrite Hl. split; [apply sort_listed_perm|].
    clear. induction places as [|l places IH]; constructor; [|done]. split; [done|].
    eexists. split; [reflexivity|]. split; [by intros ->|]. by intros rest ->.
Qed.
Print Assumptions C168_places.

Example C168_ex :
  map (fun e => (ld_place e, ld_text e))
    (listed_uses (fun s : str => s) (fun _ _ => None) (RApi rp_pkg All (lit "fs") rp_uses)) =
  [(Place (lit "src/a.rs") 12 None, lit "foo::go -> std::fs::write");
   (Place (lit "src/z.rs") 3 (Some 1%N), lit "foo::run -> std::fs::copy");
   (Place (lit "src/z.rs") 7 (Some 5%N), lit "foo::run -> std::fs::read")] /\
  map ld_text (listed_uses (fun s : str => s) (fun _ => strip_prefix (lit "/w/"))
    (RUnsafe rp_pkg Primary [Place (lit "/w/src/z.rs") 3 None; Place (lit "/v/a.rs") 20 None])) =
  [lit "/v/a.rs:20"; lit "src/z.rs:3"].
Proof. split; by vm_compute. Qed.

(** ** Sources *)

(** C169. The source of a use is shown as it is in the file: see [shows]. *)
Theorem C169_source (lexer : str -> list str) (source : str) (ls : list str) (p : place) (height : nat) :
  cuts lexer -> BuildScriptSpec.lines_of source ls -> (pl_line p + N.of_nat height < 2 ^ 31 - 1)%N ->
  exists shown, source_lines lexer source p height = Some shown /\ shows ls p height shown.
Proof. apply source_lines_shows. Qed.
Print Assumptions C169_source.

(** The line of the use itself is on the screen if it is in the file and the area is not empty. *)
Theorem C169_target (lexer : str -> list str) (source : str) (ls : list str) (p : place) (height : nat) :
  cuts lexer -> BuildScriptSpec.lines_of source ls -> (pl_line p + N.of_nat height < 2 ^ 31 - 1)%N ->
  1 <= height -> (1 <= pl_line p)%N -> N.to_nat (pl_line p) <= length ls ->
  exists shown l, source_lines lexer source p height = Some shown /\ l ∈ shown /\
    sl_number l = Z.of_N (pl_line p) /\ sl_marker l = true /\
    ls !! (N.to_nat (pl_line p) - 1) = Some (span_text l).
Proof.
  intros Hc Hl Hs Hh H1 H2. destruct (source_lines_shows lexer source ls p height Hc Hl Hs) as (shown & E & Hv).
  destruct (shows_target ls p height shown Hv Hh H1 H2) as (l & Hl1 & Hl2 & Hl3).
  exists shown, l. split; [done|]. split; [done|]. split; [done|]. split; [done|].
  destruct Hv as (first & _ & _ & _ & Hat). apply elem_of_list_lookup in Hl1 as [i Hi].
  destruct (Hat i l Hi) as (Hn & Ht & _). rewrite <- Ht. f_equal. lia.
Qed.
Print Assumptions C169_target.

(** Three lines, of which the last two fit; each character is a piece. *)
Definition rp_lexer (s : str) : list str := map (fun c => [c]) s.
Definition rp_source : str := lit "one" ++ [nl] ++ lit "two" ++ [cr; nl] ++ lit "three".
Example C169_ex :
  cuts rp_lexer /\ BuildScriptSpec.lines_of rp_source [lit "one"; lit "two"; lit "three"] /\
  source_lines rp_lexer rp_source (Place [] 3 (Some 2%N)) 2 =
    Some [ShownLine false 2 [Span (lit "t") false; Span (lit "w") false; Span (lit "o") false];
          ShownLine true 3 [Span (lit "t") false; Span (lit "h") true; Span (lit "r") false;
                            Span (lit "e") false; Span (lit "e") false]].
Proof.
  split. { intros s. unfold rp_lexer. induction s as [|c s IH]; [done|]. cbn. by rewrite IH. }
  split; [|by vm_compute].
  apply (BuildScriptSpec.lines_lf (lit "one")); [apply (bool_decide_unpack _); vm_compute; exact I|done|].
  apply (BuildScriptSpec.lines_crlf (lit "two")); [apply (bool_decide_unpack _); vm_compute; exact I|].
  apply BuildScriptSpec.lines_unterminated; [done|]. apply (bool_decide_unpack _). vm_compute. exact I.
Qed.

(** ** What does not hold *)

(** C170. Some line numbers make the interface crash, although they fit in a line number of the debug
    information. *)
Theorem C170_refuted :
  exists (lexer : str -> list str) (source : str) (p : place) (height : nat),
    cuts lexer /\ (pl_line p < 2 ^ 32)%N /\ height < 100 /\ source_lines lexer source p height = None.
Proof.
  exists rp_lexer, rp_source, (Place [] 2147483647 None), 40. split; [apply C169_ex|].
  split; [by vm_compute|]. split; [lia|]. by vm_compute.
Qed.
Print Assumptions C170_refuted.

(** C171. Problems that need different sections of the configuration have the same detailed report. *)
Theorem C171_refuted :
  exists (p q : shown_problem str),
    plain_problem p /\ plain_problem q /\
    display str_leb (fun s => s) true p = display str_leb (fun s => s) true q /\
    display str_leb (fun s => s) false p <> display str_leb (fun s => s) false q /\
    exists pkg api us, p = RApi pkg All api us /\ q = RApi pkg FromBuild api us /\ us <> [].
Proof.
  exists (RApi rp_pkg All (lit "fs") rp_uses), (RApi rp_pkg FromBuild (lit "fs") rp_uses).
  split; [apply C167_ex|]. split; [apply C167_ex|]. split; [done|].
  split; [|by exists rp_pkg, (lit "fs"), rp_uses].
  intros H. apply (bool_decide_eq_true_2 _) in H. vm_compute in H. discriminate H.
Qed.
Print Assumptions C171_refuted.
