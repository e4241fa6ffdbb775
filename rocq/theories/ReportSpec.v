(** What reports, lists of uses and views of sources should say. *)
From stdpp Require Import pretty sorting.
From Verif Require EditorSpec BuildScriptSpec.
From Verif Require Import Base TextModel ConfigModel ReportModel.

(** ** Texts *)

Definition decimal (n : N) : str := list_ascii_of_string (pretty n).

(** A text that has no line feed in it. *)
Definition one_line (s : str) : Prop := nl ∉ s.

(** The lines of a text. *)
Definition lines_of (s : str) : list str := split_char nl s.

(** Letters, digits and the other characters of package names, versions and names of APIs. *)
Definition plain_char (c : ascii) : bool :=
  let n := N_of_ascii c in
  N.leb 97 n && N.leb n 122 || N.leb 65 n && N.leb n 90 || N.leb 48 n && N.leb n 57 ||
  bool_decide (c ∈ ["-"; "_"; "+"; ":"]%char).
Definition plain (s : str) : Prop := Forall (fun c => plain_char c = true) s.
(** Versions have dots as well. *)
Definition plain_version (s : str) : Prop := Forall (fun c => plain_char c = true \/ c = "."%char) s.
Definition plain_pkg (p : shown_pkg) : Prop := plain (sp_name p) /\ plain_version (sp_version p).

(** ** Reading a report *)

Section reading.
  Context {K : Type} (name_text : K -> str).

  (** A reader who takes indentation for structure: lines with two spaces name a file, with four spaces a
      function of it, and arrows below are uses in it. *)
  Fixpoint read_uses (file from : str) (lines : list str) : list (str * str * str) :=
    match lines with
    | [] => []
    | l :: ls =>
        match strip_prefix (lit "      -> ") l with
        | Some use => (file, from, use) :: read_uses file from ls
        | None =>
            match strip_prefix (lit "    ") l with
            | Some f => read_uses file f ls
            | None =>
                match strip_prefix (lit "  ") l with
                | Some f => read_uses f from ls
                | None => read_uses file from ls
                end
            end
        end
    end.

  (** The files that a report has headings for. *)
  Definition read_files (lines : list str) : list str :=
    omap (fun l => if starts_with (lit "    ") l then None else strip_prefix (lit "  ") l) lines.

  (** A text that says what is used and where in the file. *)
  Inductive says : str -> str -> N -> option N -> Prop :=
  | says_line to l : says (to ++ lit " [" ++ decimal l ++ lit "]") to l None
  | says_column to l c : says (to ++ lit " [" ++ decimal l ++ lit ":" ++ decimal c ++ lit "]") to l (Some c).

  (** An entry of a report about a use. *)
  Definition reports (e : str * str * str) (u : use K) : Prop :=
    e.1.1 = pl_file (ru_place u) /\ e.1.2 = name_text (ru_from u) /\
    says e.2 (ru_to u) (pl_line (ru_place u)) (pl_column (ru_place u)).

  (** Names that do not look like something else in a report. *)
  Definition readable (u : use K) : Prop :=
    one_line (pl_file (ru_place u)) /\ one_line (name_text (ru_from u)) /\ one_line (ru_to u) /\
    starts_with (lit "  ") (pl_file (ru_place u)) = false /\
    starts_with (lit "  -> ") (name_text (ru_from u)) = false.

  (** The uses that a problem is about. *)
  Definition uses_of (p : shown_problem K) : option (shown_pkg * str * list (use K)) :=
    match p with
    | RApi p _ api us => Some (p, api, us)
    | ROffTree p _ api us _ => Some (p, api, us)
    | _ => None
    end.

  Definition places_of (p : shown_problem K) : option (shown_pkg * list place) :=
    match p with
    | RUnsafe p _ l | RExtern p _ l => Some (p, l)
    | _ => None
    end.
End reading.

(** ** Headlines *)

(** What identifies a package for somebody who reads its name: the version only counts if there are
    several. *)
Definition same_pkg (p q : shown_pkg) : Prop :=
  sp_name p = sp_name q /\ sp_unique p = sp_unique q /\ (sp_unique p = false -> sp_version p = sp_version q).

Section headlines.
  Context {K : Type}.

  (** The same kind of problem with the same thing, and the same section of the configuration in charge;
      except that off-tree uses of different sections are not told apart. *)
  Inductive same_subject : shown_problem K -> shown_problem K -> Prop :=
  | ss_missing f : same_subject (RMissingConfiguration f) (RMissingConfiguration f)
  | ss_script p q : same_pkg p q -> same_subject (RUsesBuildScript p) (RUsesBuildScript q)
  | ss_unsafe p q k l m : same_pkg p q -> same_subject (RUnsafe p k l) (RUnsafe q k m)
  | ss_extern p q k l m : same_pkg p q -> same_subject (RExtern p k l) (RExtern q k m)
  | ss_macro p q : same_pkg p q -> same_subject (RProcMacro p) (RProcMacro q)
  | ss_api p q s api l m : same_pkg p q -> same_subject (RApi p s api l) (RApi q s api m)
  | ss_off_tree p q s t api l m r r' :
      same_pkg p q -> same_pkg r r' -> same_subject (ROffTree p s api l r) (ROffTree q t api m r')
  | ss_failed p q k a b c d x y :
      same_pkg p q -> same_subject (RExecutionFailed p k a b x) (RExecutionFailed q k c d y)
  | ss_instruction p q i : same_pkg p q -> same_subject (RInstruction p i) (RInstruction q i)
  | ss_unused_package s : same_subject (RUnusedPackage s) (RUnusedPackage s)
  | ss_unused_apis s l m : same_subject (RUnusedApis s l) (RUnusedApis s m)
  | ss_select : same_subject RSelectSandbox RSelectSandbox
  | ss_import api : same_subject (RImportStd api) (RImportStd api)
  | ss_available p q api : same_pkg p q -> same_subject (RAvailable p api) (RAvailable q api)
  | ss_possible p q api a b : same_pkg p q -> same_subject (RPossible p api a) (RPossible q api b)
  | ss_unused_sandbox s : same_subject (RUnusedSandbox s) (RUnusedSandbox s)
  | ss_version v : same_subject (RNewVersion v) (RNewVersion v).

  (** Names of packages and APIs are plain; messages may have any text and are left out. *)
  Definition plain_problem (p : shown_problem K) : Prop :=
    match p with
    | RMessage _ => False
    | RMissingConfiguration _ | RSelectSandbox | RNewVersion _ => True
    | RUsesBuildScript p | RUnsafe p _ _ | RExtern p _ _ | RProcMacro p | RExecutionFailed p _ _ _ _
    | RInstruction p _ => plain_pkg p
    | RApi p _ api _ | RAvailable p api | RPossible p api _ => plain_pkg p /\ plain api
    | ROffTree p _ api _ r => plain_pkg p /\ plain api /\ plain_pkg r
    | RUnusedPackage s | RUnusedApis s _ | RUnusedSandbox s => plain s.1
    | RImportStd api => plain api
    end.
End headlines.

(** ** Lists of uses *)

Global Instance place_eq_dec : EqDecision place.
Proof. solve_decision. Defined.

(** File, then line, then column; no column comes first. *)
Inductive before : place -> place -> Prop :=
| before_file a b : EditorSpec.bytes_lt (pl_file a) (pl_file b) -> before a b
| before_line a b : pl_file a = pl_file b -> (pl_line a < pl_line b)%N -> before a b
| before_no_column a b : pl_file a = pl_file b -> pl_line a = pl_line b -> pl_column a = None -> before a b
| before_column a b x y :
    pl_file a = pl_file b -> pl_line a = pl_line b -> pl_column a = Some x -> pl_column b = Some y ->
    (x <= y)%N -> before a b.

(** ** Sources *)

(** A lexer cuts a text into pieces. *)
Definition cuts (lexer : str -> list str) : Prop := forall s, concat (lexer s) = s.

Definition span_text (l : shown_line) : str := concat (map sn_text (sl_spans l)).

(** Exactly the piece at the given byte is marked. *)
Definition marked_at (spans : list span) (byte : nat) : Prop :=
  exists pre piece post,
    spans = pre ++ [Span piece true] ++ post /\
    Forall (fun s => sn_marked s = false) (pre ++ post) /\
    length (concat (map sn_text pre)) <= byte < length (concat (map sn_text pre)) + length piece.

Definition unmarked (spans : list span) : Prop := Forall (fun s => sn_marked s = false) spans.

(** The part of the lines [ls] of a file that is shown for a place, in an area of the given height: numbered
    lines in sequence, at most half of the area above the line of the place; only that line has the marker
    and only the piece at the column of the place is marked. *)
Definition shows (ls : list str) (p : place) (height : nat) (shown : list shown_line) : Prop :=
  exists first : nat,
    (first = 1 \/ first + height / 2 = N.to_nat (pl_line p) /\ 1 <= first) /\
    (first = 1 -> N.to_nat (pl_line p) <= 1 + height / 2) /\
    length shown = Nat.min height (length ls - (first - 1)) /\
    forall (i : nat) (l : shown_line), shown !! i = Some l ->
      let here := N.of_nat (first + i) = pl_line p in
      sl_number l = Z.of_nat (first + i) /\
      ls !! (first + i - 1) = Some (span_text l) /\
      (sl_marker l = true <-> here) /\
      (~ here -> unmarked (sl_spans l)) /\
      (pl_column p = None -> unmarked (sl_spans l)) /\
      forall c : nat, pl_column p = Some (N.of_nat (c + 1)) -> here ->
        (c < length (span_text l) -> marked_at (sl_spans l) c) /\
        (length (span_text l) <= c -> unmarked (sl_spans l)).
