(** What build scripts may print, which rules permit an instruction, and which
    variables they set. *)
From Verif Require Import Base TextModel ApiMapModel ConfigModel ProblemModel BuildScriptModel.

(** [ls] are the lines of a text: each ends with a line feed or with carriage return and
    line feed; the last one may be unterminated if it is not empty. *)
Inductive lines_of : str -> list str -> Prop :=
| lines_end : lines_of [] []
| lines_unterminated l : l <> [] -> nl ∉ l -> lines_of l [l]
| lines_lf l rest ls :
    nl ∉ l -> last l <> Some cr -> lines_of rest ls -> lines_of (l ++ nl :: rest) (l :: ls)
| lines_crlf l rest ls :
    nl ∉ l -> lines_of rest ls -> lines_of (l ++ cr :: nl :: rest) (l :: ls).

(** [bs] are the results, in order, of those elements that have one. *)
Inductive gathered {A B} (R : A -> B -> Prop) : list A -> list B -> Prop :=
| gathered_nil : gathered R [] []
| gathered_take a b l bs : R a b -> gathered R l bs -> gathered R (a :: l) (b :: bs)
| gathered_skip a l bs : (forall b, ~ R a b) -> gathered R l bs -> gathered R (a :: l) bs.

(** A line that this program takes for an instruction to cargo. *)
Definition directive (line : str) : Prop := lit "cargo:" `prefix_of` line.

(** Instructions that need no permission. *)
Definition harmless (line : str) : Prop :=
  exists p, p ∈ [lit "cargo:rerun-if-"; lit "cargo:warning"; lit "cargo:rustc-cfg=";
                 lit "cargo:rustc-check-cfg="] /\ p `prefix_of` line.

(** A rule that ends with [*] permits everything that starts with the rest of the rule;
    any other rule permits only itself. *)
Definition permits (rule line : str) : Prop :=
  (exists p, rule = p ++ lit "*" /\ p `prefix_of` line) \/
  ((forall p, rule <> p ++ lit "*") /\ rule = line).

Definition rejected (allow : list str) (line : str) : Prop :=
  directive line /\ ~ harmless line /\ ~ exists rule, rule ∈ allow /\ permits rule line.

(** The line sets the variable [var]. *)
Definition sets_variable (line var : str) : Prop :=
  exists value, line = lit "cargo:rustc-env=" ++ var ++ lit "=" ++ value /\ "="%char ∉ var.

(** The rules in a package's configuration for its build script. *)
Definition rules_in_force (ps : permissions) (pkg : pkg_id) (allow : list str) : Prop :=
  (exists c, ps !! (pi_name pkg, Build) = Some c /\ allow = pc_allow_build_instructions c) \/
  (ps !! (pi_name pkg, Build) = None /\ allow = []).

(** [p] ends with a separator: [=], or [-] or [:] before the first [=]. *)
Definition at_separator (p : str) : Prop :=
  exists q c, p = q ++ [c] /\
    (c = "="%char \/ ((c = "-"%char \/ c = ":"%char) /\ "="%char ∉ q)).

(** A finished program: profile, which program of which package, exit code, output. *)
Notation run := (str * crate_sel * Z * str)%type.

(** The output of the latest successful run of a package's build script in a profile. *)
Fixpoint latest_success (rs : list run) (profile : str) (p : pkg_id) : option str :=
  match rs with
  | [] => None
  | (pr, sel, code, out) :: rs' =>
      match latest_success rs' profile p with
      | Some o => Some o
      | None =>
          if decide (pr = profile /\ sel = CrateSel p BuildScript /\ code = 0%Z)
          then Some out else None
      end
  end.

(** The package is one of those that are known. *)
Definition known (idx : crate_index) (p : pkg_id) : Prop :=
  exists k, k ∈ idx /\ pk_name k = pi_name p /\ pk_version k = pi_version p.

(** How cargo itself reads a line, with white space at its ends removed
    (cargo's [BuildOutput::parse]; not part of /repo). Only spaces and tabs are
    considered here. *)
Fixpoint skip_blanks (s : str) : str :=
  match s with
  | c :: s' => if decide (c = " "%char \/ c = ascii_of_nat 9) then skip_blanks s' else s
  | [] => []
  end.
Definition directive_for_cargo (line : str) : Prop := lit "cargo:" `prefix_of` skip_blanks line.

(** Both spellings by which cargo lets a build script set a variable. *)
Definition sets_variable_for_cargo (line var : str) : Prop :=
  exists value, "="%char ∉ var /\
    (line = lit "cargo:rustc-env=" ++ var ++ lit "=" ++ value \/
     line = lit "cargo::rustc-env=" ++ var ++ lit "=" ++ value).
