(** What starting cargo and the wrappers should do: reading a command line, the part of bash that the
    wrapper scripts need, names of files, and what can be seen of the server. *)
From Verif Require Import Base TextModel ConfigModel ProblemModel StoreModel DepsModel DepsSpec IndexModel LaunchModel.

(** ** Command lines of cargo *)

(** What cargo takes for options: everything before two dashes. The rest goes to the program it runs. *)
Fixpoint cargo_words (ws : list str) : list str :=
  match ws with
  | [] => []
  | w :: ws => if decide (w = lit "--") then [] else w :: cargo_words ws
  end.

Fixpoint values_after (name : str) (ws : list str) : list str :=
  match ws with
  | [] => []
  | w :: ws' =>
      if decide (w = name) then match ws' with v :: _ => v :: values_after name ws' | [] => [] end
      else values_after name ws'
  end.

(** The values that an option has on a command line. *)
Definition option_values (name : str) (call : cargo_call) : list str :=
  values_after name (cargo_words (cc_args call)).

(** The sub-command: the first word that does not start with a dash. *)
Definition names_subcommand (call : cargo_call) (sub : str) : Prop :=
  exists before after, cc_args call = before ++ sub :: after /\ head sub <> Some "-"%char /\
    forall w, w ∈ before -> head w = Some "-"%char.

(** Words given by the user that are neither two dashes nor one of the options in question. *)
Definition harmless (w : str) : Prop :=
  w ∉ [lit "--"; lit "--profile"; lit "--target"; lit "--features"; lit "-p"].

(** The value of a variable for the program that is started. *)
Definition call_variable (call : cargo_call) (name : str) (v : option str) : Prop :=
  match v with
  | Some v => (name, v) ∈ cc_env call /\ name ∉ cc_removed call /\ forall v', (name, v') ∈ cc_env call -> v' = v
  | None => name ∈ cc_removed call
  end.

(** ** Bash *)

(** A word of a script: a character, the value of a variable, all arguments. *)
Inductive piece := Char (c : ascii) | Var (name : str) | Arguments.
Global Instance piece_eq_dec : EqDecision piece.
Proof. solve_decision. Defined.

Inductive token := Word (w : list piece) | Separator.

Inductive lex_mode :=
| Plain
| Comment
| Quoted
| AfterBackslash
| AfterDollar (name : str).

(** The mode, the unfinished word (if there is one), the tokens so far. *)
Record lex_state := LexState { lx_mode : lex_mode; lx_word : option (list piece); lx_tokens : list token }.

Definition end_word (s : lex_state) : list token :=
  match lx_word s with Some w => lx_tokens s ++ [Word w] | None => lx_tokens s end.

Definition add_piece (m : lex_mode) (p : list piece) (s : lex_state) : lex_state :=
  LexState m (Some (default [] (lx_word s) ++ p)) (lx_tokens s).

Definition name_char (first : bool) (c : ascii) : bool :=
  let n := nat_of_ascii c in
  (Nat.leb 65 n && Nat.leb n 90) || (Nat.leb 97 n && Nat.leb n 122) || Nat.eqb n 95 ||
  (negb first && Nat.leb 48 n && Nat.leb n 57).

Definition backslash : ascii := "092"%char.
Definition double_quote : ascii := "034"%char.
Definition line_end : ascii := "010"%char.

(** A character inside double quotes. *)
Definition lex_quoted (s : lex_state) (c : ascii) : option lex_state :=
  if Ascii.eqb c double_quote then Some (LexState Plain (lx_word s) (lx_tokens s))
  else if Ascii.eqb c "`" then None
  else if Ascii.eqb c backslash then Some (LexState AfterBackslash (lx_word s) (lx_tokens s))
  else if Ascii.eqb c "$" then Some (LexState (AfterDollar []) (lx_word s) (lx_tokens s))
  else Some (add_piece Quoted [Char c] s).

(** One character; [None] for parts of bash that are left out here. *)
Definition lex_char (s : lex_state) (c : ascii) : option lex_state :=
  match lx_mode s with
  | Comment => Some (if Ascii.eqb c line_end then LexState Plain None (lx_tokens s ++ [Separator]) else s)
  | Plain =>
      if Ascii.eqb c " " then Some (LexState Plain None (end_word s))
      else if Ascii.eqb c line_end || Ascii.eqb c ";" then Some (LexState Plain None (end_word s ++ [Separator]))
      else if Ascii.eqb c double_quote then Some (add_piece Quoted [] s)
      else if Ascii.eqb c "#" && bool_decide (lx_word s = None) then Some (LexState Comment None (lx_tokens s))
      else if bool_decide (c ∈ ["$"%char; "`"%char; backslash; "'"%char; "|"%char; "&"%char; "("%char; ")"%char;
                                "<"%char; ">"%char; "*"%char; "?"%char; "~"%char; "{"%char; "}"%char]) then None
      else Some (add_piece Plain [Char c] s)
  | Quoted => lex_quoted s c
  | AfterBackslash =>
      if bool_decide (c ∈ ["$"%char; "`"%char; backslash; double_quote]) then Some (add_piece Quoted [Char c] s)
      else if Ascii.eqb c line_end then Some (LexState Quoted (lx_word s) (lx_tokens s))
      else Some (add_piece Quoted [Char backslash; Char c] s)
  | AfterDollar name =>
      if name_char (bool_decide (name = [])) c then Some (LexState (AfterDollar (name ++ [c])) (lx_word s) (lx_tokens s))
      else match name with
           | [] => if Ascii.eqb c "@" then Some (add_piece Quoted [Arguments] s) else None
           | _ => lex_quoted (add_piece Quoted [Var name] s) c
           end
  end.

Definition lex (script : str) : option (list token) :=
  match fold_left (fun s c => match s with Some s => lex_char s c | None => None end) script
          (Some (LexState Plain None [])) with
  | Some (LexState Plain None ts) => Some ts
  | _ => None
  end.

(** Commands are lists of words; empty ones do not count. *)
Fixpoint commands (ts : list token) (current : list (list piece)) : list (list (list piece)) :=
  match ts with
  | [] => match current with [] => [] | _ => [current] end
  | Word w :: ts => commands ts (current ++ [w])
  | Separator :: ts => match current with [] => commands ts [] | _ => current :: commands ts [] end
  end.

Definition plain_word (s : str) : list piece := map Char s.

(** The words of a command after expansion. *)
Fixpoint word_text (vars : str -> str) (w : list piece) : option str :=
  match w with
  | [] => Some []
  | Char c :: w => match word_text vars w with Some s => Some (c :: s) | None => None end
  | Var name :: w => match word_text vars w with Some s => Some (vars name ++ s) | None => None end
  | Arguments :: _ => None
  end.

Fixpoint expand (vars : str -> str) (args : list str) (ws : list (list piece)) : option (list str) :=
  match ws with
  | [] => Some []
  | w :: ws =>
      match (if decide (w = [Arguments]) then Some args
             else match word_text vars w with Some s => Some [s] | None => None end),
            expand vars args ws with
      | Some a, Some b => Some (a ++ b)
      | _, _ => None
      end
  end.

(** The program that a script of the form [if [ -x F ]; then C1; else C2; fi] runs, with its arguments. Its
    exit status is that of the script. *)
Definition run_script (executable : str -> bool) (vars : str -> str) (script : str) (args : list str)
    : option (list str) :=
  match lex script with
  | Some ts =>
      match commands ts [] with
      | [i :: test; [t]; c1; [e]; c2; [f]] =>
          if decide (i = plain_word (lit "if") /\ t = plain_word (lit "then") /\
                     e = plain_word (lit "else") /\ f = plain_word (lit "fi")) then
            match expand vars args test with
            | Some [a; x; file; b] =>
                if decide (a = lit "[" /\ x = lit "-x" /\ b = lit "]") then
                  expand vars args (if executable file then c1 else c2)
                else None
            | _ => None
            end
          else None
      | _ => None
      end
  | None => None
  end.

(** Text that stands for itself inside double quotes. *)
Definition unquotable (c : ascii) : Prop := c ∈ [double_quote; "`"%char; backslash; "$"%char].
Definition quotable (s : str) : Prop := forall c, c ∈ s -> ~ unquotable c.

(** ** Names of files *)

(** The directory part of a path. *)
Definition dir_part (dir : str) : Prop := dir = [] \/ exists d, dir = d ++ lit "/".

(** [new] is [path] with [.orig] before its extension (the part from the last dot, unless the name starts
    with it), or at its end if it has none. *)
Definition with_orig (path new : str) : Prop :=
  exists dir stem, dir_part dir /\ stem <> [] /\ "/"%char ∉ stem /\
    ((path = dir ++ stem /\ stem <> lit "." /\ "."%char ∉ tl stem /\ new = dir ++ stem ++ lit ".orig") \/
     (exists ext, "."%char ∉ ext /\ "/"%char ∉ ext /\
        path = dir ++ stem ++ lit "." ++ ext /\ stem ++ lit "." ++ ext <> lit ".." /\
        new = dir ++ stem ++ lit ".orig." ++ ext)).

(** The last component is a name. *)
Definition names_file (path : str) : Prop :=
  forall dir name, dir_part dir -> "/"%char ∉ name -> path = dir ++ name ->
    name <> [] /\ name <> lit "." /\ name <> lit "..".

(** ** The server *)

Section server.
  Context {R : Type}.

  (** What the client has been told. *)
  Definition told (st : stage) : option outcome :=
    match st with
    | Written r true | Done r true => Some (answer_of r)
    | _ => None
    end.

  (** Serving the request ended with an error. *)
  Definition failed (st : stage) : Prop :=
    exists r ok, st = Done r ok /\ (r = None \/ ok = false).

  (** The requests that were sent, in the order in which connections were made. *)
  Definition requests (l : list (happening R)) : list R :=
    omap (fun h => match h with Connects (Sends r) => Some r | _ => None end) l.

  (** The loop waits for a client that does not send anything. *)
  Definition stuck (s : server R) : Prop :=
    sv_pc s = AtAccept /\ exists queue, sv_queue s = Silent :: queue.
End server.

(** ** What the user asked for *)

(** The command line comes first, then the configuration, then the default. *)
Definition wanted_profile (a : launch_args) (c : build_config) (p : str) : Prop :=
  la_profile a = Some p \/
  (la_profile a = None /\ bc_profile c = Some p) \/
  (la_profile a = None /\ bc_profile c = None /\ p = lit "cackle").

Definition wanted_features (a : launch_args) (c : build_config) (f : str) : Prop :=
  la_features a = Some f \/ (la_features a = None /\ f = join (lit ",") (bc_features c)).

(** The sub-command, and further words in the given order: those of the user's sub-command, the build flags
    of the configuration or, if it does not say, a flag for all targets. *)
Definition wanted_words (a : launch_args) (c : build_config) (sub : str) (l : list str) : Prop :=
  match la_command a with
  | Some (CmdTest remaining) => sub = lit "test" /\ l = remaining
  | Some (CmdRun remaining) => sub = lit "run" /\ l = remaining
  | Some _ => sub = lit "build" /\ l = []
  | None => sub = lit "build" /\
      (bc_build_flags c = Some l \/ (bc_build_flags c = None /\ l = [lit "--all-targets"]))
  end.

(** Settings given on the command line of cargo. *)
Definition settings (call : cargo_call) : list str := option_values (lit "--config") call.

(** ** Happenings *)

Section decisions.
  Context {R : Type}.

  (** The thread that serves the [i]-th request got this result ([None]: an error). *)
  Definition decided (l : list (happening R)) (i : nat) (response : option outcome) : Prop :=
    exists l1 l2 r ok, l = l1 ++ Handler i response ok :: l2 /\
      sv_handlers (server_run server_init l1) !! i = Some (r, Working).
End decisions.

(** A process that inherits the variables of a call. *)
Definition inherits (call : cargo_call) (env : str -> option str) : Prop :=
  forall name v, (name, v) ∈ cc_env call -> env name = Some v.
