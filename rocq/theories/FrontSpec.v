(** Specification of the directory, the built-in definitions, the initial configuration, the prompt and
    replayed requests. *)
From Coq Require Import NArith.
From Verif Require Import Base ApiMapModel ConfigModel ProblemModel StoreModel TomlModel EditorModel
  FrontModel.

(** ** The directory *)

Definition has_manifest (exists_file : list str -> bool) (dir : list str) : Prop :=
  exists_file (dir ++ [lit "Cargo.toml"]) = true.

(** The nearest directory at or above [cwd] with a manifest: every other one is above it. *)
Definition nearest_manifest (exists_file : list str -> bool) (cwd dir : list str) : Prop :=
  dir `prefix_of` cwd /\ has_manifest exists_file dir /\
  forall other, other `prefix_of` cwd -> has_manifest exists_file other -> other `prefix_of` dir.

(** ** The built-in definitions *)

Definition below (path name : list str) : Prop := path `prefix_of` name.

(** What belongs to the APIs of the standard library. *)
Inductive std_api (name : list str) : str -> Prop :=
| std_fs : below [lit "std"; lit "fs"] name \/ below [lit "std"; lit "path"] name \/
           below [lit "std"; lit "os"; lit "linux"; lit "fs"] name \/
           below [lit "std"; lit "os"; lit "unix"; lit "fs"] name \/
           below [lit "std"; lit "os"; lit "unix"; lit "io"] name -> std_api name (lit "fs")
| std_env : below [lit "std"; lit "env"] name -> std_api name (lit "env")
| std_net : below [lit "std"; lit "net"] name \/
            below [lit "std"; lit "os"; lit "linux"; lit "net"] name -> std_api name (lit "net")
| std_unix_sockets : below [lit "std"; lit "os"; lit "unix"; lit "net"] name ->
                     std_api name (lit "unix_sockets")
| std_process : below [lit "std"; lit "process"] name \/
                below [lit "std"; lit "os"; lit "linux"; lit "process"] name \/
                below [lit "std"; lit "unix"; lit "process"] name ->
                ~ below [lit "std"; lit "process"; lit "abort"] name ->
                ~ below [lit "std"; lit "process"; lit "exit"] name -> std_api name (lit "process")
| std_terminate : below [lit "std"; lit "process"; lit "abort"] name \/
                  below [lit "std"; lit "process"; lit "exit"] name -> std_api name (lit "terminate").

Definition std_api_names : list str :=
  [lit "fs"; lit "env"; lit "net"; lit "unix_sockets"; lit "process"; lit "terminate"].

(** ** Lines *)

Definition white (c : ascii) : Prop := c = " "%char \/ (9 <= N_of_ascii c <= 13)%N.

(** [m] is [s] without the white space around it. *)
Definition trims_to (s m : str) : Prop :=
  exists a b, s = a ++ m ++ b /\ Forall white a /\ Forall white b /\
    (forall c, head m = Some c -> ~ white c) /\ (forall c, last m = Some c -> ~ white c).

(** A number in decimal digits, perhaps with a plus sign. *)
Definition digit_char (c : ascii) : Prop := (48 <= N_of_ascii c <= 57)%N.
Definition numeral (s : str) (n : N) : Prop :=
  exists ds, (s = ds \/ s = "+"%char :: ds) /\ ds <> [] /\ Forall digit_char ds /\
    n = fold_left (fun v d => v * 10 + (N_of_ascii d - 48))%N ds 0%N.

(** The line is the number of the fix with the given index, or asks for its difference. *)
Definition chooses (num_fixes : nat) (line : str) (i : nat) : Prop :=
  i < num_fixes /\ exists m, trims_to line m /\ numeral m (N.of_nat (S i)).
Definition asks_for_difference (num_fixes : nat) (line : str) (i : nat) : Prop :=
  i < num_fixes /\
  exists c m, trims_to line (c :: m) /\ (c = "d"%char \/ c = "D"%char) /\ numeral m (N.of_nat (S i)).

(** The file as somebody else left it. *)
Definition last_change (f : disk) (ev : prompt_event) : disk :=
  match ev with EvFile f' _ => f' | _ => f end.
Definition changed_by_others (f : disk) (evs : list prompt_event) : disk :=
  fold_left last_change evs f.

(** ** The initial configuration *)

(** The names in a line: its pieces between commas, without white space around them, if there is
    anything left. *)
Definition pieces (line : str) (ps : list str) : Prop :=
  ps <> [] /\ (forall p, p ∈ ps -> ","%char ∉ p) /\ line = join (lit ",") ps.
Definition names_in (line : str) (names : list str) : Prop :=
  exists ps ts, pieces line ps /\ Forall2 trims_to ps ts /\ names = filter (fun t => t <> []) ts.

(** The lines up to the one that is accepted: all but the last contain a name of no API. *)
Definition selection (lines : list (list str)) (last : list str) : Prop :=
  (forall names, names ∈ lines -> exists n, n ∈ names /\ n ∉ std_api_names) /\
  (forall n, n ∈ last -> n ∈ std_api_names).

(** ** Requests *)

(** All requests are answered, one after the other, and none is refused. *)
Inductive all_continue {R S} (handle : S -> R -> S * option outcome) : S -> list R -> S -> Prop :=
| continue_nil s : all_continue handle s [] s
| continue_cons s r rs s1 s2 : handle s r = (s1, Some Continue) -> all_continue handle s1 rs s2 ->
    all_continue handle s (r :: rs) s2.

(** The first request that is refused, or cannot be handled. *)
Definition stopped {R S} (handle : S -> R -> S * option outcome) (s : S) (rs : list R) (s' : S) : Prop :=
  exists before r after s1 o, rs = before ++ r :: after /\ all_continue handle s before s1 /\
    handle s1 r = (s', o) /\ o <> Some Continue.
