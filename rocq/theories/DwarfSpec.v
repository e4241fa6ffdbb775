(** What the debug information of a binary says: a tree of entries for each unit. *)
From Verif Require Import Base TextModel TextSpec NamesModel NamesSpec CollectModel DwarfModel.

(** An entry with its offset in the unit; [None] for entries that cannot have children. *)
Inductive die := Die (offset : nat) (t : tag) (attrs : list attr) (children : option (list die)).

Definition die_offset (d : die) : nat := let '(Die o _ _ _) := d in o.
Definition die_tag (d : die) : tag := let '(Die _ t _ _) := d in t.
Definition die_attrs (d : die) : list attr := let '(Die _ _ a _) := d in a.
Definition die_children (d : die) : list die := let '(Die _ _ _ c) := d in default [] c.

(** How entries are written: children follow their parent, a null entry ends them. *)
Fixpoint flat (d : die) : list raw_entry :=
  let '(Die o t attrs children) := d in
  match children with
  | None => [RawEntry o t attrs false]
  | Some ds =>
      RawEntry o t attrs true ::
      (fix go (ds : list die) : list raw_entry := match ds with [] => [] | d :: ds => flat d ++ go ds end) ds ++ [RawNull]
  end.
Definition flatten (ds : list die) : list raw_entry := mjoin (map flat ds).

(** A unit and how it is written, with padding at the end. *)
Record unit_tree := UnitTree { ut_offset : nat; ut_dir : option str; ut_dies : list die; ut_padding : nat }.
Definition encode (t : unit_tree) : dw_unit :=
  DwUnit (ut_offset t) (ut_dir t) (flatten (ut_dies t) ++ replicate (ut_padding t) RawNull).

(** [within ds ancestors d]: [d] is an entry of the forest, with these ancestors, the nearest first. *)
Inductive within : list die -> list die -> die -> Prop :=
| within_top ds d : d ∈ ds -> within ds [] d
| within_below ds p ancestors d :
    p ∈ ds -> within (die_children p) ancestors d -> within ds (ancestors ++ [p]) d.

(** ** Attributes *)

Definition first_attr {A} (f : attr -> option A) (attrs : list attr) : option A := head (omap f attrs).

Definition name_attr := first_attr (fun a => match a with AtName s => Some s | _ => None end).
Definition linkage_attr := first_attr (fun a => match a with AtLinkage s => Some s | _ => None end).
Definition origin_attr := first_attr (fun a => match a with AtOrigin r => Some r | _ => None end).
Definition specification_attr := first_attr (fun a => match a with AtSpecification r => Some r | _ => None end).
Definition decl_file := first_attr (fun a => match a with AtDeclFile f => f | _ => None end).
Definition decl_line := first_attr (fun a => match a with AtDeclLine n => n | _ => None end).
Definition decl_column := first_attr (fun a => match a with AtDeclColumn n => n | _ => None end).
Definition call_file := first_attr (fun a => match a with AtCallFile f => f | _ => None end).
Definition call_line := first_attr (fun a => match a with AtCallLine n => n | _ => None end).
Definition call_column := first_attr (fun a => match a with AtCallColumn n => n | _ => None end).
Definition low_pc := first_attr (fun a => match a with AtLowPc a => a | _ => None end).

(** DWARF: an entry has at most one attribute of each kind; an instance of a function has no name besides that of
    its origin; it is at one address or in several ranges. *)
Definition kind (a : attr) : option nat :=
  match a with
  | AtName _ => Some 0 | AtLinkage _ => Some 1 | AtOrigin _ => Some 2 | AtSpecification _ => Some 3
  | AtDeclFile _ => Some 4 | AtDeclLine _ => Some 5 | AtDeclColumn _ => Some 6 | AtCallFile _ => Some 7
  | AtCallLine _ => Some 8 | AtCallColumn _ => Some 9 | AtLowPc _ => Some 10 | AtRanges _ => Some 11 | AtOther => None
  end.
Definition unambiguous (attrs : list attr) : Prop :=
  NoDup (omap kind attrs) /\
  (forall r, origin_attr attrs = Some r -> name_attr attrs = None /\ linkage_attr attrs = None) /\
  (forall a r, AtLowPc a ∈ attrs -> AtRanges r ∉ attrs).

(** Units follow each other; an entry has its own place behind the unit's header. *)
Definition laid_out (ts : list unit_tree) : Prop :=
  (forall t anc d, t ∈ ts -> within (ut_dies t) anc d -> 0 < die_offset d /\ unambiguous (die_attrs d)) /\
  (forall t anc d anc' d', t ∈ ts -> within (ut_dies t) anc d -> within (ut_dies t) anc' d' ->
     die_offset d = die_offset d' -> anc = anc' /\ d = d') /\
  (forall i j t t', i < j -> ts !! i = Some t -> ts !! j = Some t' -> ut_offset t < ut_offset t' /\
     forall anc d, within (ut_dies t) anc d -> ut_offset t + die_offset d < ut_offset t').

(** ** Names *)

(** The namespaces and structures directly around, the outermost first. *)
Fixpoint enclosing (ancestors : list die) : list str :=
  match ancestors with
  | p :: ancestors =>
      match die_tag p, name_attr (die_attrs p) with
      | (TagNamespace | TagStructure), Some n => enclosing ancestors ++ [n]
      | _, _ => []
      end
  | [] => []
  end.

Definition own_names (namespace : list str) (attrs : list attr) : sym_and_name :=
  SymAndName (linkage_attr attrs) (DebugName namespace <$> name_attr attrs).

(** The entry a reference of an entry in unit [t] points to. *)
Definition points_to (ts : list unit_tree) (t : unit_tree) (r : die_ref) (t' : unit_tree) (ancestors : list die)
    (d : die) : Prop :=
  within (ut_dies t') ancestors d /\
  match r with
  | UnitRef o => t' = t /\ die_offset d = o
  | InfoRef o => t' ∈ ts /\ o = ut_offset t' + die_offset d
  | OtherRef => False
  end.

(** The names of the function a reference points to: its own, or those of the declaration it specifies. *)
Inductive denotes (ts : list unit_tree) : unit_tree -> die_ref -> sym_and_name -> Prop :=
| denotes_own t r t' anc d :
    points_to ts t r t' anc d -> specification_attr (die_attrs d) = None ->
    denotes ts t r (own_names (if bool_decide (die_tag d = TagSubprogram) then enclosing anc else []) (die_attrs d))
| denotes_declared t r t' anc d r' names :
    points_to ts t r t' anc d -> specification_attr (die_attrs d) = Some r' -> denotes ts t' r' names ->
    denotes ts t r names.

(** References stay in their unit. *)
Definition own_references (ts : list unit_tree) : Prop :=
  forall t anc d r, t ∈ ts -> within (ut_dies t) anc d -> AtOrigin r ∈ die_attrs d \/ AtSpecification r ∈ die_attrs d ->
    exists anc' d', points_to ts t r t anc' d'.

(** Entries for code and data. *)
Definition code_tag (t : tag) : bool :=
  match t with TagSubprogram | TagInlined | TagBlock | TagVariable => true | _ => false end.

(** The names of an entry: those of its origin, or its own. *)
Definition names_of (ts : list unit_tree) (t : unit_tree) (ancestors : list die) (d : die) (names : sym_and_name) : Prop :=
  if code_tag (die_tag d) then
    match origin_attr (die_attrs d) with
    | Some r => denotes ts t r names
    | None => names = own_names (enclosing ancestors) (die_attrs d)
    end
  else names = SymAndName None None.

Definition unnamed (names : sym_and_name) : Prop := sn_symbol names = None /\ sn_debug names = None.

(** ** Symbols *)

Definition unit_dir (t : unit_tree) : str := match ut_dir t with Some dir => dir | None => [] end.

(** An entry describes a symbol: its linkage name, or its name if it has none, with its place and its name. *)
Definition describes (t : unit_tree) (ancestors : list die) (d : die) (symbol : str) (info : sym_debug) : Prop :=
  (die_tag d = TagSubprogram \/ die_tag d = TagVariable) /\
  (linkage_attr (die_attrs d) = Some symbol \/
   linkage_attr (die_attrs d) = None /\ name_attr (die_attrs d) = Some symbol) /\
  decl_line (die_attrs d) = Some (sd_line info) /\ decl_column (die_attrs d) = sd_column info /\
  decl_file (die_attrs d) = Some (sd_directory info, sd_path info) /\ sd_compdir info = unit_dir t /\
  sd_name info = DebugName (enclosing ancestors) <$> name_attr (die_attrs d).

(** ** Inlined functions *)

(** Where a function was called before it was inlined. *)
Definition call_of (t : unit_tree) (d : die) : call_loc :=
  if code_tag (die_tag d) then
    CallLoc (unit_dir t) (match call_file (die_attrs d) with Some (dir, _) => dir | None => None end)
      (snd <$> call_file (die_attrs d)) (call_line (die_attrs d)) (call_column (die_attrs d))
  else CallLoc (unit_dir t) None None None None.

Definition shim (names : sym_and_name) : Prop :=
  exists s, sn_symbol names = Some s /\ function_shim s.

(** The nearest entry around that has a name and is no shim of [core::ops::function]; the place of the call is that
    of the outermost shim on the way. *)
Inductive called_from (ts : list unit_tree) (t : unit_tree) : list die -> call_loc -> sym_and_name -> call_loc -> Prop :=
| called_here p anc call names :
    names_of ts t anc p names -> ~ unnamed names -> ~ shim names -> called_from ts t (p :: anc) call names call
| called_through p anc call names from call' :
    names_of ts t anc p names -> shim names -> called_from ts t anc (call_of t p) from call' ->
    called_from ts t (p :: anc) call from call'
| called_above p anc call names from call' :
    names_of ts t anc p names -> unnamed names -> called_from ts t anc call from call' ->
    called_from ts t (p :: anc) call from call'.

(** An entry stands for a function that was inlined: it has a name, an address other than 0 and 1, and lies in
    another function. *)
Definition inlined_call (ts : list unit_tree) (t : unit_tree) (ancestors : list die) (d : die) (i : inlined) : Prop :=
  code_tag (die_tag d) = true /\ names_of ts t ancestors d (in_to i) /\ ~ unnamed (in_to i) /\
  (exists a, low_pc (die_attrs d) = Some a /\ 1 < a /\ in_bin i = BinLoc a a) /\
  called_from ts t ancestors (call_of t d) (in_from i) (in_call i).

(** ** Readable debug information *)

(** The chain of declarations behind a reference has at most [k] steps. *)
Inductive resolved (ts : list unit_tree) : nat -> unit_tree -> die_ref -> Prop :=
| resolved_own k t r t' anc d :
    points_to ts t r t' anc d -> specification_attr (die_attrs d) = None -> resolved ts k t r
| resolved_declared k t r t' anc d r' :
    points_to ts t r t' anc d -> specification_attr (die_attrs d) = Some r' -> resolved ts k t' r' ->
    resolved ts (S k) t r.

(** Names are text, files are known, references lead to a name after at most ten declarations, the demangler copes
    with the symbols. *)
Definition readable (ts : list unit_tree) (t : unit_tree) : Prop :=
  forall anc d, within (ut_dies t) anc d ->
    (forall n, AtName n ∈ die_attrs d -> is_utf8 n) /\
    AtDeclFile None ∉ die_attrs d /\ AtCallFile None ∉ die_attrs d /\
    (forall r, AtOrigin r ∈ die_attrs d -> resolved ts 10 t r) /\
    (forall s, AtLinkage s ∈ die_attrs d -> is_Some (is_look_through s)).

(** ** Further notions, for what does not hold *)

(** Where the code of an entry begins. *)
Definition placed (d : die) (a : nat) : Prop :=
  1 < a /\ (low_pc (die_attrs d) = Some a \/ AtRanges (Some a) ∈ die_attrs d).

(** The namespaces and types of all sorts directly around, the outermost first. *)
Fixpoint scope (ancestors : list die) : list str :=
  match ancestors with
  | p :: ancestors =>
      match die_tag p, name_attr (die_attrs p) with
      | (TagNamespace | TagStructure | TagEnumeration | TagUnion), Some n => scope ancestors ++ [n]
      | _, _ => []
      end
  | [] => []
  end.

(** The innermost function around. *)
Fixpoint function_around (ancestors : list die) : option die :=
  match ancestors with
  | p :: ancestors => if bool_decide (die_tag p = TagSubprogram) then Some p else function_around ancestors
  | [] => None
  end.
