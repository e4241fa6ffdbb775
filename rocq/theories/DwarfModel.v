(** Reading the debug information of a binary.
    Source: /repo/src/symbol_graph/dwarf.rs:24-40, 66-246, 256-627.
    The decoding of DWARF (the crate [gimli]) is not modelled: a unit is the list of its entries with their
    attributes. Strings are given as such, files of the line table as directory and name, numbers as converted.
    Errors of [gimli] while reading entries are left out. *)
From Verif Require Import Base TextModel NamesModel DepsModel CollectModel.

Inductive tag :=
| TagSubprogram | TagInlined | TagBlock | TagVariable | TagNamespace | TagStructure | TagEnumeration | TagUnion |
  TagOther.
Global Instance tag_eq_dec : EqDecision tag.
Proof. solve_decision. Defined.

(** References to entries: relative to the unit, relative to the whole section, others. *)
Inductive die_ref := UnitRef (offset : nat) | InfoRef (offset : nat) | OtherRef.
Global Instance die_ref_eq_dec : EqDecision die_ref.
Proof. solve_decision. Defined.

(** Attributes. A file that cannot be told is [None]; so is a number or address of an unexpected form. *)
Inductive attr :=
| AtName (s : str)
| AtLinkage (s : str)
| AtOrigin (r : die_ref)
| AtSpecification (r : die_ref)
| AtDeclFile (f : option (option str * str))
| AtDeclLine (n : option nat)
| AtDeclColumn (n : option nat)
| AtCallFile (f : option (option str * str))
| AtCallLine (n : option nat)
| AtCallColumn (n : option nat)
| AtLowPc (a : option nat)
| AtRanges (first : option nat)
| AtOther.
Global Instance attr_eq_dec : EqDecision attr.
Proof. solve_decision. Defined.

(** An entry of a unit, or the null entry that ends a list of children. *)
Inductive raw_entry :=
| RawNull
| RawEntry (offset : nat) (t : tag) (attrs : list attr) (has_children : bool).

(** A unit: the offset of its header, the directory, the entries. *)
Record dw_unit := DwUnit { un_offset : nat; un_comp_dir : option str; un_entries : list raw_entry }.

(** [path_from_opt_slice] (dwarf.rs:496-502) *)
Definition compdir_of (u : dw_unit) : str := default [] (un_comp_dir u).

(** The loop over the entries of a unit, which is the same in dwarf.rs:109-168 and dwarf.rs:201-244: a null entry
    takes an element from the stack, an entry with children puts one on it. *)
Fixpoint walk {F O : Type} (handle : list F -> nat -> tag -> list attr -> option (list O * F))
    (entries : list raw_entry) (stack : list F) : option (list O) :=
  match entries with
  | [] => Some []
  | RawNull :: entries => walk handle entries (tail stack)
  | RawEntry offset t attrs has_children :: entries =>
      match handle stack offset t attrs with
      | None => None
      | Some (out, f) =>
          match walk handle entries (if has_children then f :: stack else stack) with
          | Some rest => Some (out ++ rest)
          | None => None
          end
      end
  end.

(** The last [DW_AT_name] (dwarf.rs:212-217, 367-373). *)
Definition last_name (attrs : list attr) : option str :=
  foldl (fun n a => match a with AtName s => Some s | _ => n end) None attrs.

(** The namespace of a namespace or type (dwarf.rs:218-229, 374-384); the outer [None] is an error. *)
Definition namespace_of (parent : option (list str)) (attrs : list attr) : option (option (list str)) :=
  match last_name attrs with
  | None => Some None
  | Some name => if utf8_valid name then Some (Some (default [] parent ++ [name])) else None
  end.

(** [get_subprogram_namespaces] (dwarf.rs:195-246) *)
Definition namespace_entry (stack : list (option (list str))) (offset : nat) (t : tag) (attrs : list attr)
    : option (list (nat * list str) * option (list str)) :=
  let parent := match stack with p :: _ => p | [] => None end in
  match t with
  | TagNamespace | TagStructure =>
      match namespace_of parent attrs with Some ns => Some ([], ns) | None => None end
  | TagSubprogram => Some (match parent with Some ns => [(offset, ns)] | None => [] end, None)
  | _ => Some ([], None)
  end.

Definition subprogram_namespaces (u : dw_unit) : option (gmap nat (list str)) :=
  match walk namespace_entry (un_entries u) [] with
  | Some l => Some (foldl (fun m e => <[e.1 := e.2]> m) ∅ l)
  | None => None
  end.

(** [unit_containing] (dwarf.rs:174-187). The offsets are in ascending order; [binary_search] gives the position of
    the offset or that of the first greater one. [None] is the error. *)
Definition search (offset : nat) (units : list dw_unit) : nat :=
  length (List.filter (fun u => Nat.ltb (un_offset u) offset) units).

Definition unit_containing (units : list dw_unit) (offset : nat) : option dw_unit :=
  match search offset units with
  | 0 => None
  | S i => units !! i
  end.

(** [entries_raw(Some(offset))] and [read_abbreviation]: the attributes of the entry at an offset. *)
Fixpoint entry_at (entries : list raw_entry) (offset : nat) : option (list attr) :=
  match entries with
  | [] => None
  | RawEntry o _ attrs _ :: entries => if Nat.eqb o offset then Some attrs else entry_at entries offset
  | RawNull :: entries => entry_at entries offset
  end.

(** [get_symbol_and_name] and [get_symbol_and_name_in_unit] (dwarf.rs:296-358). [resolve] is the recursive call for
    [DW_AT_specification]. *)
Definition names_at (namespaces : gmap nat (list str)) (resolve : die_ref -> option sym_and_name) (offset : nat)
    : list attr -> sym_and_name -> option sym_and_name :=
  fix go (attrs : list attr) (names : sym_and_name) : option sym_and_name :=
    match attrs with
    | [] => Some names
    | AtSpecification r :: _ => resolve r
    | AtLinkage s :: attrs => go attrs (SymAndName (Some s) (sn_debug names))
    | AtName s :: attrs =>
        if utf8_valid s
        then go attrs (SymAndName (sn_symbol names) (Some (DebugName (default [] (namespaces !! offset)) s)))
        else None
    | _ :: attrs => go attrs names
    end.

(** Where a reference points: the unit and the offset in it (dwarf.rs:302-314). The unit of the entry that has the
    reference plays no role: [u] is the unit that is being scanned. *)
Definition target_of (units : list dw_unit) (u : dw_unit) (r : die_ref) : option (dw_unit * nat) :=
  match r with
  | UnitRef o => Some (u, o)
  | InfoRef o =>
      match unit_containing units o with
      | Some v => if Nat.leb (un_offset v) o then Some (v, o - un_offset v) else None
      | None => None
      end
  | OtherRef => None
  end.

(** [depth] is [max_depth + 1]: with 0 the limit has been reached. *)
Fixpoint get_names (depth : nat) (units : list dw_unit) (u : dw_unit) (namespaces : gmap nat (list str))
    (r : die_ref) : option sym_and_name :=
  match depth with
  | 0 => None
  | S depth =>
      match target_of units u r with
      | None => None
      | Some (v, offset) =>
          match entry_at (un_entries v) offset with
          | None => None
          | Some attrs => names_at namespaces (get_names depth units u namespaces) offset attrs (SymAndName None None)
          end
      end
  end.

(** [FrameState] (dwarf.rs:504-508) *)
Record frame_state := FrameState {
  fs_names : sym_and_name; fs_namespace : option (list str); fs_call : call_loc }.

(** [namespace] (dwarf.rs:389-396) *)
Definition current_namespace (frames : list frame_state) : option (list str) :=
  match frames with f :: _ => fs_namespace f | [] => None end.

(** [InlinedFunctionScanner] (dwarf.rs:510-516) *)
Record inline_scan := InlineScan {
  is_names : sym_and_name; is_low : option nat; is_call : call_loc; is_start : option nat }.

(** [handle_attribute] (dwarf.rs:529-583) *)
Definition inline_attr (units : list dw_unit) (u : dw_unit) (namespaces : gmap nat (list str))
    (frames : list frame_state) (s : inline_scan) (a : attr) : option inline_scan :=
  let '(InlineScan names low call start) := s in
  match a with
  | AtLinkage n => Some (InlineScan (SymAndName (Some n) (sn_debug names)) low call start)
  | AtName n =>
      if utf8_valid n
      then Some (InlineScan (SymAndName (sn_symbol names)
                   (Some (DebugName (default [] (current_namespace frames)) n))) low call start)
      else None
  | AtOrigin r =>
      match get_names 11 units u namespaces r with
      | Some names => Some (InlineScan names low call start)
      | None => None
      end
  | AtCallFile f =>
      match f with
      | Some (dir, file) =>
          Some (InlineScan names low (CallLoc (cl_compdir call) dir (Some file) (cl_line call) (cl_column call)) start)
      | None => None
      end
  | AtCallLine n =>
      Some (InlineScan names low (CallLoc (cl_compdir call) (cl_directory call) (cl_filename call) n (cl_column call)) start)
  | AtCallColumn n =>
      Some (InlineScan names low (CallLoc (cl_compdir call) (cl_directory call) (cl_filename call) (cl_line call) n) start)
  | AtLowPc a => Some (InlineScan names a call (match start with Some _ => start | None => a end))
  | AtRanges first => Some (InlineScan names (match first with Some _ => first | None => low end) call start)
  | _ => Some s
  end.

Fixpoint inline_attrs (units : list dw_unit) (u : dw_unit) (namespaces : gmap nat (list str))
    (frames : list frame_state) (attrs : list attr) (s : inline_scan) : option inline_scan :=
  match attrs with
  | [] => Some s
  | a :: attrs =>
      match inline_attr units u namespaces frames s a with
      | Some s => inline_attrs units u namespaces frames attrs s
      | None => None
      end
  end.

Definition has_name (names : sym_and_name) : bool :=
  match names with SymAndName None None => false | _ => true end.

(** The loop of [get_inlined_function] (dwarf.rs:599-621); the outer [None] is a panic of the demangler. *)
Fixpoint find_caller (frames : list frame_state) (call : call_loc) : option (option (sym_and_name * call_loc)) :=
  match frames with
  | [] => Some None
  | f :: frames =>
      if has_name (fs_names f) then
        match (match sn_symbol (fs_names f) with Some s => is_look_through s | None => Some false end) with
        | None => None
        | Some true => find_caller frames (fs_call f)
        | Some false => Some (Some (fs_names f, call))
        end
      else find_caller frames call
  end.

(** [get_inlined_function] (dwarf.rs:585-622) *)
Definition inlined_function (frames : list frame_state) (s : inline_scan) : option (option inlined) :=
  if has_name (is_names s) then
    match is_low s, is_start s with
    | Some low, Some start =>
        if Nat.leb low 1 then Some None
        else match find_caller frames (is_call s) with
             | None => None
             | Some None => Some None
             | Some (Some (from, call)) => Some (Some (Inlined (BinLoc low start) from (is_names s) call))
             end
    | _, _ => Some None
    end
  else Some None.

(** [SymbolDebugInfoScanner] and its [handle_attribute] (dwarf.rs:416-449) *)
Record symbol_scan := SymbolScan {
  ss_name : option str; ss_linkage : option str; ss_line : option nat; ss_column : option nat;
  ss_file : option (option (option str * str)) }.

Definition symbol_attr (s : symbol_scan) (a : attr) : symbol_scan :=
  let '(SymbolScan name linkage line column file) := s in
  match a with
  | AtName n => SymbolScan (Some n) linkage line column file
  | AtLinkage n => SymbolScan name (Some n) line column file
  | AtDeclLine n => SymbolScan name linkage n column file
  | AtDeclColumn n => SymbolScan name linkage line n file
  | AtDeclFile f => SymbolScan name linkage line column (Some f)
  | _ => s
  end.

(** [get_debug_info] (dwarf.rs:451-493); the outer [None] is an error. *)
Definition debug_info (u : dw_unit) (frames : list frame_state) (s : symbol_scan)
    : option (option (str * sym_debug)) :=
  if match ss_name s with Some n => utf8_valid n | None => true end then
    match (match ss_linkage s with Some l => Some l | None => ss_name s end), ss_line s, ss_file s with
    | Some symbol, Some line, Some file =>
        match file with
        | None => None
        | Some (dir, path) =>
            Some (Some (symbol, SymDebug (compdir_of u) dir path line (ss_column s)
                                  (DebugName (default [] (current_namespace frames)) <$> ss_name s)))
        end
    | _, _, _ => Some None
    end
  else None.

(** What is found at an entry. *)
Inductive found := FoundInlined (f : inlined) | FoundSymbol (symbol : str) (d : sym_debug).

Definition no_call (u : dw_unit) : call_loc := CallLoc (compdir_of u) None None None None.

(** One entry (dwarf.rs:114-167). [start_top_level] sets what is not set yet (line 135). *)
Definition scan_entry (units : list dw_unit) (u : dw_unit) (namespaces : gmap nat (list str))
    (frames : list frame_state) (offset : nat) (t : tag) (attrs : list attr) : option (list found * frame_state) :=
  let fresh := InlineScan (SymAndName None None) None (no_call u) None in
  match t with
  | TagSubprogram | TagInlined | TagBlock | TagVariable =>
      match inline_attrs units u namespaces frames attrs fresh with
      | None => None
      | Some s =>
          match inlined_function frames s with
          | None => None
          | Some call =>
              match (if bool_decide (t = TagSubprogram \/ t = TagVariable)
                     then debug_info u frames (foldl symbol_attr (SymbolScan None None None None None) attrs)
                     else Some None) with
              | None => None
              | Some info =>
                  Some (match call with Some f => [FoundInlined f] | None => [] end ++
                        match info with Some (symbol, d) => [FoundSymbol symbol d] | None => [] end,
                        FrameState (is_names s) None (is_call s))
              end
          end
      end
  | TagNamespace | TagStructure =>
      match namespace_of (current_namespace frames) attrs with
      | Some ns => Some ([], FrameState (SymAndName None None) ns (no_call u))
      | None => None
      end
  | TagEnumeration | TagUnion | TagOther => Some ([], FrameState (SymAndName None None) None (no_call u))
  end.

Definition scan_unit (units : list dw_unit) (u : dw_unit) : option (list found) :=
  match subprogram_namespaces u with
  | Some namespaces => walk (scan_entry units u namespaces) (un_entries u) []
  | None => None
  end.

(** [scan] (dwarf.rs:92-172); [in_std] is [is_in_rust_std] (checker.rs:396-403). *)
Definition scan_units (in_std : str -> bool) (units : list dw_unit) : option (list found) :=
  flat_mapM (fun u => if in_std (compdir_of u) then Some [] else scan_unit units u) units.

(** [DebugArtifacts] (dwarf.rs:24-28) and [from_dwarf] (dwarf.rs:66-76). *)
Record artifacts := Artifacts { ar_symbols : gmap str sym_debug; ar_inlined : list inlined }.

Definition artifacts_of (found : list found) : artifacts :=
  Artifacts (foldl (fun m f => match f with FoundSymbol s d => <[s := d]> m | _ => m end) ∅ found)
            (omap (fun f => match f with FoundInlined i => Some i | _ => None end) found).

Definition from_dwarf (in_std : str -> bool) (units : list dw_unit) : option artifacts :=
  artifacts_of <$> scan_units in_std units.

(** [is_in_rust_std] (checker.rs:396-403), with [Path::starts_with]; the sysroot is an absolute path. *)
Definition in_rust_std (sysroot path : str) : bool :=
  starts_with (lit "/") path &&
  (path_starts_with (lit "/rustc/") path || path_starts_with (lit "/cargo/registry") path ||
   path_starts_with (lit "/rust/") path || path_starts_with sysroot path).
