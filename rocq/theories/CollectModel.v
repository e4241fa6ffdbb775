(** Collecting API usages from references.
    Source: /repo/src/symbol_graph.rs:60-110, 155-570, 678-860; /repo/src/names.rs:19-41, 381-392.
    The readers of object files and of debug information ([object], [gimli], [addr2line]) are not modelled:
    what they say is input. Texts for [--debug], timings and the path of the binary in usages are left out. *)
From Verif Require Import Base TextModel DemangleModel NamesModel ApiMapModel ConfigModel ProblemModel.
From Verif Require Import CheckerModel DepsModel GraphModel.

(** [DebugName] and [Namespace] (names.rs:19-29) *)
Record debug_name := DebugName { dn_namespace : list str; dn_name : str }.
Global Instance debug_name_eq_dec : EqDecision debug_name.
Proof. solve_decision. Defined.

(** [SymbolAndName] (names.rs:31-35) *)
Record sym_and_name := SymAndName { sn_symbol : option str; sn_debug : option debug_name }.
Global Instance sym_and_name_eq_dec : EqDecision sym_and_name.
Proof. solve_decision. Defined.

(** [SymbolOrDebugName] (names.rs:37-41) and [NameSource] (symbol_graph.rs:784-788), which have the same two
    cases. *)
Inductive sym_or_debug := FromSymbol (s : str) | FromDebug (d : debug_name).
Global Instance sym_or_debug_eq_dec : EqDecision sym_or_debug.
Proof. solve_decision. Defined.

(** [symbol_or_debug_name] (names.rs:381-391); [None] is the error. *)
Definition symbol_or_debug_name (sn : sym_and_name) : option sym_or_debug :=
  match sn_debug sn with
  | Some d => Some (FromDebug d)
  | None => match sn_symbol sn with Some s => Some (FromSymbol s) | None => None end
  end.

(** [SourceLocation] (location.rs:9-14) *)
Record src_loc := SrcLoc { sl_file : str; sl_line : nat; sl_column : option nat }.
Global Instance src_loc_eq_dec : EqDecision src_loc.
Proof. solve_decision. Defined.

(** [BinLocation] (checker.rs:98-105) *)
Record bin_loc := BinLoc { bl_address : nat; bl_start : nat }.
Global Instance bin_loc_eq_dec : EqDecision bin_loc.
Proof. solve_decision. Defined.

(** [addr2line::Location] and its conversion (symbol_graph.rs:702-715) *)
Record frame_loc := FrameLoc { fl_file : option str; fl_line : option nat; fl_column : option nat }.
Definition from_frame (l : frame_loc) : option src_loc :=
  match fl_file l, fl_line l with
  | Some file, Some line => Some (SrcLoc file line (fl_column l))
  | _, _ => None
  end.

(** [CallLocation] (dwarf.rs:518-526) and its [location] (dwarf.rs:50-64); [None] is the error. *)
Record call_loc := CallLoc {
  cl_compdir : str; cl_directory : option str; cl_filename : option str;
  cl_line : option nat; cl_column : option nat }.

Definition push_opt (path : str) (o : option str) : str :=
  match o with Some p => path_join path p | None => path end.

Definition call_location (c : call_loc) : option src_loc :=
  match cl_line c with
  | None => None
  | Some line =>
      Some (SrcLoc (push_opt (push_opt (cl_compdir c) (cl_directory c)) (cl_filename c)) line (cl_column c))
  end.

(** [SymbolDebugInfo] (dwarf.rs:30-40) and [source_location] (dwarf.rs:405-414) *)
Record sym_debug := SymDebug {
  sd_compdir : str; sd_directory : option str; sd_path : str; sd_line : nat; sd_column : option nat;
  sd_name : option debug_name }.

Definition source_location (d : sym_debug) : src_loc :=
  SrcLoc (path_join (push_opt (sd_compdir d) (sd_directory d)) (sd_path d)) (sd_line d) (sd_column d).

(** [LocationFetcher] and [location] (symbol_graph.rs:547-570) *)
Inductive fetcher :=
| FrameWithFallback (frame : option frame_loc) (fallback : src_loc)
| InlinedCall (c : call_loc)
| AlreadyResolved (l : src_loc).

Definition fetch (f : fetcher) : option src_loc :=
  match f with
  | FrameWithFallback frame fallback =>
      Some (match frame with
            | Some l => match from_frame l with Some loc => loc | None => fallback end
            | None => fallback
            end)
  | InlinedCall c => call_location c
  | AlreadyResolved l => Some l
  end.

(** [Node] (symbol_graph.rs:542-545) *)
Record node := GraphNode { nd_names : sym_and_name; nd_fetcher : fetcher }.

(** The arguments of [process_reference] (symbol_graph.rs:393-401). *)
Record reference := Reference {
  rf_bin : bin_loc; rf_outer : option node; rf_from : node; rf_target : sym_and_name }.

(** ** Names *)

(** [Symbol::names] (symbol.rs:42-44) and [DebugName::names_iterator] (names.rs:84-91), read to the end:
    the names and the parts of the last, unfinished one. [None]: not UTF-8, an unsupported escape, a panic or no
    end. *)
Definition read_names (c : collected) : option (list (list str) * list str) :=
  match c with
  | Finished ts =>
      match names_of ts with
      | Found names unfinished None => Some (names, unfinished)
      | _ => None
      end
  | _ => None
  end.

Definition symbol_names (s : str) : option (list (list str) * list str) :=
  if utf8_valid s then read_names (collect demangle_next (S (length s)) (demangle_new s)) else None.

Definition debug_names (d : debug_name) : option (list (list str) * list str) :=
  read_names (collect nonmangled_next (S (length (dn_namespace d) + length (dn_name d)))
                (NonMangled (dn_namespace d) (dn_name d))).

(** What the callback of [names_and_apis_do] gets. *)
Record hit := Hit { ht_name : list str; ht_source : sym_or_debug; ht_apis : gset str }.

(** ** The usages *)

(** [ApiUsage] (checker.rs:84-97) *)
Record full_usage := FullUsage {
  fu_bin : bin_loc; fu_scope : scope; fu_location : src_loc; fu_outer : option src_loc;
  fu_from : sym_or_debug; fu_to : sym_or_debug; fu_to_name : list str; fu_source : sym_or_debug }.

(** [SingleApiUsage] (symbol_graph.rs:75-80) *)
Record single := Single { sg_pkg : pkg_id; sg_scope : scope; sg_api : str; sg_usage : full_usage }.

(** [ApiUsageGroupKey] and [group_key] (symbol_graph.rs:841-860) *)
Definition group_key : Type := pkg_id * scope * str * sym_or_debug * src_loc.
Global Instance scope_eq_dec' : EqDecision scope.
Proof. solve_decision. Defined.
Definition key_of (s : single) : group_key :=
  (sg_pkg s, sg_scope s, sg_api s, fu_from (sg_usage s), fu_location (sg_usage s)).

(** [entry(key).or_default().push(x)]; a hash map as an association list, in the order of first insertion. *)
Fixpoint push_group {K V : Type} `{EqDecision K} (m : list (K * list V)) (k : K) (v : V) : list (K * list V) :=
  match m with
  | [] => [(k, [v])]
  | (k', vs) :: m' => if decide (k = k') then (k', vs ++ [v]) :: m' else (k', vs) :: push_group m' k v
  end.

(** Loops that push to a list and may fail. *)
Definition flat_mapM {A B : Type} (f : A -> option (list B)) (l : list A) : option (list B) :=
  match mapM f l with Some ls => Some (mjoin ls) | None => None end.

(** [ApiUsages] (problem.rs:58-64) *)
Record out_usages := OutUsages { ou_pkg : pkg_id; ou_scope : scope; ou_api : str; ou_usages : list full_usage }.

(** The length by which the shortest target is chosen (symbol_graph.rs:477-480). *)
Definition source_length (s : sym_or_debug) : nat :=
  match s with FromSymbol s => length s | FromDebug d => length (dn_name d) end.

(** [min_by_key]: the first of the smallest. *)
Fixpoint min_by_key {A : Type} (key : A -> nat) (x : A) (l : list A) : A :=
  match l with
  | [] => x
  | y :: l => if Nat.ltb (key y) (key x) then min_by_key key y l else min_by_key key x l
  end.

Definition shortest (g : list single) : option single :=
  match g with
  | [] => None
  | x :: l => Some (min_by_key (fun u => source_length (fu_source (sg_usage u))) x l)
  end.

(** symbol_graph.rs:482-495 *)
Fixpoint push_output (out : list out_usages) (u : single) : list out_usages :=
  match out with
  | [] => [OutUsages (sg_pkg u) (sg_scope u) (sg_api u) [sg_usage u]]
  | o :: out' =>
      if decide (ou_pkg o = sg_pkg u /\ ou_api o = sg_api u)
      then OutUsages (ou_pkg o) (ou_scope o) (ou_api o) (ou_usages o ++ [sg_usage u]) :: out'
      else o :: push_output out' u
  end.

(** [emit_shortest_api_usages] (symbol_graph.rs:470-498); the order of the groups is that of a hash map. *)
Definition emit_shortest (groups : list (group_key * list single)) : list out_usages :=
  foldl (fun out g => match shortest g.2 with Some u => push_output out u | None => out end) [] groups.

(** The state of [ApiUsageCollector]: [symbol_has_no_apis] and [new_api_usages]. *)
Record collector := Collector {
  co_no_apis : gmap str bool;
  co_groups : list (group_key * list single) }.

Section collect.
(** [apis_for_name_iterator] (checker.rs:407-412), [pkg_ids_from_source_path] (checker.rs:365-392), the
    selector of the binary. *)
Context (apis_for : list str -> gset str) (pkgs_of : str -> option (list pkg_id)) (bin_sel : crate_sel).

(** The loops of [names_and_apis_do] (symbol_graph.rs:739-769). A name that is not finished and has APIs is an
    error of [create_name] (names.rs:165-179). *)
Definition name_hits (source : sym_or_debug) (r : option (list (list str) * list str)) : option (list hit) :=
  match r with
  | None => None
  | Some (names, unfinished) =>
      if bool_decide (apis_for unfinished = ∅)
      then Some (omap (fun name => if bool_decide (apis_for name = ∅) then None
                                   else Some (Hit name source (apis_for name))) names)
      else None
  end.

(** [names_and_apis_do] (symbol_graph.rs:721-781), with the calls of the callback as result. *)
Definition names_and_apis (no_apis : gmap str bool) (sn : sym_and_name) : option (list hit * gmap str bool) :=
  if match sn_symbol sn with Some s => default false (no_apis !! s) | None => false end
  then Some ([], no_apis)
  else
    match (match sn_debug sn with Some d => name_hits (FromDebug d) (debug_names d) | None => Some [] end) with
    | None => None
    | Some [] =>
        match sn_symbol sn with
        | None => Some ([], no_apis)
        | Some s =>
            match name_hits (FromSymbol s) (symbol_names s) with
            | None => None
            | Some [] => Some ([], if bool_decide (is_Some (no_apis !! s)) then <[s := true]> no_apis else no_apis)
            | Some hits => Some (hits, no_apis)
            end
        end
    | Some hits => Some (hits, no_apis)
    end.

(** One usage (symbol_graph.rs:439-458); [None] is an error. *)
Definition make_usage (r : reference) (location : src_loc) (h : hit) (pkg : pkg_id) (api : str) : option single :=
  match (match rf_outer r with
         | None => Some None
         | Some n => match fetch (nd_fetcher n) with Some l => Some (Some l) | None => None end
         end),
        symbol_or_debug_name (nd_names (rf_from r)), symbol_or_debug_name (rf_target r) with
  | Some outer, Some from, Some to =>
      let sc := determine_scope (bool_decide (pkg = cs_pkg bin_sel)) (cs_kind bin_sel) in
      Some (Single pkg sc api (FullUsage (rf_bin r) sc location outer from to (ht_name h) (ht_source h)))
  | _, _, _ => None
  end.

(** The callback (symbol_graph.rs:415-466) for one hit. *)
Definition hit_usages (r : reference) (from_apis : gset str) (location : src_loc) (pkgs : list pkg_id) (h : hit)
    : option (list single) :=
  flat_mapM (fun pkg =>
      if name_starts_with (ht_name h) (pi_name pkg) then Some []
      else mapM (make_usage r location h pkg)
             (List.filter (fun api => negb (bool_decide (api ∈ from_apis))) (elements (ht_apis h)))) pkgs.

(** All usages of a reference, given the names with APIs. *)
Definition reference_usages (r : reference) (from_hits hits : list hit) : option (list single) :=
  match hits with
  | [] => Some []
  | _ =>
      match fetch (nd_fetcher (rf_from r)) with
      | None => None
      | Some location =>
          match pkgs_of (sl_file location) with
          | None => None
          | Some pkgs => flat_mapM (hit_usages r (⋃ (map ht_apis from_hits)) location pkgs) hits
          end
      end
  end.

(** [process_reference] (symbol_graph.rs:393-468) *)
Definition process_reference (c : collector) (r : reference) : option collector :=
  match names_and_apis (co_no_apis c) (nd_names (rf_from r)) with
  | None => None
  | Some (from_hits, no_apis) =>
      match names_and_apis no_apis (rf_target r) with
      | None => None
      | Some (hits, no_apis) =>
          match reference_usages r from_hits hits with
          | None => None
          | Some us => Some (Collector no_apis (foldl (fun m u => push_group m (key_of u) u) (co_groups c) us))
          end
      end
  end.

Fixpoint process_references (c : collector) (rs : list reference) : option collector :=
  match rs with
  | [] => Some c
  | r :: rs => match process_reference c r with Some c => process_references c rs | None => None end
  end.

(** The usages of a binary: symbol_graph.rs:184-201, 204-225, 231-238, given its references. *)
Definition collect_usages (debug_symbols : list str) (rs : list reference) : option (list out_usages) :=
  match process_references (Collector (list_to_map (map (fun s => (s, false)) debug_symbols)) []) rs with
  | Some c => Some (emit_shortest (co_groups c))
  | None => None
  end.

End collect.

(** ** The references of a binary *)

(** What the debug information says about an address (addr2line, symbol_graph.rs:341-345): the innermost
    function's name and place; [None] is an error. *)
Notation frames := (nat -> option (option str * option frame_loc)).

(** [get_symbol_and_name] (symbol_graph.rs:690-699) *)
Definition get_symbol_and_name (info : gmap str sym_debug) (s : str) : sym_and_name :=
  SymAndName (Some s) (match info !! s with Some d => sd_name d | None => None end).

(** One relocation (symbol_graph.rs:329-388). Addresses are not bounded; the subtraction of line 340 does not
    underflow if the first symbol of a section is at its start. *)
Definition relocation_references (o : obj_file) (infos : gmap nat symbol_info) (bin : gmap str nat)
    (info : gmap str sym_debug) (fr : frames) (first : symbol_info) (address : nat) (d : sym_debug)
    (rel : nat * rel_target) : option (list reference) :=
  match target_symbols o infos bin rel.2 with
  | TOk targets _ =>
      let place := address + rel.1 - si_offset first in
      match fr place with
      | None => None
      | Some (name, loc) =>
          let from_symbol := match name with Some s => s | None => si_symbol first end in
          let from := GraphNode (get_symbol_and_name info from_symbol)
                        (FrameWithFallback loc (source_location d)) in
          let outer := if bool_decide (name = Some (si_symbol first)) then None
                       else Some (GraphNode (get_symbol_and_name info (si_symbol first))
                                    (AlreadyResolved (source_location d))) in
          Some (map (fun t => Reference (BinLoc place address) outer from (get_symbol_and_name info t)) targets)
      end
  | _ => None
  end.

(** One section (symbol_graph.rs:299-328). *)
Definition section_references (o : obj_file) (infos : gmap nat symbol_info) (bin : gmap str nat)
    (info : gmap str sym_debug) (fr : frames) (sec : obj_section) : option (list reference) :=
  match first_symbol infos sec with
  | None => Some []
  | Some first =>
      match bin !! si_symbol first, info !! si_symbol first with
      | Some address, Some d =>
          flat_mapM (relocation_references o infos bin info fr first address d) (sc_relocations sec)
      | _, _ => Some []
      end
  end.

(** [process_object_file_bytes] (symbol_graph.rs:288-391); [None] is an error or a panic. *)
Definition object_references (bin : gmap str nat) (info : gmap str sym_debug) (fr : frames) (o : obj_file)
    : option (list reference) :=
  match object_index o with
  | None => None
  | Some infos => flat_mapM (section_references o infos bin info fr) (of_sections o)
  end.

(** [InlinedFunction] (dwarf.rs:43-48) *)
Record inlined := Inlined { in_bin : bin_loc; in_from : sym_and_name; in_to : sym_and_name; in_call : call_loc }.

(** symbol_graph.rs:204-225 *)
Definition inlined_reference (f : inlined) : reference :=
  Reference (in_bin f) None (GraphNode (in_from f) (InlinedCall (in_call f))) (in_to f).

(** ** Exports *)

(** [find_possible_exports] (symbol_graph.rs:500-539). The symbols come in the order of a hash map. [None] is
    a panic of the demangler. *)
Fixpoint exports_of_packages (symbol_crate : option str) (api symbol : str) (pkgs : list pkg_id)
    (found : list (pkg_id * str)) : list possible_export * list (pkg_id * str) :=
  match pkgs with
  | [] => ([], found)
  | pkg :: pkgs =>
      if bool_decide ((pkg, api) ∈ found) then exports_of_packages symbol_crate api symbol pkgs found
      else
        let '(es, found') := exports_of_packages symbol_crate api symbol pkgs ((pkg, api) :: found) in
        (if bool_decide (symbol_crate = Some (CheckerModel.crate_name pkg))
         then PossibleExport pkg api symbol :: es else es, found')
  end.

Fixpoint find_exports (pkgs_of : str -> option (list pkg_id)) (apis : list str)
    (symbols : list (str * sym_debug)) (found : list (pkg_id * str)) : option (list possible_export) :=
  match symbols with
  | [] => Some []
  | (s, d) :: symbols =>
      match module_name s with
      | None => None
      | Some None => find_exports pkgs_of apis symbols found
      | Some (Some m) =>
          if mem_str m apis then
            let pkgs := match pkgs_of (sl_file (source_location d)) with Some l => l | None => [] end in
            match pkgs with
            | [] => find_exports pkgs_of apis symbols found
            | _ =>
                match NamesModel.crate_name s with
                | None => None
                | Some c =>
                    let '(es, found') := exports_of_packages c m s pkgs found in
                    match find_exports pkgs_of apis symbols found' with
                    | Some rest => Some (es ++ rest)
                    | None => None
                    end
                end
            end
          else find_exports pkgs_of apis symbols found
      end
  end.

Definition find_possible_exports (pkgs_of : str -> option (list pkg_id)) (apis : list str)
    (symbols : list (str * sym_debug)) : option (list possible_export) :=
  find_exports pkgs_of apis symbols [].

(** ** Scanning *)

(** What the readers find in a binary and its object files: the symbols with debug information in the order of
    the hash map, and the references, those of inlined functions first. *)
Record facts := Facts { fa_debug : list (str * sym_debug); fa_references : list reference }.

(** [ApiUsages] as the checker sees them; [enc] stands for the parts that it only passes on. *)
Definition to_api_usage (enc : full_usage -> nat) (u : full_usage) : api_usage :=
  ApiUsage (fu_to_name u) (sl_file <$> fu_outer u) (enc u).
Definition to_api_usages (enc : full_usage -> nat) (o : out_usages) : api_usages :=
  ApiUsages (ou_pkg o) (ou_scope o) (ou_api o) (map (to_api_usage enc) (ou_usages o)).

(** [scan_objects] (symbol_graph.rs:131-240). Nothing is ever added to [base_problems]. *)
Definition graph_scan (env : environment) (enc : full_usage -> nat) (read : CheckerModel.link_info -> option facts)
    : scanner :=
  fun ck li =>
    let apis := rc_apis (cf_raw (ck_config ck)) in
    match read li, load_apis (map_to_list apis) with
    | Some f, Some t =>
        match collect_usages (am_get t) (pkg_ids_for_source env ck) (li_sel li) (map fst (fa_debug f))
                (fa_references f),
              find_possible_exports (pkg_ids_for_source env ck) (map fst (map_to_list apis)) (fa_debug f) with
        | Some out, Some exports => Some (ScanOutputs [] (map (to_api_usages enc) out) exports)
        | _, _ => None
        end
    | _, _ => None
    end.
