(** Object files and what their relocations refer to.
    Source: /repo/src/symbol_graph.rs:111-129, 572-688.
    The crate [object], which reads the files, is not modelled: an object file is its symbol table
    and its sections. *)
From Verif Require Import Base NamesModel.

(** A symbol of an object file: its name (empty if it cannot be read, symbol_graph.rs:577), whether
    it is a definition, the section it lies in, and its offset there. *)
Record obj_symbol := ObjSymbol {
  os_name : str; os_definition : bool; os_section : option nat; os_address : nat }.

(** [RelocationTarget]: a symbol of the table, or something else. *)
Inductive rel_target := TargetSymbol (index : nat) | TargetOther.

(** A section: its index and its relocations with their offsets. *)
Record obj_section := ObjSection { sc_index : nat; sc_relocations : list (nat * rel_target) }.

(** Symbols are addressed by their position in the table; the entry of ELF's null symbol has no
    name. *)
Record obj_file := ObjFile { of_symbols : list obj_symbol; of_sections : list obj_section }.

(** [max_section_index] (symbol_graph.rs:574) *)
Definition max_section_index (o : obj_file) : nat := foldr Nat.max 0 (map sc_index (of_sections o)).

(** [SymbolInfo] (symbol_graph.rs:122-129) *)
Record symbol_info := SymbolInfo { si_symbol : str; si_offset : nat }.

(** [ObjectIndex::new] (symbol_graph.rs:573-598): the first symbol of each section. [None] is the
    panic of line 584. *)
Fixpoint index_symbols (bound : nat) (symbols : list obj_symbol) (infos : gmap nat symbol_info)
    : option (gmap nat symbol_info) :=
  match symbols with
  | [] => Some infos
  | s :: symbols =>
      if bool_decide (os_name s = []) || negb (os_definition s) then index_symbols bound symbols infos
      else match os_section s with
           | None => index_symbols bound symbols infos
           | Some i =>
               if Nat.leb i bound then
                 if match infos !! i with
                    | Some existing => Nat.ltb (os_address s) (si_offset existing)
                    | None => true
                    end
                 then index_symbols bound symbols (<[i := SymbolInfo (os_name s) (os_address s)]> infos)
                 else index_symbols bound symbols infos
               else None
           end
  end.

Definition object_index (o : obj_file) : option (gmap nat symbol_info) :=
  index_symbols (max_section_index o) (of_symbols o) ∅.

(** [SymbolOrSection] (symbol_graph.rs:673-676) *)
Inductive sym_or_sec := SsSymbol (s : str) | SsSection (i : nat).

(** The symbols of the linked binary with their addresses: [load_symbols] (symbol_graph.rs:679-688),
    given the names and addresses in the binary's symbol table. [None] is a panic of the demangler.
    A name that cannot be read is an error (line 681) and not modelled. *)
Fixpoint load_symbols (symbols : list (str * nat)) (addresses : gmap str nat) : option (gmap str nat) :=
  match symbols with
  | [] => Some addresses
  | (s, a) :: symbols =>
      match is_look_through s with
      | None => None
      | Some true => load_symbols symbols addresses
      | Some false => load_symbols symbols (<[s := a]> addresses)
      end
  end.

(** [get_symbol_or_section] (symbol_graph.rs:630-663); [None] is an error. *)
Definition section_or_first (o : obj_file) (infos : gmap nat symbol_info) (bin : gmap str nat)
    (i : nat) : option sym_or_sec :=
  if Nat.leb i (max_section_index o) then
    match infos !! i with
    | Some info => if bool_decide (is_Some (bin !! si_symbol info)) then Some (SsSymbol (si_symbol info))
                   else Some (SsSection i)
    | None => Some (SsSection i)
    end
  else None.

Definition get_symbol_or_section (o : obj_file) (infos : gmap nat symbol_info) (bin : gmap str nat)
    (t : rel_target) : option sym_or_sec :=
  match t with
  | TargetOther => None
  | TargetSymbol n =>
      match of_symbols o !! n with
      | None => None
      | Some s =>
          if negb (bool_decide (os_name s = [])) &&
             (bool_decide (is_Some (bin !! os_name s)) || bool_decide (os_section s = None))
          then Some (SsSymbol (os_name s))
          else match os_section s with
               | None => None
               | Some i => section_or_first o infos bin i
               end
      end
  end.

(** [section_by_index] of the crate [object]. *)
Definition section_by_index (o : obj_file) (i : nat) : option obj_section :=
  List.find (fun s => Nat.eqb (sc_index s) i) (of_sections o).

Inductive targets_result :=
| TOk (symbols : list str) (visited : gset nat)
| TError
| TFuel.

(** [add_target_symbols] (symbol_graph.rs:603-626); [fuel] bounds the depth of the recursion. *)
Fixpoint add_targets (fuel : nat) (o : obj_file) (infos : gmap nat symbol_info) (bin : gmap str nat)
    (t : rel_target) (symbols : list str) (visited : gset nat) : targets_result :=
  match fuel with
  | 0 => TFuel
  | S fuel =>
      match get_symbol_or_section o infos bin t with
      | None => TError
      | Some (SsSymbol s) => TOk (symbols ++ [s]) visited
      | Some (SsSection i) =>
          if bool_decide (i ∈ visited) then TOk symbols visited
          else
            match section_by_index o i with
            | None => TError
            | Some sec =>
                foldl (fun r rel =>
                         match r with
                         | TOk symbols visited => add_targets fuel o infos bin rel.2 symbols visited
                         | _ => r
                         end)
                  (TOk symbols ({[i]} ∪ visited)) (sc_relocations sec)
            end
      end
  end.

Definition target_symbols (o : obj_file) (infos : gmap nat symbol_info) (bin : gmap str nat)
    (t : rel_target) : targets_result :=
  add_targets (S (S (length (of_sections o)))) o infos bin t [] ∅.

(** [first_symbol] (symbol_graph.rs:666-670) *)
Definition first_symbol (infos : gmap nat symbol_info) (sec : obj_section) : option symbol_info :=
  infos !! sc_index sec.
