(** What packages are charged with. *)
From Verif Require Import Base TextModel TextSpec DemangleModel DemangleSpec NamesModel NamesSpec ApiMapModel ApiMapSpec ConfigModel ProblemModel CheckerModel CheckerSpec GraphModel GraphSpec CollectModel.

(** ** Places *)

(** [r] is the path [p], seen from the directory [dir]. *)
Definition seen_from (dir p r : str) : Prop :=
  ((exists q, p = "/"%char :: q) /\ r = p) \/
  ((forall q, p <> "/"%char :: q) /\
   (dir = [] /\ r = p \/
    (exists b, dir = b ++ lit "/") /\ r = dir ++ p \/
    dir <> [] /\ (forall b, dir <> b ++ lit "/") /\ r = dir ++ lit "/" ++ p)).
Definition seen_from_opt (dir : str) (p : option str) (r : str) : Prop :=
  match p with Some p => seen_from dir p r | None => r = dir end.

(** Where a symbol is defined. *)
Definition defined_at (d : sym_debug) (l : src_loc) : Prop :=
  exists dir file, seen_from_opt (sd_compdir d) (sd_directory d) dir /\ seen_from dir (sd_path d) file /\
    l = SrcLoc file (sd_line d) (sd_column d).

(** The place of a piece of code: what the line table says, if it has a file and a line, and otherwise the
    definition of the function; for an inlined function the place of the call, if it has a line. *)
Inductive place : fetcher -> src_loc -> Prop :=
| place_frame file line column fallback :
    place (FrameWithFallback (Some (FrameLoc (Some file) (Some line) column)) fallback) (SrcLoc file line column)
| place_fallback frame fallback :
    (forall file line column, frame <> Some (FrameLoc (Some file) (Some line) column)) ->
    place (FrameWithFallback frame fallback) fallback
| place_call compdir directory filename line column dir file :
    seen_from_opt compdir directory dir -> seen_from_opt dir filename file ->
    place (InlinedCall (CallLoc compdir directory filename (Some line) column)) (SrcLoc file line column)
| place_known l : place (AlreadyResolved l) l.

(** The names in a symbol and in a debug name: those in its tokens (C18, C19). The last may be unfinished. *)
Definition names_of_symbol (s : str) (ns : list (list str)) (u : list str) : Prop :=
  is_utf8 s /\ exists ts, demangled s ts /\ names_of ts = Found ns u None.
Definition names_of_debug (d : debug_name) (ns : list (list str)) (u : list str) : Prop :=
  exists ts, produces nonmangled_next (NonMangled (dn_namespace d) (dn_name d)) ts /\ names_of ts = Found ns u None.

(** The length of a symbol, and of a debug name without its modules. *)
Definition name_length (s : sym_or_debug) (n : nat) : Prop :=
  match s with FromSymbol s => n = length s | FromDebug d => n = length (dn_name d) end.

(** The name of [a] is not longer than that of [b]. *)
Definition no_longer (a b : sym_or_debug) : Prop := forall n m, name_length a n -> name_length b m -> n <= m.

Section charges.
(** The APIs of a name (C01), the packages a source file belongs to, the binary. *)
Context (apis_for : list str -> gset str) (pkgs_of : str -> option (list pkg_id)) (bin_sel : crate_sel).

(** Something with this debug name and symbol has the API [api] because of [name]: a name in its debug name, or,
    if no name in the debug name has an API, a name in its symbol. *)
Definition debug_api (sn : sym_and_name) (name : list str) (api : str) : Prop :=
  exists d ns u, sn_debug sn = Some d /\ names_of_debug d ns u /\ name ∈ ns /\ api ∈ apis_for name.
Definition symbol_api (sn : sym_and_name) (name : list str) (api : str) : Prop :=
  exists s ns u, sn_symbol sn = Some s /\ names_of_symbol s ns u /\ name ∈ ns /\ api ∈ apis_for name.

Definition has_api (sn : sym_and_name) (name : list str) (source : sym_or_debug) (api : str) : Prop :=
  (debug_api sn name api /\ exists d, sn_debug sn = Some d /\ source = FromDebug d) \/
  ((forall n a, ~ debug_api sn n a) /\ symbol_api sn name api /\
   exists s, sn_symbol sn = Some s /\ source = FromSymbol s).

(** The reference [r], in code that belongs to package [pkg], makes use of [api] through [name]: what is
    referred to has the API, the name does not start with the name of the package, and the code that refers to it
    does not have the API itself. *)
Definition charged (r : reference) (pkg : pkg_id) (api : str) (name : list str) (source : sym_or_debug)
    (location : src_loc) : Prop :=
  has_api (rf_target r) name source api /\
  place (nd_fetcher (rf_from r)) location /\
  (exists pkgs, pkgs_of (sl_file location) = Some pkgs /\ pkg ∈ pkgs) /\
  (forall rest, name <> pi_name pkg :: rest) /\
  (forall n s, ~ has_api (nd_names (rf_from r)) n s api).

(** How something is shown: by its debug name, if it has one. *)
Definition shown_as (sn : sym_and_name) (x : sym_or_debug) : Prop :=
  match sn_debug sn with
  | Some d => x = FromDebug d
  | None => exists s, sn_symbol sn = Some s /\ x = FromSymbol s
  end.

(** The scope in which package [pkg] uses an API in this binary. *)
Definition scope_in (pkg : pkg_id) (s : scope) : Prop :=
  match cs_kind bin_sel with
  | Primary => s = All
  | BuildScript => pkg = cs_pkg bin_sel /\ s = Build \/ pkg <> cs_pkg bin_sel /\ s = FromBuild
  | TestCrate => pkg = cs_pkg bin_sel /\ s = Test \/ pkg <> cs_pkg bin_sel /\ s = FromTest
  end.

(** The names occurring in references. *)
Definition occurs_in (rs : list reference) (sn : sym_and_name) : Prop :=
  exists r, r ∈ rs /\ (sn = nd_names (rf_from r) \/ sn = rf_target r).

(** A symbol always comes with the same debug name. *)
Definition one_debug_name (symbols : list str) (rs : list reference) : Prop :=
  forall sn sn' s, occurs_in rs sn -> occurs_in rs sn' -> s ∈ symbols ->
    sn_symbol sn = Some s -> sn_symbol sn' = Some s -> sn_debug sn = sn_debug sn'.

(** Everything about a reference can be read: the names, the place, the package. *)
Definition readable_name (sn : sym_and_name) : Prop :=
  (exists x, shown_as sn x) /\
  (forall d, sn_debug sn = Some d -> exists ns, names_of_debug d ns []) /\
  (forall s, sn_symbol sn = Some s -> exists ns, names_of_symbol s ns []).
Definition readable (r : reference) : Prop :=
  readable_name (nd_names (rf_from r)) /\ readable_name (rf_target r) /\
  (exists l, place (nd_fetcher (rf_from r)) l /\ exists pkgs, pkgs_of (sl_file l) = Some pkgs) /\
  (forall n, rf_outer r = Some n -> exists l, place (nd_fetcher n) l).
End charges.

(** These are the APIs of names under these definitions (C01). *)
Definition classifies (defs : gmap str api_config) (apis : list str -> gset str) : Prop :=
  forall name api, api ∈ apis name <-> owned defs name api.

(** The file of the function into which the code making the reference was inlined. *)
Definition outer_file (r : reference) (o : option str) : Prop :=
  match rf_outer r with
  | None => o = None
  | Some n => exists l, place (nd_fetcher n) l /\ o = Some (sl_file l)
  end.

(** ** Exports *)

(** A symbol called [api::...] inside its crate, in a source file of package [pkg]. *)
Definition looks_like (pkgs_of : str -> option (list pkg_id)) (s : str) (d : sym_debug) (pkg : pkg_id) (api : str)
    : Prop :=
  module_is s api /\ exists l pkgs, defined_at d l /\ pkgs_of (sl_file l) = Some pkgs /\ pkg ∈ pkgs.

(** The symbol belongs to the crate of the package. *)
Definition own_symbol (s : str) (pkg : pkg_id) : Prop :=
  exists c, crate_of pkg c /\ crate_is s c.

(** ** References of object files *)

(** The symbol [s] and its debug name, if the debug information has one. *)
Definition named (info : gmap str sym_debug) (s : str) (sn : sym_and_name) : Prop :=
  sn_symbol sn = Some s /\ sn_debug sn = (info !! s) ≫= sd_name.

(** [r] is the reference from offset [off] of a section to the symbol [s]. The section starts with the symbol
    [first], which the debug information places at [a]. The debug information says which function is at that
    place, [nm], and which source line, [loc]; failing that it is the function [first] and where it is defined. *)
Definition reference_at (info : gmap str sym_debug) (first : obj_symbol) (a : nat) (d : sym_debug) (off : nat)
    (nm : option str) (loc : option frame_loc) (s : str) (r : reference) : Prop :=
  rf_bin r = BinLoc (a + off - os_address first) a /\
  named info s (rf_target r) /\
  named info (default (os_name first) nm) (nd_names (rf_from r)) /\
  (exists l, place (nd_fetcher (rf_from r)) l /\
     ((exists file line column, loc = Some (FrameLoc (Some file) (Some line) column) /\ l = SrcLoc file line column) \/
      (forall file line column, loc <> Some (FrameLoc (Some file) (Some line) column)) /\ defined_at d l)) /\
  match rf_outer r with
  | None => nm = Some (os_name first)
  | Some n => nm <> Some (os_name first) /\ named info (os_name first) (nd_names n) /\
              exists l, place (nd_fetcher n) l /\ defined_at d l
  end.

(** The sections that are examined: the first symbol is in the binary and has debug information. *)
Definition examined (o : obj_file) (bin : gmap str nat) (info : gmap str sym_debug) (sec : obj_section)
    (first : obj_symbol) (a : nat) (d : sym_debug) : Prop :=
  sec ∈ of_sections o /\ first_of (of_symbols o) (sc_index sec) first /\
  bin !! os_name first = Some a /\ info !! os_name first = Some d.
