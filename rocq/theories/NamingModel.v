(** How names and the details of a use are written.
    Sources: /repo/src/names.rs:388-441, /repo/src/symbol.rs:89-98, /repo/src/ui/full_term/problems_ui.rs:526-550, 1007-1018. *)
From Verif Require Import Base CollectModel.

(** [Display] of [Name] (names.rs:388-393). *)
Definition name_display (parts : list str) : str := join (lit "::") parts.

(** [Display] of [Namespace] (names.rs:412-425): the loop with its flag. *)
Definition add_part (s : str * bool) (p : str) : str * bool := (s.1 ++ (if s.2 then [] else lit "::") ++ p, false).
Definition namespace_display (parts : list str) : str := (foldl add_part ([], true) parts).1.

(** [Display] of [DebugName] (names.rs:427-435). *)
Definition debug_display (d : debug_name) : str :=
  namespace_display (dn_namespace d) ++ (if bool_decide (dn_namespace d = []) then [] else lit "::") ++ dn_name d.

(** [Display] of [SymbolOrDebugName] (names.rs:437-444); how a symbol is written (symbol.rs:89-98, with the library rustc-demangle) is
    a parameter. *)
Definition either_display (symbol : str -> str) (n : sym_or_debug) : str :=
  match n with FromSymbol s => symbol s | FromDebug d => debug_display d end.

(** [details] of an [ApiUsage] (problems_ui.rs:1012-1018). *)
Definition use_details (symbol : str -> str) (from to : sym_or_debug) (matched : list str) : list (str * str) :=
  [(lit "From", either_display symbol from); (lit "To", either_display symbol to); (lit "Matched name", name_display matched)].

(** The lines of [render_usage_details] (problems_ui.rs:532-544), as key with padding and value; [None] is the overflow of a
    subtraction, with which the program panics. *)
Definition details_lines (details : list (str * str)) : option (list (str * str)) :=
  let width := match map (fun d => length (fst d)) details with
               | [] => 5
               | l => foldr Nat.max 0 l
               end in
  mapM (fun d : str * str =>
          if Nat.ltb width (length d.1) then None
          else Some (d.1 ++ lit " " ++ repeat " "%char (width - length d.1), d.2)) details.
