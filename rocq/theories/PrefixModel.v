(** The paths that all usages of a problem share: /repo/src/checker/common_prefix.rs. *)
From Verif Require Import Base ApiMapModel ConfigModel ProblemModel CollectModel.

(** The names that [next_name] goes through (common_prefix.rs:40-50, 58); the last, unfinished one is
    one of them. [None] is an error. *)
Definition usage_names (x : sym_or_debug) : option (list (list str)) :=
  match (match x with FromSymbol s => symbol_names s | FromDebug d => debug_names d end) with
  | Some (names, unfinished) => Some (names ++ [unfinished])
  | None => None
  end.

(** The loop over the parts of a name (common_prefix.rs:59-63). *)
Fixpoint insert_prefixes (parts name : list str) (prefixes : gset (list str)) : gset (list str) :=
  match name with
  | [] => prefixes
  | part :: name' =>
      let parts := parts ++ [part] in
      insert_prefixes parts name' ({[parts]} ∪ prefixes)
  end.

(** [CommonPrefixChecker] (common_prefix.rs:33-37). *)
Record prefix_checker := PrefixChecker { pc_num : nat; pc_common : gset (list str) }.

(** [check_names] (common_prefix.rs:53-72). *)
Definition check_names (c : prefix_checker) (names : list (list str)) : prefix_checker :=
  let prefixes := fold_left (fun s name => insert_prefixes [] name s) names ∅ in
  PrefixChecker (S (pc_num c)) (if Nat.eqb (pc_num c) 0 then prefixes else pc_common c ∩ prefixes).

(** The loop of [common_prefixes] with [check_usage] (common_prefix.rs:25-27, 40-51), given which of the
    two names of each usage is meant. *)
Fixpoint check_usages (c : prefix_checker) (l : list sym_or_debug) : option prefix_checker :=
  match l with
  | [] => Some c
  | x :: l' =>
      match usage_names x with
      | Some names => check_usages (check_names c names) l'
      | None => None
      end
  end.

(** [common_prefixes] (common_prefix.rs:22-31). *)
Definition common_prefixes (l : list sym_or_debug) : option (list str) :=
  match check_usages (PrefixChecker 0 ∅) l with
  | Some c => Some (sort_strs (map (join (lit "::")) (elements (pc_common c))))
  | None => None
  end.

(** [common_from_prefixes], [common_to_prefixes] (common_prefix.rs:12-20). The two names of a usage are
    not part of [api_usage]: [ends] gives the name from which ([true]) and to which it refers. *)
Definition prefixes_of (ends : bool -> api_usage -> sym_or_debug) (from : bool) (l : list api_usage)
    : option (list str) :=
  common_prefixes (map (ends from) l).
