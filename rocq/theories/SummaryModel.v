(** The summary of the permissions: /repo/src/summary.rs. *)
From Verif Require Import Base ApiMapModel ConfigModel.

(** summary.rs:62-64. The name is always a selector of the whole package; only the package's name is
    kept. *)
Record package_summary := PackageSummary { ps_name : str; ps_permissions : list str }.

(** [str::ends_with]. *)
Definition ends_with (p s : str) : bool := starts_with (rev p) (rev s).

(** [is_proc_macro_with_other_permissions] (summary.rs:67-73). *)
Definition proc_macro_with_others (p : package_summary) : bool :=
  existsb (starts_with (lit "proc_macro")) (ps_permissions p) &&
  existsb (fun x => negb (starts_with (lit "proc_macro") x) && negb (ends_with (lit "[build]") x))
    (ps_permissions p).

(** summary.rs:87-101, for one of the two selectors. *)
Definition section_permissions (c : package_config) (suffix : str) : list str :=
  (if pc_allow_proc_macro c then [lit "proc_macro" ++ suffix] else []) ++
  (if pc_allow_unsafe c then [lit "unsafe" ++ suffix] else []) ++
  (if pc_allow_extern c then [lit "extern" ++ suffix] else []) ++
  map (fun api => api ++ suffix) (pc_allow_apis c).

(** summary.rs:82-107 *)
Definition summarise (perms : permissions) (name : str) : package_summary :=
  let of sel suffix := match perms !! sel with
                       | Some c => section_permissions c suffix
                       | None => []
                       end in
  PackageSummary name (of (name, All) [] ++ of (name, Build) (lit "[build]")).

(** [sort_by], stable. *)
Fixpoint insert_summary (p : package_summary) (l : list package_summary) : list package_summary :=
  match l with
  | [] => [p]
  | q :: l' => if str_leb (ps_name p) (ps_name q) then p :: q :: l' else q :: insert_summary p l'
  end.
Definition sort_summaries (l : list package_summary) : list package_summary := foldr insert_summary [] l.

(** [Summary::new] (summary.rs:77-111). The index is a list; in the code it is a hash map. *)
Definition summary (idx : crate_index) (c : config) : list package_summary :=
  sort_summaries (map (fun p => summarise (cf_permissions c) (pk_name p)) idx).

(** ** Output *)

(** summary.rs:28-57 *)
Record summary_options := SummaryOptions {
  so_by_package : bool; so_by_permission : bool; so_impure_proc_macros : bool; so_counts : bool;
  so_full : bool; so_print_headers : bool; so_json : bool }.

(** [num_selected] (summary.rs:259-277). *)
Definition num_selected (o : summary_options) : nat :=
  if so_full o then 2
  else (if so_by_package o then 1 else 0) + (if so_counts o then 1 else 0) +
       (if so_by_permission o then 1 else 0) + (if so_impure_proc_macros o then 1 else 0).

(** [with_defaults] (summary.rs:239-256). *)
Definition with_defaults (o : summary_options) : summary_options :=
  let full := match num_selected o with 0 => true | _ => so_full o end in
  let headers := match num_selected o with 1 => so_print_headers o | _ => true end in
  SummaryOptions (full || so_by_package o) (full || so_by_permission o) (full || so_impure_proc_macros o)
    (full || so_counts o) full headers (so_json o).

(** summary.rs:197-206 and 214-222: a [BTreeMap] from permissions to the names of packages. *)
Definition by_permission (l : list package_summary) : gmap str (list str) :=
  foldl (fun m p => foldl (fun m perm => <[perm := default [] (m !! perm) ++ [ps_name p]]> m) m
                      (ps_permissions p)) ∅ l.

(** summary.rs:171-174, 188-193, 230-233. *)
Definition by_package (l : list package_summary) : gmap str (list str) :=
  foldl (fun m p => <[ps_name p := ps_permissions p]> m) ∅ l.

(** The JSON output (summary.rs:113-161 with 169-179, 187-194, 213-236): a map of maps of lists of
    strings. *)
Definition summary_json (o : summary_options) (l : list package_summary)
    : gmap str (gmap str (list str)) :=
  let o := with_defaults o in
  let m := ∅ in
  let m := if so_by_package o then <[lit "permissions_by_package" := by_package l]> m else m in
  let m := if so_by_permission o then <[lit "impure_proc_macros" := by_permission l]> m else m in
  let m := if so_impure_proc_macros o
           then <[lit "impure_proc_macros" := by_package (List.filter proc_macro_with_others l)]> m else m in
  if so_counts o then <[lit "permission_count" := by_package l]> m else m.

(** The sections of the human-readable output (summary.rs:117-155), each with whether its header is
    printed. *)
Inductive human_section :=
| HByPackage (l : list package_summary)        (* 163-167 *)
| HByPermission (m : gmap str (list str))      (* 196-211 *)
| HImpure (l : list package_summary)           (* 179-185 *)
| HCounts (packages without_permissions impure : nat).   (* 280-300 *)

Definition summary_counts (l : list package_summary) : human_section :=
  HCounts (length l)
    (length (List.filter (fun p => match ps_permissions p with [] => true | _ => false end) l))
    (length (List.filter proc_macro_with_others l)).

Definition summary_human (o : summary_options) (l : list package_summary) : list (bool * human_section) :=
  let o := with_defaults o in
  (if so_by_package o then [(so_print_headers o, HByPackage l)] else []) ++
  (if so_by_permission o then [(so_print_headers o, HByPermission (by_permission l))] else []) ++
  (if so_impure_proc_macros o
   then [(so_print_headers o, HImpure (List.filter proc_macro_with_others l))] else []) ++
  (if so_counts o then [(so_print_headers o, summary_counts l)] else []).
