(** The checker's state and the requests it handles.
    Sources: /repo/src/checker.rs, /repo/src/main.rs:565-606,
    /repo/src/symbol_graph.rs:241-251. *)
From Verif Require Import Base ApiMapModel ConfigModel ProblemModel.

(** [CrateInfo] (checker.rs:74-82). *)
Record crate_info := CrateInfo { ci_allowed : gset str; ci_unused : gset str }.
Definition crate_info_default : crate_info := CrateInfo ∅ ∅.

(** [LinkInfo] (link_info.rs:10-17); paths and flags are one opaque value. *)
Record link_info := LinkInfo { li_sel : crate_sel; li_rest : nat }.

Global Instance link_info_eq_dec : EqDecision link_info.
Proof. solve_decision. Defined.

(** What the checker needs from its surroundings and never changes during a run:
    the crate index and the sysroot. *)
Record environment := Environment {
  en_index : crate_index;
  en_transitive_deps : pkg_id -> option (gset str);   (* crate_index.rs:218-220 *)
  en_lib_owner : str -> option pkg_id;                (* crate_index.rs:223-225 *)
  en_package_for_path : str -> option pkg_id;         (* crate_index.rs:207-214 *)
  en_in_rust_std : str -> bool }.                     (* checker.rs:396-403 *)

(** [Checker] (checker.rs:46-72). The API trie is a function of the configuration
    (see ApiMapModel.v); paths, timings and backtracers are left out. *)
Record checker := Checker {
  ck_infos : gmap perm_sel crate_info;
  ck_config : config;
  ck_paths : gmap str (list pkg_id);
  ck_outstanding : list link_info }.

Definition empty_raw : raw_config :=
  RawConfig 0 false [] ∅ ∅ sandbox_default sandbox_default.

(** [Checker::new] (checker.rs:107-131); [Config::default()]. *)
Definition checker_init : checker := Checker ∅ (Config empty_raw ∅ ∅) ∅ [].

(** ** update_config (checker.rs:195-214) *)

Definition allow_own (i : crate_info) (api : str) : crate_info :=
  if bool_decide (api ∈ ci_allowed i) then i
  else CrateInfo ({[api]} ∪ ci_allowed i) ({[api]} ∪ ci_unused i).

(** checker.rs:197-204 *)
Definition add_own (infos : gmap perm_sel crate_info) (e : perm_sel * package_config)
    : gmap perm_sel crate_info :=
  <[e.1 := foldl allow_own (default crate_info_default (infos !! e.1)) (pc_allow_apis e.2)]> infos.

Definition allow_inherited (i : crate_info) (api : str) : crate_info :=
  CrateInfo ({[api]} ∪ ci_allowed i) (ci_unused i).

(** checker.rs:208-213 *)
Definition add_inherited (infos : gmap perm_sel crate_info) (e : perm_sel * package_config)
    : gmap perm_sel crate_info :=
  <[e.1 := foldl allow_inherited (default crate_info_default (infos !! e.1))
             (pc_allow_apis e.2)]> infos.

Definition update_config (ck : checker) (c : config) : checker :=
  let infos := foldl add_own (ck_infos ck) (map_to_list (cf_permissions_no_inheritance c)) in
  let infos := foldl add_inherited infos (map_to_list (cf_permissions c)) in
  Checker infos c (ck_paths ck) (ck_outstanding ck).

(** ** api_used (checker.rs:415-498) *)

(** [PackageId::crate_name] (crate_index.rs:271-277). *)
Definition crate_name (p : pkg_id) : str :=
  map (fun c => if Ascii.eqb c "-"%char then "_"%char else c) (pi_name p).

(** [opt_pkg_ids_from_source_path] (checker.rs:373-392). *)
Definition pkg_ids_for_source (env : environment) (ck : checker) (path : str)
    : option (list pkg_id) :=
  match ck_paths ck !! path with
  | Some ids => Some ids
  | None =>
      if en_in_rust_std env path then Some []
      else match en_package_for_path env path with
           | Some p => Some [p]
           | None => None
           end
  end.

(** [Name::starts_with] (names.rs:48-52). *)
Definition name_starts_with (name : list str) (prefix : str) : bool :=
  match name with
  | n :: _ => str_eqb prefix n
  | [] => false
  end.

(** [is_to_name_from_outer_location] (checker.rs:485-498); [None] is an error. *)
Definition to_name_from_outer (env : environment) (ck : checker) (u : api_usage)
    : option bool :=
  match us_outer u with
  | None => Some false
  | Some path =>
      match pkg_ids_for_source env ck path with
      | None => None
      | Some ids => Some (existsb (fun p => name_starts_with (us_to_name u) (crate_name p)) ids)
      end
  end.

(** [mark_parent_allow_apis_used] (checker.rs:594-602); the recursion is over the
    at most two proper ancestors. *)
Definition clear_unused (api : str) (sel : perm_sel) (infos : gmap perm_sel crate_info)
    : gmap perm_sel crate_info :=
  match infos !! sel with
  | Some i => <[sel := CrateInfo (ci_allowed i) (ci_unused i ∖ {[api]})]> infos
  | None => infos
  end.

Fixpoint mark_parents (fuel : nat) (api : str) (sel : perm_sel)
    (infos : gmap perm_sel crate_info) : gmap perm_sel crate_info :=
  match fuel with
  | 0 => infos
  | S fuel =>
      match parent_scope sel.2 with
      | None => infos
      | Some p => mark_parents fuel api (sel.1, p) (clear_unused api (sel.1, p) infos)
      end
  end.

(** Which group a disallowed usage goes to (checker.rs:437-465). *)
Inductive placement := OnTree | OffTree (p : pkg_id) | Ignored.

Definition place_usage (env : environment) (ck : checker) (pkg : pkg_id) (u : api_usage)
    : option placement :=
  match en_transitive_deps env pkg with
  | None => Some OnTree
  | Some deps =>
      match us_to_name u with
      | [] => Some OnTree
      | first :: _ =>
          if bool_decide (first ∈ deps) then Some OnTree
          else match en_lib_owner env first with
               | None => Some OnTree
               | Some owner =>
                   match to_name_from_outer env ck u with
                   | None => None
                   | Some true => Some Ignored
                   | Some false => Some (OffTree owner)
                   end
               end
      end
  end.

(** The [FxHashMap] of off-tree usages as an association list; its iteration order
    is not specified, here it is the order of first insertion. *)
Fixpoint push_off_tree (m : list (pkg_id * list api_usage)) (p : pkg_id) (u : api_usage)
    : list (pkg_id * list api_usage) :=
  match m with
  | [] => [(p, [u])]
  | (q, us) :: m' =>
      if bool_decide (q = p) then (q, us ++ [u]) :: m' else (q, us) :: push_off_tree m' p u
  end.

Definition push_usage (acc : list api_usage * list (pkg_id * list api_usage)) (u : api_usage)
    (p : placement) : list api_usage * list (pkg_id * list api_usage) :=
  match p with
  | OnTree => (acc.1 ++ [u], acc.2)
  | OffTree o => (acc.1, push_off_tree acc.2 o u)
  | Ignored => acc
  end.

Fixpoint partition_usages (env : environment) (ck : checker) (pkg : pkg_id)
    (us : list api_usage) (acc : list api_usage * list (pkg_id * list api_usage))
    : option (list api_usage * list (pkg_id * list api_usage)) :=
  match us with
  | [] => Some acc
  | u :: us' =>
      match place_usage env ck pkg u with
      | None => None
      | Some p => partition_usages env ck pkg us' (push_usage acc u p)
      end
  end.

Definition is_allowed (ck : checker) (sel : perm_sel) (api : str) : bool :=
  match ck_infos ck !! sel with
  | Some i => bool_decide (api ∈ ci_allowed i)
  | None => false
  end.

Definition set_infos (ck : checker) (infos : gmap perm_sel crate_info) : checker :=
  Checker infos (ck_config ck) (ck_paths ck) (ck_outstanding ck).

(** [api_used] (checker.rs:415-481). [None] is an error. *)
Definition api_used (env : environment) (ck : checker) (u : api_usages)
    : checker * option (list problem) :=
  let sel := usages_perm_sel u in
  if is_allowed ck sel (au_api u) then
    (set_infos ck (mark_parents 5 (au_api u) sel (clear_unused (au_api u) sel (ck_infos ck))),
     Some [])
  else
    match partition_usages env ck (au_pkg u) (au_usages u) ([], []) with
    | None => (ck, None)
    | Some (on_tree, off_tree) =>
        (ck, Some (map (fun e => POffTreeApiUsage (with_usages u e.2) e.1) off_tree ++
                   match on_tree with
                   | [] => []
                   | _ => [PDisallowedApiUsage (with_usages u on_tree)]
                   end))
    end.

(** ** Other checks *)

(** [verify_build_script_permitted] (checker.rs:352-363). *)
Definition verify_build_script_permitted (ck : checker) (p : pkg_id) : list problem :=
  if rc_explicit_build_scripts (cf_raw (ck_config ck)) then
    match ck_infos ck !! (pi_name p, Build) with
    | Some _ => []
    | None => [PUsesBuildScript p]
    end
  else [].

(** [base_problems] (checker.rs:217-230). *)
Definition base_problems (env : environment) (ck : checker) : list problem :=
  omap (fun p =>
    if pk_is_proc_macro p then
      if match cf_permissions (ck_config ck) !! (pk_name p, All) with
         | Some c => pc_allow_proc_macro c
         | None => false
         end
      then None else Some (PIsProcMacro (PkgId (pk_name p) (pk_version p)))
    else None) (en_index env).

(** A symbol that looks like an exported API (problem.rs:93-98). *)
Record possible_export := PossibleExport {
  pe_pkg : pkg_id; pe_api : str; pe_symbol : str }.

(** [possible_exported_api_problems] (checker.rs:560-582). *)
Definition possible_export_problem (c : config) (p : possible_export) : list problem :=
  let name := pi_name (pe_pkg p) in
  if match cf_permissions c !! (name, All) with
     | Some pc => match pc_import pc with Some _ => true | None => false end
     | None => false
     end then []
  else if match rc_apis (cf_raw c) !! pe_api p with
          | Some a => mem_str name (ac_no_auto_detect a) ||
                      mem_str (name ++ lit "::" ++ pe_api p) (ac_include a)
          | None => false
          end then []
  else [PPossibleExportedApi (pe_pkg p) (pe_api p) (pe_symbol p)].

(** [check_unused] (checker.rs:500-532); [None] is the error of line 502. *)
Definition unused_problem (env : environment) (e : perm_sel * crate_info) : list problem :=
  (if bool_decide (e.1 ∈ permission_selectors (en_index env)) then []
   else [PUnusedPackageConfig e.1]) ++
  (if bool_decide (ci_unused e.2 = ∅) then []
   else [PUnusedAllowApi e.1 (elements (ci_unused e.2))]).

Definition unused_sandbox_problem (e : perm_sel * package_config) : list problem :=
  match sb_kind (pc_sandbox e.2), e.1.2 with
  | None, _ | _, Build | _, Test => []
  | Some _, _ => [PUnusedSandboxConfiguration e.1]
  end.

Definition check_unused (env : environment) (ck : checker) : option (list problem) :=
  match ck_outstanding ck with
  | _ :: _ => None
  | [] =>
      Some (concat (map (unused_problem env) (map_to_list (ck_infos ck))) ++
            concat (map unused_sandbox_problem
                      (map_to_list (cf_permissions_no_inheritance (ck_config ck)))))
  end.

(** [check_for_new_config_version] (checker.rs:534-540). *)
Definition check_for_new_config_version (ck : checker) : list problem :=
  let version := rc_version (cf_raw (ck_config ck)) in
  if Z.ltb version max_version then [PNewConfigVersionAvailable (version + 1)] else [].

(** ** Scanning and the request loop *)

(** [ScanOutputs] (symbol_graph.rs): what scanning the objects of a linker
    invocation yields; [so_apis] is filled in by checker.rs:333. *)
Record scan_outputs := ScanOutputs {
  so_base : list problem;
  so_usages : list api_usages;
  so_possible : list possible_export }.

(** [CheckState::graph_outputs] (main.rs:565-568) with the API definitions it was
    computed for. *)
Notation check_state := (option (scan_outputs * gmap str api_config)).

(** [ScanOutputs::problems] (symbol_graph.rs:242-250). *)
Fixpoint report_usages (env : environment) (ck : checker) (us : list api_usages)
    (acc : list problem) : checker * option (list problem) :=
  match us with
  | [] => (ck, Some acc)
  | u :: us' =>
      match api_used env ck u with
      | (ck', None) => (ck', None)
      | (ck', Some ps) => report_usages env ck' us' (acc ++ ps)
      end
  end.

Definition scan_problems (env : environment) (ck : checker) (o : scan_outputs)
    : checker * option (list problem) :=
  match report_usages env ck (so_usages o) (so_base o) with
  | (ck', None) => (ck', None)
  | (ck', Some ps) =>
      (ck', Some (ps ++ concat (map (possible_export_problem (ck_config ck')) (so_possible o))))
  end.

(** Scanning object files is a parameter: for a checker state and a linker
    invocation it yields the outputs or an error. *)
Notation scanner := (checker -> link_info -> option scan_outputs).

(** [check_object_paths] (checker.rs:316-342). The last component of the result is
    the invocation that was scanned, if any. *)
Definition check_object_paths (env : environment) (scan : scanner) (ck : checker)
    (li : link_info) (cs : check_state)
    : checker * check_state * option (list problem) * option link_info :=
  let cs := match cs with
            | Some (_, apis) => if bool_decide (apis = rc_apis (cf_raw (ck_config ck)))
                                then cs else None
            | None => None
            end in
  match cs with
  | Some (o, _) =>
      match scan_problems env ck o with (ck', r) => (ck', cs, r, None) end
  | None =>
      match scan ck li with
      | None => (ck, None, None, Some li)
      | Some o =>
          match scan_problems env ck o with
          | (ck', r) => (ck', Some (o, rc_apis (cf_raw (ck_config ck))), r, Some li)
          end
      end
  end.

(** [check_linker_invocation] (checker.rs:291-314). *)
Definition check_linker_invocation (env : environment) (scan : scanner) (ck : checker)
    (li : link_info) (cs : check_state)
    : checker * check_state * option (list problem) * option link_info :=
  let bs := match cs_kind (li_sel li) with
            | BuildScript => verify_build_script_permitted ck (cs_pkg (li_sel li))
            | _ => []
            end in
  match check_object_paths env scan ck li cs with
  | (ck', cs', Some ps, log) => (ck', cs', Some (bs ++ ps), log)
  | (ck', cs', None, log) => (ck', cs', None, log)
  end.

(** [RustcOutput] (rpc.rs:122-126). *)
Record rustc_output := RustcOutput { ro_sel : crate_sel; ro_paths : list str }.

(** [record_crate_paths] (checker.rs:542-550). *)
Definition record_path (p : pkg_id) (m : gmap str (list pkg_id)) (path : str)
    : gmap str (list pkg_id) :=
  let ids := default [] (m !! path) in
  <[path := if bool_decide (p ∈ ids) then ids else ids ++ [p]]> m.

Definition record_crate_paths (ck : checker) (info : rustc_output) : checker :=
  Checker (ck_infos ck) (ck_config ck)
    (foldl (record_path (cs_pkg (ro_sel info))) (ck_paths ck) (ro_paths info))
    (ck_outstanding ck).

Definition set_outstanding (ck : checker) (l : list link_info) : checker :=
  Checker (ck_infos ck) (ck_config ck) (ck_paths ck) l.

(** [get_link_info] (checker.rs:586-592): the first with that selector. *)
Fixpoint take_link_info (l : list link_info) (sel : crate_sel)
    : option (link_info * list link_info) :=
  match l with
  | [] => None
  | li :: l' =>
      if bool_decide (li_sel li = sel) then Some (li, l')
      else match take_link_info l' sel with
           | Some (x, rest) => Some (x, li :: rest)
           | None => None
           end
  end.

(** The arm for [RustcComplete] (checker.rs:270-283). *)
Definition rustc_complete (env : environment) (scan : scanner) (ck : checker)
    (cs : check_state) (info : rustc_output)
    : checker * check_state * option (list problem) * option link_info :=
  let ck := record_crate_paths ck info in
  match take_link_info (ck_outstanding ck) (ro_sel info) with
  | None => (ck, cs, Some [], None)
  | Some (li, rest) =>
      match check_linker_invocation env scan (set_outstanding ck rest) li cs with
      | (ck', cs', Some [], log) => (ck', cs', Some [], log)
      | (ck', cs', Some ps, log) =>
          (set_outstanding ck' (ck_outstanding ck' ++ [li]), cs', Some ps, log)
      | (ck', cs', None, log) => (ck', cs', None, log)
      end
  end.

(** The arm for [LinkerInvoked] (checker.rs:243-246). *)
Definition linker_invoked (ck : checker) (li : link_info) : checker :=
  set_outstanding ck (ck_outstanding ck ++ [li]).

(** ** Interleavings

    Every request has its own handler (main.rs:463-470) that calls
    [Checker::handle_request] under a lock, possibly several times
    (main.rs:578-605); the handler keeps its [CheckState] between the calls.
    Handlers are numbered; [requests h] is the rustc completion handler [h]
    deals with. *)
Inductive event :=
| ELinker (li : link_info)
| EComplete (h : nat)
| ELoad (c : config).

Record system := System {
  sy_checker : checker;
  sy_states : gmap nat (scan_outputs * gmap str api_config) }.

Inductive outcome_of :=
| ODone                                     (* requests other than completions *)
| OComplete (taken : option link_info)      (* which invocation it was matched with *)
    (scanned : option link_info) (result : option (list problem)).

Definition sys_step (env : environment) (scan : scanner) (requests : nat -> rustc_output)
    (s : system) (e : event) : system * outcome_of :=
  match e with
  | ELinker li => (System (linker_invoked (sy_checker s) li) (sy_states s), ODone)
  | ELoad c => (System (update_config (sy_checker s) c) (sy_states s), ODone)
  | EComplete h =>
      let taken := fst <$> take_link_info (ck_outstanding (sy_checker s)) (ro_sel (requests h)) in
      match rustc_complete env scan (sy_checker s) (sy_states s !! h) (requests h) with
      | (ck, cs, r, log) =>
          (System ck (match cs with
                      | Some x => <[h := x]> (sy_states s)
                      | None => delete h (sy_states s)
                      end), OComplete taken log r)
      end
  end.

Fixpoint sys_run (env : environment) (scan : scanner) (requests : nat -> rustc_output)
    (s : system) (es : list event) : system * list outcome_of :=
  match es with
  | [] => (s, [])
  | e :: es' =>
      let '(s', o) := sys_step env scan requests s e in
      let '(s'', os) := sys_run env scan requests s' es' in
      (s'', o :: os)
  end.

Definition sys_init : system := System checker_init ∅.
