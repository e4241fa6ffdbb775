(** C43, C109-C120: which packages are charged with which APIs. *)
From Verif Require Import Base BaseFacts NamesModel ApiMapModel ConfigModel ProblemModel CheckerModel CheckerSpec.
From Verif Require Import CheckerProps GraphModel GraphSpec GraphProps CollectModel CollectSpec CollectNamesProofs CollectProofs.

(** ** C109: exactly the uses of APIs are charged *)

Theorem C109_charged :
  forall (apis_for : list str -> gset str) (pkgs_of : str -> option (list pkg_id)) (bin_sel : crate_sel)
         (symbols : list str) (rs : list reference) (out : list out_usages),
  one_debug_name symbols rs ->
  collect_usages apis_for pkgs_of bin_sel symbols rs = Some out ->
  forall pkg api,
    (exists o, o ∈ out /\ ou_pkg o = pkg /\ ou_api o = api) <->
    (exists r name source location, r ∈ rs /\ charged apis_for pkgs_of r pkg api name source location).
Proof.
  intros apis_for pkgs_of bin_sel symbols rs out Ho E pkg api.
  destruct (collected _ _ _ _ _ _ Ho E) as (Hc & Hsound & Hne & _ & _). split.
  - intros (o & Hin & <- & <-). destruct (ou_usages o) as [|u us] eqn:Eu; [by destruct (Hne o Hin)|].
    destruct (Hsound o u Hin) as (_ & _ & r & Hr & Hch & _); [rewrite Eu; left|].
    by exists r, (fu_to_name u), (fu_source u), (fu_location u).
  - intros (r & name & src & loc & Hr & Hch). destruct (charged_shown _ _ _ _ _ _ Ho E r pkg api name src loc Hr Hch) as [from Hf].
    destruct (Hc r pkg api name src loc from Hr Hch Hf) as (o & u & ? & ? & ? & _). by exists o.
Qed.
Print Assumptions C109_charged.

(** An error arises only if a name, a place or a package cannot be told. *)
Theorem C109_no_error :
  forall (apis_for : list str -> gset str) (pkgs_of : str -> option (list pkg_id)) (bin_sel : crate_sel)
         (symbols : list str) (rs : list reference),
  apis_for [] = ∅ -> one_debug_name symbols rs -> (forall r, r ∈ rs -> readable pkgs_of r) ->
  exists out, collect_usages apis_for pkgs_of bin_sel symbols rs = Some out.
Proof. exact collect_readable. Qed.
Print Assumptions C109_no_error.

Definition app : pkg_id := PkgId (lit "app") [1].
Definition lib_rs : str := lit "/app/src/lib.rs".
Definition ex_pkgs (file : str) : option (list pkg_id) :=
  if str_eqb file lib_rs then Some [app] else if starts_with (lit "/rust/") file then Some [] else None.
Definition ex_apis (name : list str) : gset str :=
  if bool_decide (take 2 name = [lit "std"; lit "fs"]) then {[lit "fs"]} else ∅.
Definition app_bin : crate_sel := CrateSel app BuildScript.

Definition fs_write : sym_and_name :=
  SymAndName (Some (lit "_ZN3std2fs5write17h0123456789abcdefE")) (Some (DebugName [lit "std"; lit "fs"] (lit "write<&str>"))).
Definition fs_drop : sym_and_name :=
  SymAndName (Some (lit "_ZN4core3ptr13drop_in_place17h0123456789abcdefE"))
             (Some (DebugName [lit "core"; lit "ptr"] (lit "drop_in_place<std::fs::File>"))).
Definition app_fn (name : str) : sym_and_name :=
  SymAndName (Some (lit "app_" ++ name)) (Some (DebugName [lit "app"] name)).
Definition at_line (line : nat) : fetcher := AlreadyResolved (SrcLoc lib_rs line None).
Definition ref (from : str) (line : nat) (to : sym_and_name) : reference :=
  Reference (BinLoc 20 16) None (GraphNode (app_fn from) (at_line line)) to.

(** Two uses of the file system on one line of [main], one elsewhere, and a use of something else. *)
Definition ex_refs : list reference :=
  [ref (lit "main") 10 fs_drop; ref (lit "main") 10 fs_write; ref (lit "main") 12 (app_fn (lit "run"));
   ref (lit "run") 20 fs_drop].

Lemma ex_refs_consistent : one_debug_name [lit "app_main"; lit "app_run"] ex_refs.
Proof.
  intros sn sn' s (r & Hr & Hsn) (r' & Hr' & Hsn') Hs.
  assert (forall r sn, r ∈ ex_refs -> sn = nd_names (rf_from r) \/ sn = rf_target r ->
    sn = app_fn (lit "main") \/ sn = app_fn (lit "run") \/ sn = fs_write \/ sn = fs_drop) as H.
  { clear. intros r sn Hr. unfold ex_refs in Hr.
    repeat (apply elem_of_cons in Hr as [->|Hr]); [..|by apply elem_of_nil in Hr]; cbn; tauto. }
  apply (H _ _ Hr) in Hsn. apply (H _ _ Hr') in Hsn'. clear H.
  destruct Hsn as [->|[->|[->| ->]]]; destruct Hsn' as [->|[->|[->| ->]]]; try done; intros E1 E2;
    injection E1 as E1; injection E2 as E2; exfalso; rewrite <- E1 in E2; revert E2; apply (bool_decide_unpack _);
    vm_compute; exact I.
Qed.

Example C109_ex :
  one_debug_name [lit "app_main"; lit "app_run"] ex_refs /\
  exists out, collect_usages ex_apis ex_pkgs app_bin [lit "app_main"; lit "app_run"] ex_refs = Some out /\
    map (fun o => (ou_pkg o, ou_scope o, ou_api o, map (fun u => (sl_line (fu_location u), fu_to_name u)) (ou_usages o))) out =
    [(app, Build, lit "fs", [(10, [lit "std"; lit "fs"; lit "write"]); (20, [lit "std"; lit "fs"; lit "File"])])].
Proof. split; [exact ex_refs_consistent|]. eexists. split; [vm_compute; reflexivity|]. vm_compute. reflexivity. Qed.

Example C109_error_ex :
  collect_usages ex_apis (fun _ => None) app_bin [] [ref (lit "main") 10 fs_write] = None /\
  collect_usages ex_apis (fun _ => None) app_bin [] [ref (lit "main") 10 (app_fn (lit "run"))] = Some [].
Proof. split; vm_compute; reflexivity. Qed.

(** ** C110: each place is shown once *)

(** For every package and API there is one entry; it has one line for every place in the code, with a target whose
    name is as short as possible; every line is a genuine use; the scope is that of the binary. *)
Theorem C110_places :
  forall (apis_for : list str -> gset str) (pkgs_of : str -> option (list pkg_id)) (bin_sel : crate_sel)
         (symbols : list str) (rs : list reference) (out : list out_usages),
  one_debug_name symbols rs -> collect_usages apis_for pkgs_of bin_sel symbols rs = Some out ->
  (forall r pkg api name src loc from, r ∈ rs -> charged apis_for pkgs_of r pkg api name src loc ->
     shown_as (nd_names (rf_from r)) from ->
     exists o u, o ∈ out /\ ou_pkg o = pkg /\ ou_api o = api /\ u ∈ ou_usages o /\
       fu_from u = from /\ fu_location u = loc /\ no_longer (fu_source u) src) /\
  (forall o u, o ∈ out -> u ∈ ou_usages o ->
     scope_in bin_sel (ou_pkg o) (ou_scope o) /\ fu_scope u = ou_scope o /\
     exists r, r ∈ rs /\
       charged apis_for pkgs_of r (ou_pkg o) (ou_api o) (fu_to_name u) (fu_source u) (fu_location u) /\
       shown_as (nd_names (rf_from r)) (fu_from u) /\ shown_as (rf_target r) (fu_to u) /\ fu_bin u = rf_bin r /\
       outer_file r (sl_file <$> fu_outer u)) /\
  (forall o, o ∈ out -> ou_usages o <> []) /\
  NoDup (map (fun o => (ou_pkg o, ou_api o)) out) /\
  (forall o, o ∈ out -> NoDup (map (fun u => (fu_from u, fu_location u)) (ou_usages o))).
Proof. exact collected. Qed.
Print Assumptions C110_places.

Example C110_ex :
  exists out o1 o2, collect_usages (fun n => ex_apis n ∪ (if bool_decide (n = [lit "other"]) then {[lit "x"]} else ∅))
      (fun _ => Some [app; PkgId (lit "mac") [2]]) (CrateSel app TestCrate) [] 
      [ref (lit "main") 10 fs_drop; ref (lit "main") 10 fs_write; ref (lit "main") 11 fs_drop] = Some out /\
    out = [o1; o2] /\
    (ou_pkg o1, ou_scope o1, map (fun u => (sl_line (fu_location u), source_length (fu_source u))) (ou_usages o1)) =
      (app, Test, [(10, 11); (11, 28)]) /\
    (ou_pkg o2, ou_scope o2, map (fun u => (sl_line (fu_location u), source_length (fu_source u))) (ou_usages o2)) =
      (PkgId (lit "mac") [2], FromTest, [(10, 11); (11, 28)]).
Proof.
  eexists _, _, _. split; [vm_compute; reflexivity|]. split; [reflexivity|]. split; vm_compute; reflexivity.
Qed.

(** ** C111: the references of object files *)

(** The references taken from an object file are exactly those of its examined sections (the first symbol is in
    the binary and has debug information): one from each relocation to each symbol that it refers to. They come
    from the function and the line that the debug information gives for the place, or else from the function that
    starts the section and the line where that is defined. *)
Theorem C111_references :
  forall (bin : gmap str nat) (info : gmap str sym_debug) (fr : frames) (o : obj_file) (rs : list reference),
  well_formed o -> object_references bin info fr o = Some rs ->
  (forall r, r ∈ rs -> exists sec first a d off t nm loc s, examined o bin info sec first a d /\
     (off, t) ∈ sc_relocations sec /\ fr (a + off - os_address first) = Some (nm, loc) /\ refers_to o bin t s /\
     reference_at info first a d off nm loc s r) /\
  (forall sec first a d off t s, examined o bin info sec first a d -> (off, t) ∈ sc_relocations sec ->
     refers_to o bin t s ->
     exists nm loc r, fr (a + off - os_address first) = Some (nm, loc) /\ r ∈ rs /\
       reference_at info first a d off nm loc s r).
Proof. intros bin info fr o rs Hwf. by apply object_references_spec. Qed.
Print Assumptions C111_references.

(** In the references of object files a symbol always has the same debug name. *)
Theorem C111_one_name :
  forall (bin : gmap str nat) (info : gmap str sym_debug) (fr : frames) (os : list obj_file)
         (symbols : list str) (rs : list reference),
  (forall o, o ∈ os -> well_formed o) -> flat_mapM (object_references bin info fr) os = Some rs ->
  one_debug_name symbols rs.
Proof. exact objects_one_debug_name. Qed.
Print Assumptions C111_one_name.

Definition ex_info : gmap str sym_debug :=
  <[lit "main" := SymDebug (lit "/app") (Some (lit "src")) (lit "main.rs") 3 None (Some (DebugName [lit "app"] (lit "main")))]> ∅.
Definition ex_frames : frames := fun place =>
  Some (if Nat.eqb place 4100 then (Some (lit "inner"), Some (FrameLoc (Some lib_rs) (Some 7) None)) else (Some (lit "main"), None)).

Example C111_ex :
  well_formed ex_obj /\
  exists rs, object_references ex_bin ex_info ex_frames ex_obj = Some rs /\
    map (fun r => (bl_address (rf_bin r), sn_symbol (nd_names (rf_from r)), sl_line <$> fetch (nd_fetcher (rf_from r)),
                   sn_symbol (rf_target r), bool_decide (rf_outer r = None))) rs =
    [(4100, Some (lit "inner"), Some 7, Some (lit "write"), false);
     (4100, Some (lit "inner"), Some 7, Some (lit "main"), false);
     (4105, Some (lit "main"), Some 3, Some (lit "main"), true)].
Proof. split; [apply C42_ex|]. eexists. split; [vm_compute; reflexivity|]. vm_compute. reflexivity. Qed.

(** ** C112: from the binary to the answer *)

(** If the check of a linker invocation ends without problems, then every use of an API by its code is granted in
    the configuration, or what is shown for the place of the use is excused (C08). *)
Theorem C112_checked :
  forall (env : environment) (enc : full_usage -> nat) (read : CheckerModel.link_info -> option facts)
         (requests : nat -> rustc_output) (es : list event) (i h : nat) (li : CheckerModel.link_info)
         (log : option CheckerModel.link_info) (f : facts),
  let scan := graph_scan env enc read in
  (forall c, ELoad c ∈ es -> made_for (en_index env) c) ->
  NoDup (map li_sel (links es)) ->
  es !! i = Some (EComplete h) ->
  outcomes env scan requests es !! i = Some (OComplete (Some li) log (Some [])) ->
  read li = Some f ->
  one_debug_name (map fst (fa_debug f)) (fa_references f) ->
  exists j, j <= i /\ es !! j = Some (EComplete h) /\
    forall apis, classifies (apis_in_force (after env scan requests (take i es))) apis ->
    let pkgs := pkg_ids_for_source env (sy_checker (after env scan requests (take (S j) es))) in
    forall r pkg api name src loc from sc,
      r ∈ fa_references f -> charged apis pkgs r pkg api name src loc ->
      shown_as (nd_names (rf_from r)) from -> scope_in (li_sel li) pkg sc ->
      granted_by (take (S i) es) (pi_name pkg, sc) api \/
      exists r' name' src' outer' rest, r' ∈ fa_references f /\ charged apis pkgs r' pkg api name' src' loc /\
        shown_as (nd_names (rf_from r')) from /\ no_longer src' src /\ outer_file r' outer' /\
        excused env (sy_checker (after env scan requests (take (S i) es))) pkg (ApiUsage name' outer' rest).
Proof. exact graph_scan_fine. Qed.
Print Assumptions C112_checked.

(** [foo] uses [std::fs]. The first configuration does not grant it, the second one does. *)
Definition with_fs (pkgs : gmap str package_config) : config :=
  config_of (RawConfig 3 false [] (<[lit "fs" := ApiConfig [lit "std::fs"] [] []]> ∅) pkgs sandbox_default sandbox_default).
Definition foo_ref (line : nat) (outer : option node) (to : sym_and_name) : reference :=
  Reference (BinLoc 20 16) outer
    (GraphNode (SymAndName (Some (lit "foo_main")) (Some (DebugName [lit "foo"] (lit "main"))))
       (AlreadyResolved (SrcLoc (lit "/foo/main.rs") line None))) to.
Definition foo_facts : facts := Facts [] [foo_ref 5 None fs_write].
Definition foo_request : nat -> rustc_output := fun _ => RustcOutput foo_bin [lit "/foo/main.rs"].
Definition foo_scan : scanner := graph_scan CheckerProps.ex_env (fun u => sl_line (fu_location u)) (fun _ => Some foo_facts).
Definition foo_events : list event :=
  [ELoad (with_fs ∅); ELinker bin_a; EComplete 0; ELoad (with_fs {[lit "foo" := apis_only [lit "fs"]]}); EComplete 0].

Example C112_ex :
  outcomes CheckerProps.ex_env foo_scan foo_request foo_events =
  [ODone; ODone;
   OComplete (Some bin_a) (Some bin_a)
     (Some [PDisallowedApiUsage (ApiUsages foo All (lit "fs") [ApiUsage [lit "std"; lit "fs"; lit "write"] None 5])]);
   ODone; OComplete (Some bin_a) None (Some [])].
Proof. vm_compute. reflexivity. Qed.

(** ** C113: hidden uses *)

(** A use that is neither granted nor excused can go unreported: on the same line there is an excused use with a
    shorter name, and only that is kept. *)
Definition dep_w : sym_and_name := SymAndName None (Some (DebugName [lit "my_dep"; lit "io"] (lit "w"))).
Definition in_dep : option node :=
  Some (GraphNode (SymAndName (Some (lit "my_dep_each")) None) (AlreadyResolved (SrcLoc (lit "/dep/lib.rs") 1 None))).
Definition hidden_cfg : config :=
  config_of (RawConfig 3 false [] (<[lit "fs" := ApiConfig [lit "std::fs"; lit "my_dep::io"] [] []]> ∅) ∅
               sandbox_default sandbox_default).
Definition hidden_facts : facts := Facts [] [foo_ref 5 in_dep dep_w; foo_ref 5 in_dep fs_write].

Theorem C113_refuted :
  exists (env : environment) (enc : full_usage -> nat) (read : CheckerModel.link_info -> option facts)
         (requests : nat -> rustc_output) (c : config) (li : CheckerModel.link_info) (f : facts) (r : reference)
         (name : list str) (src : sym_or_debug) (loc : src_loc) (outer : option str) (apis : list str -> gset str),
    let scan := graph_scan env enc read in
    let es := [ELoad c; ELinker li; EComplete 0] in
    let ck := sy_checker (after env scan requests es) in
    made_for (en_index env) c /\ read li = Some f /\ one_debug_name (map fst (fa_debug f)) (fa_references f) /\
    outcomes env scan requests es !! 2 = Some (OComplete (Some li) (Some li) (Some [])) /\
    r ∈ fa_references f /\
    classifies (rc_apis (cf_raw c)) apis /\
    charged apis (pkg_ids_for_source env ck) r foo (lit "fs") name src loc /\
    ~ permitted c (pi_name foo, All) (lit "fs") /\
    outer_file r outer /\ forall rest, ~ excused env ck foo (ApiUsage name outer rest).
Proof.
  exists CheckerProps.ex_env, (fun _ => 0), (fun _ => Some hidden_facts), foo_request, hidden_cfg, bin_a, hidden_facts,
    (foo_ref 5 in_dep fs_write), [lit "std"; lit "fs"; lit "write"],
    (FromDebug (DebugName [lit "std"; lit "fs"] (lit "write<&str>"))), (SrcLoc (lit "/foo/main.rs") 5 None),
    (Some (lit "/dep/lib.rs")), (apis_under (rc_apis (cf_raw hidden_cfg))).
  cbn zeta.
  assert (debug_names (DebugName [lit "std"; lit "fs"] (lit "write<&str>")) =
    Some ([[lit "std"; lit "fs"; lit "write"]; [lit "str"]], [])) as Edn by (vm_compute; reflexivity).
  assert (debug_names (DebugName [lit "foo"] (lit "main")) = Some ([[lit "foo"; lit "main"]], [])) as Efn
    by (vm_compute; reflexivity).
  split_and!.
  - done.
  - done.
  - intros sn sn' s _ _ Hs. by apply elem_of_nil in Hs.
  - vm_compute. reflexivity.
  - right. left.
  - apply apis_under_classifies.
  - unfold charged. split_and!.
    + left. split; [|by eexists]. eexists _, _, _. split; [reflexivity|]. split; [by apply debug_names_spec|].
      split; [left|]. apply (bool_decide_unpack _). vm_compute. exact I.
    + constructor.
    + exists [foo]. split; [vm_compute; reflexivity|left].
    + intros rest E. injection E as E _. revert E. apply (bool_decide_unpack _). vm_compute. exact I.
    + assert (forall n a, n = [lit "foo"; lit "main"] -> a ∉ apis_under (rc_apis (cf_raw hidden_cfg)) n) as Hno.
      { intros n a ->. assert (apis_under (rc_apis (cf_raw hidden_cfg)) [lit "foo"; lit "main"] = ∅) as ->; [|set_solver].
        apply (bool_decide_unpack _). vm_compute. exact I. }
      intros n s [[(d & ns & u & [= <-] & E & Hn & Ha) _]|(_ & (s' & ns & u & [= <-] & E & Hn & Ha) & _)].
      * apply debug_names_spec in E. pose proof (eq_trans (eq_sym Efn) E) as E2. injection E2 as <- <-. apply elem_of_list_singleton in Hn. by apply (Hno n (lit "fs")).
      * assert (symbol_names (lit "foo_main") = Some ([], [])) as Es by (vm_compute; reflexivity).
        apply symbol_names_spec in E. pose proof (eq_trans (eq_sym Es) E) as E2. injection E2 as <- <-. by apply elem_of_nil in Hn.
  - intros (e & He & Ha). assert (pc_allow_apis <$> cf_permissions hidden_cfg !! (pi_name foo, All) = Some []) as E
      by (vm_compute; reflexivity).
    rewrite He in E. cbn [fmap option_fmap option_map] in E. injection E as E. rewrite E in Ha. by apply elem_of_nil in Ha.
  - unfold outer_file. cbn. eexists. split; [constructor|reflexivity].
  - intros rest ((owner & deps & first & rst & Hd & Hn & Hf & Ho) & _). cbn in Hn. injection Hn as <- <-.
    assert (en_lib_owner CheckerProps.ex_env (lit "std") = None) as E by (vm_compute; reflexivity).
    pose proof (eq_trans (eq_sym E) Ho). discriminate.
Qed.
Print Assumptions C113_refuted.

(** ** C114: functions whose names mention an API *)

(** A package that uses an API is not charged with it if the name of the using function mentions the API, for
    example as a type argument. *)
Theorem C114_refuted :
  exists (apis_for : list str -> gset str) (pkgs_of : str -> option (list pkg_id)) (bin_sel : crate_sel)
         (r : reference) (pkg : pkg_id) (api : str) (name : list str) (source : sym_or_debug) (location : src_loc),
    has_api apis_for (rf_target r) name source api /\ place (nd_fetcher (rf_from r)) location /\
    (exists pkgs, pkgs_of (sl_file location) = Some pkgs /\ pkg ∈ pkgs) /\ (forall rest, name <> pi_name pkg :: rest) /\
    nd_names (rf_from r) = SymAndName None (Some (DebugName [pi_name pkg] (lit "run<std::fs::File>"))) /\
    collect_usages apis_for pkgs_of bin_sel [] [r] = Some [].
Proof.
  exists ex_apis, ex_pkgs, app_bin,
    (Reference (BinLoc 20 16) None
       (GraphNode (SymAndName None (Some (DebugName [lit "app"] (lit "run<std::fs::File>")))) (at_line 5)) fs_write),
    app, (lit "fs"), [lit "std"; lit "fs"; lit "write"], (FromDebug (DebugName [lit "std"; lit "fs"] (lit "write<&str>"))),
    (SrcLoc lib_rs 5 None).
  assert (debug_names (DebugName [lit "std"; lit "fs"] (lit "write<&str>")) =
    Some ([[lit "std"; lit "fs"; lit "write"]; [lit "str"]], [])) as Edn by (vm_compute; reflexivity).
  split_and!.
  - left. split; [|by eexists]. eexists _, _, _. split; [reflexivity|]. split; [by apply debug_names_spec|]. split; [left|].
    apply (bool_decide_unpack _). vm_compute. exact I.
  - constructor.
  - exists [app]. split; [vm_compute; reflexivity|left].
  - intros rest E. injection E as E _. revert E. apply (bool_decide_unpack _). vm_compute. exact I.
  - done.
  - vm_compute. reflexivity.
Qed.
Print Assumptions C114_refuted.

(** ** C115: a package's own items *)

(** A package with a hyphen in its name is charged with its own API. *)
Theorem C115_refuted :
  exists (apis_for : list str -> gset str) (pkgs_of : str -> option (list pkg_id)) (bin_sel : crate_sel)
         (r : reference) (pkg : pkg_id) (api : str) (out : list out_usages) (o : out_usages),
    sn_debug (rf_target r) = Some (DebugName [CheckerModel.crate_name pkg; lit "net"] (lit "connect")) /\
    collect_usages apis_for pkgs_of bin_sel [] [r] = Some out /\ o ∈ out /\ ou_pkg o = pkg /\ ou_api o = api.
Proof.
  exists (fun n => if bool_decide (take 2 n = [lit "my_dep"; lit "net"]) then {[lit "net"]} else ∅), (fun _ => Some [my_dep]),
    app_bin, (Reference (BinLoc 20 16) None
       (GraphNode (SymAndName None (Some (DebugName [lit "my_dep"] (lit "run")))) (at_line 5))
       (SymAndName None (Some (DebugName [lit "my_dep"; lit "net"] (lit "connect"))))),
    my_dep, (lit "net").
  eexists _, _. split; [vm_compute; reflexivity|]. split; [vm_compute; reflexivity|]. split; [left|].
  split; vm_compute; reflexivity.
Qed.
Print Assumptions C115_refuted.

(** ** C116: the order of references *)

(** If the debug information has two names for a symbol, the packages charged depend on which is seen first. *)
Theorem C116_refuted :
  exists (apis_for : list str -> gset str) (pkgs_of : str -> option (list pkg_id)) (bin_sel : crate_sel)
         (symbols : list str) (r1 r2 : reference),
    collect_usages apis_for pkgs_of bin_sel symbols [r1; r2] = Some [] /\
    exists out o, collect_usages apis_for pkgs_of bin_sel symbols [r2; r1] = Some out /\ o ∈ out /\
      ou_pkg o = app /\ ou_api o = lit "fs".
Proof.
  exists ex_apis, ex_pkgs, app_bin, [lit "_ZN4core3ptr13drop_in_place17h0123456789abcdefE"],
    (ref (lit "main") 5 (SymAndName (sn_symbol fs_drop) None)), (ref (lit "main") 5 fs_drop).
  split; [vm_compute; reflexivity|]. eexists _, _. split; [vm_compute; reflexivity|]. split; [left|].
  split; vm_compute; reflexivity.
Qed.
Print Assumptions C116_refuted.

(** ** C117: code without debug information *)

(** Linked code is not examined if the first symbol of its section has no debug information, as with code written
    in assembly language. *)
Definition asm_obj : obj_file :=
  ObjFile [ObjSymbol (lit "asm_start") true (Some 1) 0; ObjSymbol (lit "_ZN3std2fs5write17h0123456789abcdefE") false None 0]
          [ObjSection 1 [(4, TargetSymbol 1)]].

Theorem C117_refuted :
  exists (bin : gmap str nat) (info : gmap str sym_debug) (fr : frames) (o : obj_file) (sec : obj_section)
         (first : obj_symbol) (off : nat) (t : rel_target) (s : str),
    well_formed o /\ sec ∈ of_sections o /\ first_of (of_symbols o) (sc_index sec) first /\
    linked bin (os_name first) /\ (off, t) ∈ sc_relocations sec /\ refers_to o bin t s /\ linked bin s /\
    object_references bin info fr o = Some [].
Proof.
  exists (<[lit "asm_start" := 4096]> (<[lit "_ZN3std2fs5write17h0123456789abcdefE" := 8192]> ∅)), ∅, (fun _ => Some (None, None)), asm_obj,
    (ObjSection 1 [(4, TargetSymbol 1)]), (ObjSymbol (lit "asm_start") true (Some 1) 0), 4, (TargetSymbol 1),
    (lit "_ZN3std2fs5write17h0123456789abcdefE").
  split_and!.
  - split; [apply (bool_decide_unpack _); vm_compute; exact I|].
    intros s i Hs (Hn & Hd & Hi). exists (ObjSection 1 [(4, TargetSymbol 1)]).
    repeat (apply elem_of_cons in Hs as [->|Hs]); [|done|by apply elem_of_nil in Hs].
    injection Hi as <-. split; [left|done].
  - left.
  - exists [], [ObjSymbol (lit "_ZN3std2fs5write17h0123456789abcdefE") false None 0]. split; [done|].
    split; [done|]. split; [intros s' Hs'; by apply elem_of_nil in Hs'|].
    intros s' ->%elem_of_list_singleton (_ & Hd & _). done.
  - eexists. vm_compute. reflexivity.
  - left.
  - exists (TargetSymbol 1). split; [constructor|]. eexists _, _. split; [reflexivity|]. split; [reflexivity|].
    left. split; [|done]. split; [done|]. right. done.
  - eexists. vm_compute. reflexivity.
  - vm_compute. reflexivity.
Qed.
Print Assumptions C117_refuted.

(** ** C118: look-through functions in other object files *)

(** What a function of [core::ops::function] does is only attributed to its users if it is in the same object file.
    Here [main] refers to such a function and this refers to [std::fs::write], but there is no reference to the
    latter. *)
Definition call_once : str := lit "_ZN4core3ops8function6FnOnce9call_once17h0123456789abcdefE".
Definition user_obj : obj_file :=
  ObjFile [ObjSymbol (lit "main") true (Some 1) 0; ObjSymbol call_once false None 0] [ObjSection 1 [(4, TargetSymbol 1)]].
Definition once_obj : obj_file :=
  ObjFile [ObjSymbol call_once true (Some 1) 0; ObjSymbol (lit "_ZN3std2fs5write17h0123456789abcdefE") false None 0]
          [ObjSection 1 [(4, TargetSymbol 1)]].
Definition once_info : gmap str sym_debug :=
  <[call_once := SymDebug (lit "/rust") None (lit "function.rs") 3 None None]> ex_info.

Theorem C118_refuted :
  exists (table : list (str * nat)) (bin : gmap str nat) (rs : list reference),
    load_symbols table ∅ = Some bin /\ is_look_through call_once = Some true /\
    (exists t, (4, t) ∈ mjoin (map sc_relocations (of_sections user_obj)) /\ refers_to user_obj bin t call_once) /\
    (exists t, (4, t) ∈ mjoin (map sc_relocations (of_sections once_obj)) /\
       refers_to once_obj bin t (lit "_ZN3std2fs5write17h0123456789abcdefE")) /\
    flat_mapM (object_references bin once_info (fun _ => Some (None, None))) [user_obj; once_obj] = Some rs /\
    forall r, r ∈ rs -> sn_symbol (rf_target r) <> Some (lit "_ZN3std2fs5write17h0123456789abcdefE").
Proof.
  exists [(lit "main", 4096); (call_once, 8192); (lit "_ZN3std2fs5write17h0123456789abcdefE", 12288)].
  eexists _, _. split; [vm_compute; reflexivity|]. split; [vm_compute; reflexivity|]. split_and!.
  - exists (TargetSymbol 1). split; [left|]. exists (TargetSymbol 1). split; [constructor|]. eexists _, _.
    split; [reflexivity|]. split; [reflexivity|]. left. split; [|done]. split; [done|]. by right.
  - exists (TargetSymbol 1). split; [left|]. exists (TargetSymbol 1). split; [constructor|]. eexists _, _.
    split; [reflexivity|]. split; [reflexivity|]. left. split; [|done]. split; [done|]. by right.
  - vm_compute. reflexivity.
  - intros r Hr. repeat (apply elem_of_cons in Hr as [->|Hr]); [|by apply elem_of_nil in Hr].
    apply (bool_decide_unpack _). vm_compute. exact I.
Qed.
Print Assumptions C118_refuted.

(** ** C43, C119: exported APIs *)

(** Every export reported is a symbol of the binary that looks like one and belongs to the package's crate; no pair
    of package and API is reported twice; and a pair is reported if there is such a symbol and all symbols in the
    package's files that look like this API belong to the package's crate. *)
Theorem C43_exports :
  forall (pkgs_of : str -> option (list pkg_id)) (apis : list str) (symbols : list (str * sym_debug))
         (es : list possible_export),
  find_possible_exports pkgs_of apis symbols = Some es ->
  (forall e, e ∈ es -> pe_api e ∈ apis /\ own_symbol (pe_symbol e) (pe_pkg e) /\
     exists d, (pe_symbol e, d) ∈ symbols /\ looks_like pkgs_of (pe_symbol e) d (pe_pkg e) (pe_api e)) /\
  NoDup (map (fun e => (pe_pkg e, pe_api e)) es) /\
  (forall s d pkg api, (s, d) ∈ symbols -> looks_like pkgs_of s d pkg api -> api ∈ apis ->
     (forall s' d', (s', d') ∈ symbols -> looks_like pkgs_of s' d' pkg api -> own_symbol s' pkg) ->
     exists e, e ∈ es /\ pe_pkg e = pkg /\ pe_api e = api).
Proof.
  intros pkgs_of apis symbols es E. destruct (find_exports_spec pkgs_of apis symbols [] es E) as (H1 & H2 & H3).
  split_and!.
  - intros e He. by destruct (H1 e He) as (_ & ?).
  - done.
  - intros s d pkg api Hin Hl Ha Hown. destruct (H3 s d pkg api Hin Hl Ha) as (e & He & [= ? ?]); [|done|by exists e].
    by intros ?%elem_of_nil.
Qed.
Print Assumptions C43_exports.

Definition in_app (s : str) : str * sym_debug := (s, SymDebug (lit "/app") None (lit "src/lib.rs") 3 None None).
Definition app_fs : str := lit "_ZN3app2fs4open17h0123456789abcdefE".
Definition mac_fs : str := lit "_ZN3mac2fs4open17h0123456789abcdefE".

Example C43_ex :
  find_possible_exports ex_pkgs [lit "net"; lit "fs"] [in_app app_fs; in_app mac_fs; in_app (lit "main"); in_app app_fs] =
  Some [PossibleExport app (lit "fs") app_fs].
Proof. vm_compute. reflexivity. Qed.

(** Whether an export is reported depends on the order of the hash map. *)
Theorem C119_refuted :
  exists (pkgs_of : str -> option (list pkg_id)) (apis : list str) (s1 s2 : str * sym_debug),
    find_possible_exports pkgs_of apis [s1; s2] = Some [] /\
    exists e, find_possible_exports pkgs_of apis [s2; s1] = Some [e].
Proof.
  exists ex_pkgs, [lit "fs"], (in_app mac_fs), (in_app app_fs). split; [vm_compute; reflexivity|].
  eexists. vm_compute. reflexivity.
Qed.
Print Assumptions C119_refuted.
