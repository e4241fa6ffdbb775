(** From a call of the linker to the judgement. *)
From Verif Require Import Base BaseFacts NamesModel ApiMapModel ConfigModel ConfigSpec ProblemModel CheckerModel CheckerSpec
  CheckerProps DepsModel DepsSpec DepsProps GraphModel GraphSpec GraphProps CollectModel CollectSpec CollectProofs CollectProps
  ArchiveModel ArchiveSpec ArchiveProofs.

(** ** C197: everything that is linked from the target directory is judged *)

(** If the check of a linker call ends without problems, then every object that the linker is given from the
    target directory could be read, also those in Rust libraries; and every use of an API in a section that is
    examined (C111) is granted in the configuration, or what is shown for it is excused (C08). *)
Theorem C197_judged :
  forall (open : str -> option opened) (parse : str -> option obj_file) (read_binary : str -> option binary)
         (canonicalize : str -> option str) (target : str) (details : CheckerModel.link_info -> DepsModel.link_info)
         (env : environment) (enc : full_usage -> nat) (requests : nat -> rustc_output) (es : list event) (i h : nat)
         (li : CheckerModel.link_info) (log : option CheckerModel.link_info) (args : list str) (bytes : str),
  let read := fun l => read_link open parse read_binary canonicalize target (details l) in
  let scan := graph_scan env enc read in
  (forall c, ELoad c ∈ es -> made_for (en_index env) c) ->
  NoDup (map li_sel (links es)) ->
  es !! i = Some (EComplete h) ->
  outcomes env scan requests es !! i = Some (OComplete (Some li) log (Some [])) ->
  (forall f, read li = Some f -> one_debug_name (map fst (fa_debug f)) (fa_references f)) ->
  (forall p, p ∈ args -> plain_path p) -> link_info_from_args args = Some (details li) ->
  DepsSpec.resolved target -> (forall p q, canonicalize p = Some q -> DepsSpec.resolved q) ->
  linked_from open canonicalize target args bytes ->
  exists f b bin o, read li = Some f /\ read_binary (li_output (details li)) = Some b /\
    load_symbols (bi_symbols b) ∅ = Some bin /\ parse bytes = Some o /\
    (well_formed o ->
     forall sec first a d off t s, examined o bin (list_to_map (bi_debug b)) sec first a d ->
       (off, t) ∈ sc_relocations sec -> refers_to o bin t s ->
     exists nm loc r, bi_frames b (a + off - os_address first) = Some (nm, loc) /\
       reference_at (list_to_map (bi_debug b)) first a d off nm loc s r /\
     exists j, j <= i /\ es !! j = Some (EComplete h) /\
       forall apis, classifies (apis_in_force (after env scan requests (take i es))) apis ->
       let pkgs := pkg_ids_for_source env (sy_checker (after env scan requests (take (S j) es))) in
       forall pkg api name src loc from sc,
         charged apis pkgs r pkg api name src loc ->
         shown_as (nd_names (rf_from r)) from -> scope_in (li_sel li) pkg sc ->
         granted_by (take (S i) es) (pi_name pkg, sc) api \/
         exists r' name' src' outer' rest, r' ∈ fa_references f /\ charged apis pkgs r' pkg api name' src' loc /\
           shown_as (nd_names (rf_from r')) from /\ no_longer src' src /\ outer_file r' outer' /\
           excused env (sy_checker (after env scan requests (take (S i) es))) pkg (ApiUsage name' outer' rest)).
Proof.
  intros open parse read_binary canonicalize target details env enc requests es i h li log args bytes read scan
    Hmade Hnd Hi Ho Hone Hp Hli Ht Hc Hl.
  assert (Hr : exists f, read li = Some f).
  { destruct (C12_clean_means_checked env scan requests es i h li log Hmade Hnd Hi Ho) as (j & o & ck & _ & _ & _ & Hs & _).
    unfold scan, graph_scan in Hs. cbv zeta in Hs. destruct (read li) as [f|]; [by exists f|done]. }
  destruct Hr as [f Hf].
  destruct (link_read open parse read_binary canonicalize target args (details li) f bytes Hp Ht Hc Hli Hf Hl)
    as (b & bin & o & rs & Hb & Hbin & Hparse & Hrs & Hsub).
  exists f, b, bin, o. split; [done|]. split; [done|]. split; [done|]. split; [done|]. intros Hwf sec first a d off t s Hex Hrel Href.
  destruct (C111_references bin (list_to_map (bi_debug b)) (bi_frames b) o rs Hwf Hrs) as [_ H].
  destruct (H sec first a d off t s Hex Hrel Href) as (nm & loc & r & Hfr & Hin & Hat).
  exists nm, loc, r. split; [done|]. split; [done|].
  destruct (C112_checked env enc read requests es i h li log f Hmade Hnd Hi Ho Hf (Hone f Hf)) as (j & Hj & Hej & Hall).
  exists j. split; [done|]. split; [done|]. cbv zeta in Hall |- *.
  intros apis Hcl pkg api name src loc' from sc Hch Hsh Hsc.
  destruct (Hall apis Hcl r pkg api name src loc' from sc (Hsub r Hin) Hch Hsh Hsc) as [Hg|(r' & name' & src' & outer' & rest & Hx)];
    [by left|]. right. by exists r', name', src', outer', rest.
Qed.
Print Assumptions C197_judged.

(** If a file that the linker is given from the target directory, or an entry of it, cannot be read, the check
    of this call never ends without problems. *)
Theorem C197_unreadable :
  forall (open : str -> option opened) (parse : str -> option obj_file) (read_binary : str -> option binary)
         (canonicalize : str -> option str) (target : str) (details : CheckerModel.link_info -> DepsModel.link_info)
         (env : environment) (enc : full_usage -> nat) (requests : nat -> rustc_output) (es : list event) (i h : nat)
         (li : CheckerModel.link_info) (log : option CheckerModel.link_info) (args : list str) (arg path : str),
  let scan := graph_scan env enc (fun l => read_link open parse read_binary canonicalize target (details l)) in
  (forall c, ELoad c ∈ es -> made_for (en_index env) c) ->
  NoDup (map li_sel (links es)) ->
  es !! i = Some (EComplete h) ->
  (forall p, p ∈ args -> plain_path p) -> link_info_from_args args = Some (details li) ->
  DepsSpec.resolved target -> (forall p q, canonicalize p = Some q -> DepsSpec.resolved q) ->
  arg ∈ drop 1 args -> object_path arg -> canonicalize arg = Some path -> at_or_below target path ->
  unreadable open path ->
  outcomes env scan requests es !! i <> Some (OComplete (Some li) log (Some [])).
Proof.
  intros open parse read_binary canonicalize target details env enc requests es i h li log args arg path scan
    Hmade Hnd Hi Hp Hli Ht Hc Harg Hobj Hcan Hb Hun Ho.
  destruct (C12_clean_means_checked env scan requests es i h li log Hmade Hnd Hi Ho) as (j & o & ck & _ & _ & _ & Hs & _).
  unfold scan, graph_scan in Hs. cbv zeta in Hs.
  by rewrite (link_unreadable open parse read_binary canonicalize target args (details li) arg path) in Hs.
Qed.
Print Assumptions C197_unreadable.

(** [foo] consists of one object in a library, which uses [std::fs]. *)
Definition write_symbol : str := lit "_ZN3std2fs5write17h0123456789abcdefE".
Definition ar_obj : obj_file :=
  ObjFile [ObjSymbol (lit "foo_main") true (Some 1) 0; ObjSymbol write_symbol false None 0] [ObjSection 1 [(4, TargetSymbol 1)]].
Definition ar_parse (bytes : str) : option obj_file := if str_eqb bytes (lit "OBJ") then Some ar_obj else None.
Definition ar_lib : str := lit "/t/debug/libfoo.rlib".
Definition ar_binary : binary :=
  Binary [(lit "foo_main", 4096); (write_symbol, 8192)]
    [(lit "foo_main", SymDebug (lit "/foo") None (lit "main.rs") 3 None (Some (DebugName [lit "foo"] (lit "main"))))]
    [] (fun _ => Some (None, None)).
Definition ar_entries : list entry := [Entry (Some (lit "foo.o")) (Some (lit "OBJ"))].
Definition ar_open (entries : list entry) (path : str) : option opened :=
  if str_eqb path ar_lib then Some (Opened entries None) else None.
(** [/w/../t] is [/t]. *)
Definition ar_canonical (path : str) : option str :=
  match strip_prefix (lit "/w/../t") path with
  | Some [] => Some (lit "/t")
  | Some rest => if str_eqb rest (lit "/debug/libfoo.rlib") then Some ar_lib else None
  | None => None
  end.
Definition ar_args : list str := [lit "cc"; lit "/w/../t/debug/libfoo.rlib"; lit "-o"; lit "/w/../t/debug/foo"].
Definition ar_details : DepsModel.link_info := default (DepsModel.LinkInfo [] [] false) (link_info_from_args ar_args).
Definition ar_scan (entries : list entry) (target : str) : scanner :=
  graph_scan ex_env (fun u => sl_line (fu_location u))
    (fun _ => read_link (ar_open entries) ar_parse (fun _ => Some ar_binary) ar_canonical target ar_details).
Definition ar_events : list event :=
  [ELoad (with_fs ∅); ELinker bin_a; EComplete 0; ELoad (with_fs {[lit "foo" := apis_only [lit "fs"]]}); EComplete 0].
Definition ar_problem : problem :=
  PDisallowedApiUsage (ApiUsages foo All (lit "fs") [ApiUsage [lit "std"; lit "fs"; lit "write"] (Some (lit "/foo/main.rs")) 3]).

Example C197_ex :
  outcomes ex_env (ar_scan ar_entries (lit "/t")) foo_request ar_events =
  [ODone; ODone; OComplete (Some bin_a) (Some bin_a) (Some [ar_problem]); ODone; OComplete (Some bin_a) None (Some [])].
Proof. vm_compute. reflexivity. Qed.

Example C197_unreadable_ex :
  outcomes ex_env (ar_scan [Entry (Some (lit "foo.o")) None] (lit "/t")) foo_request ar_events !! 2 =
    Some (OComplete (Some bin_a) (Some bin_a) None).
Proof. vm_compute. reflexivity. Qed.

Lemma ar_made (c : config) : ELoad c ∈ ar_events -> made_for (en_index ex_env) c.
Proof.
  intros Hin. unfold ar_events in Hin. repeat (apply elem_of_cons in Hin as [Hin|Hin]); try discriminate.
  - injection Hin as ->. apply config_of_made.
  - injection Hin as ->. apply config_of_made.
  - by apply elem_of_nil in Hin.
Qed.

Lemma ar_args_plain (p : str) : p ∈ ar_args -> plain_path p.
Proof.
  intros Hin d. assert (Hl : exists q c, p = q ++ [c] /\ c <> "/"%char /\ c <> "."%char).
  { repeat (apply elem_of_cons in Hin as [->|Hin]); [..|by apply elem_of_nil in Hin].
    - by exists (lit "c"), "c"%char.
    - by exists (lit "/w/../t/debug/libfoo.rli"), "b"%char.
    - by exists (lit "-"), "o"%char.
    - by exists (lit "/w/../t/debug/fo"), "o"%char. }
  destruct Hl as (q & c & -> & H1 & H2). split; intros He.
  - apply app_inj_tail in He as [_ He]. done.
  - change (lit "/.") with (lit "/" ++ ["."%char]) in He. rewrite app_assoc in He. apply app_inj_tail in He as [_ He]. done.
Qed.

Lemma ar_resolved (p q : str) : ar_canonical p = Some q -> DepsSpec.resolved q.
Proof.
  unfold ar_canonical. destruct (strip_prefix (lit "/w/../t") p) as [[|c rest]|]; [| |done].
  - intros [= <-]. exists [lit "t"]. split_and!; [done| |reflexivity].
    intros c ->%elem_of_list_singleton. split_and!; apply (bool_decide_unpack _); vm_compute; exact I.
  - destruct (str_eqb _ _); [|done]. intros [= <-]. exists [lit "t"; lit "debug"; lit "libfoo.rlib"].
    split_and!; [done| |reflexivity]. intros x Hin.
    repeat (apply elem_of_cons in Hin as [->|Hin]); [..|by apply elem_of_nil in Hin];
      split_and!; apply (bool_decide_unpack _); vm_compute; exact I.
Qed.

Lemma ar_object : object_path (lit "/w/../t/debug/libfoo.rlib").
Proof.
  exists (lit "/w/../t/debug/"), (lit "libfoo"), (lit "rlib"). split_and!; [reflexivity| |done| |by left].
  - right. by exists (lit "/w/../t/debug").
  - apply (bool_decide_unpack _); vm_compute; exact I.
Qed.

Lemma ar_extension : has_extension ar_lib (lit "rlib").
Proof.
  exists (lit "/t/debug/"), (lit "libfoo"). split_and!; [reflexivity| |done|].
  - right. by exists (lit "/t/debug").
  - apply (bool_decide_unpack _); vm_compute; exact I.
Qed.

Lemma ar_linked : linked_from (ar_open ar_entries) ar_canonical (lit "/t") ar_args (lit "OBJ").
Proof.
  exists (lit "/w/../t/debug/libfoo.rlib"), ar_lib. split_and!.
  - apply elem_of_list_here.
  - exact ar_object.
  - vm_compute. reflexivity.
  - right. exists (lit "debug/libfoo.rlib"). reflexivity.
  - exists (Opened ar_entries None). split; [vm_compute; reflexivity|]. left. split; [exact ar_extension|].
    exists (Some (lit "foo.o")). apply elem_of_list_here.
Qed.

(** ** C206: calls that the compiler has inlined are judged *)

(** An inlined call leaves no relocation, but the debug information of the binary lists it. If the check of a
    linker call ends without problems, every use of an API by such a call is granted or what is shown for it is
    excused, whatever objects are linked. *)
Theorem C206_inlined :
  forall (open : str -> option opened) (parse : str -> option obj_file) (read_binary : str -> option binary)
         (canonicalize : str -> option str) (target : str) (details : CheckerModel.link_info -> DepsModel.link_info)
         (env : environment) (enc : full_usage -> nat) (requests : nat -> rustc_output) (es : list event) (i h : nat)
         (li : CheckerModel.link_info) (log : option CheckerModel.link_info),
  let read := fun l => read_link open parse read_binary canonicalize target (details l) in
  let scan := graph_scan env enc read in
  (forall c, ELoad c ∈ es -> made_for (en_index env) c) ->
  NoDup (map li_sel (links es)) ->
  es !! i = Some (EComplete h) ->
  outcomes env scan requests es !! i = Some (OComplete (Some li) log (Some [])) ->
  (forall f, read li = Some f -> one_debug_name (map fst (fa_debug f)) (fa_references f)) ->
  exists f b, read li = Some f /\ read_binary (li_output (details li)) = Some b /\
    forall x, x ∈ bi_inlined b ->
    exists r, inlined_use x r /\
    exists j, j <= i /\ es !! j = Some (EComplete h) /\
      forall apis, classifies (apis_in_force (after env scan requests (take i es))) apis ->
      let pkgs := pkg_ids_for_source env (sy_checker (after env scan requests (take (S j) es))) in
      forall pkg api name src loc from sc,
        charged apis pkgs r pkg api name src loc ->
        shown_as (nd_names (rf_from r)) from -> scope_in (li_sel li) pkg sc ->
        granted_by (take (S i) es) (pi_name pkg, sc) api \/
        exists r' name' src' outer' rest, r' ∈ fa_references f /\ charged apis pkgs r' pkg api name' src' loc /\
          shown_as (nd_names (rf_from r')) from /\ no_longer src' src /\ outer_file r' outer' /\
          excused env (sy_checker (after env scan requests (take (S i) es))) pkg (ApiUsage name' outer' rest).
Proof.
  intros open parse read_binary canonicalize target details env enc requests es i h li log read scan
    Hmade Hnd Hi Ho Hone.
  assert (Hr : exists f, read li = Some f).
  { destruct (C12_clean_means_checked env scan requests es i h li log Hmade Hnd Hi Ho) as (j & o & ck & _ & _ & _ & Hs & _).
    unfold scan, graph_scan in Hs. cbv zeta in Hs. destruct (read li) as [f|]; [by exists f|done]. }
  destruct Hr as [f Hf].
  destruct (link_inlined open parse read_binary canonicalize target (details li) f Hf) as (b & Hb & Hall0).
  exists f, b. split; [done|]. split; [done|]. intros x Hx.
  destruct (Hall0 x Hx) as (r & Hu & Hin). exists r. split; [done|].
  destruct (C112_checked env enc read requests es i h li log f Hmade Hnd Hi Ho Hf (Hone f Hf)) as (j & Hj & Hej & Hall).
  exists j. split; [done|]. split; [done|]. cbv zeta in Hall |- *.
  intros apis Hcl pkg api name src loc' from sc Hch Hsh Hsc.
  destruct (Hall apis Hcl r pkg api name src loc' from sc Hin Hch Hsh Hsc) as [Hg|(r' & name' & src' & outer' & rest & Hy)];
    [by left|]. right. by exists r', name', src', outer', rest.
Qed.
Print Assumptions C206_inlined.

(** The call of [std::fs::write] is inlined into [foo::main]; the binary has no other uses. *)
Definition ar_inlined : inlined :=
  Inlined (BinLoc 4100 4096) (SymAndName (Some (lit "foo_main")) (Some (DebugName [lit "foo"] (lit "main"))))
    (SymAndName (Some write_symbol) (Some (DebugName [lit "std"; lit "fs"] (lit "write"))))
    (CallLoc (lit "/foo") None (Some (lit "main.rs")) (Some 7) None).
Definition ar_inlined_binary : binary :=
  Binary [(lit "foo_main", 4096)]
    [(lit "foo_main", SymDebug (lit "/foo") None (lit "main.rs") 3 None (Some (DebugName [lit "foo"] (lit "main"))))]
    [ar_inlined] (fun _ => Some (None, None)).

Example C206_ex :
  let scan := graph_scan ex_env (fun u => sl_line (fu_location u))
    (fun _ => read_link (fun _ => None) ar_parse (fun _ => Some ar_inlined_binary) ar_canonical (lit "/t")
                (DepsModel.LinkInfo [] (lit "/t/debug/foo") false)) in
  outcomes ex_env scan foo_request ar_events =
  [ODone; ODone;
   OComplete (Some bin_a) (Some bin_a) (Some [PDisallowedApiUsage
     (ApiUsages foo All (lit "fs") [ApiUsage [lit "std"; lit "fs"; lit "write"] None 7])]);
   ODone; OComplete (Some bin_a) None (Some [])].
Proof. vm_compute. reflexivity. Qed.

(** ** C198: a target directory that is not resolved *)

(** Not everything that is linked from cargo's target directory is judged: the paths of objects are resolved before
    they are compared with the target directory, but the directory in [CARGO_TARGET_DIR] is not. With [/w/../t]
    there, no object is looked at and a use that nobody granted passes; with [/t] the same use is a problem. *)
Theorem C198_refuted :
  exists (open : str -> option opened) (parse : str -> option obj_file) (canonicalize : str -> option str)
         (b : binary) (root variable : str) (args : list str) (details : DepsModel.link_info) (es : list event)
         (i h : nat) (li : CheckerModel.link_info),
  let target := target_dir root (Some variable) in
  let scan := fun t => graph_scan ex_env (fun u => sl_line (fu_location u))
                (fun _ => read_link open parse (fun _ => Some b) canonicalize t details) in
  (forall c, ELoad c ∈ es -> made_for (en_index ex_env) c) /\ NoDup (map li_sel (links es)) /\
  es !! i = Some (EComplete h) /\ link_info_from_args args = Some details /\
  (forall p, p ∈ args -> plain_path p) /\ DepsSpec.resolved root /\
  (forall p q, canonicalize p = Some q -> DepsSpec.resolved q) /\
  (exists resolved bytes, canonicalize target = Some resolved /\
     linked_from open canonicalize resolved args bytes /\
     (exists log p, outcomes ex_env (scan resolved) foo_request es !! i = Some (OComplete (Some li) log (Some [p])))) /\
  exists log, outcomes ex_env (scan target) foo_request es !! i = Some (OComplete (Some li) log (Some [])).
Proof.
  exists (ar_open ar_entries), ar_parse, ar_canonical, ar_binary, (lit "/w"), (lit "../t"), ar_args, ar_details,
    ar_events, 2, 0, bin_a. cbv zeta.
  split; [exact ar_made|]. split; [apply (bool_decide_unpack _); vm_compute; exact I|]. split; [reflexivity|].
  split; [vm_compute; reflexivity|]. split; [exact ar_args_plain|]. split; [|split; [exact ar_resolved|split]].
  - exists [lit "w"]. split_and!; [done| |reflexivity]. intros c ->%elem_of_list_singleton.
    split_and!; apply (bool_decide_unpack _); vm_compute; exact I.
  - exists (lit "/t"), (lit "OBJ"). split; [vm_compute; reflexivity|]. split; [exact ar_linked|].
    exists (Some bin_a), ar_problem. vm_compute. reflexivity.
  - exists (Some bin_a). vm_compute. reflexivity.
Qed.
Print Assumptions C198_refuted.

(** ** C199: a damaged library *)

(** A Rust library that cannot be read as an archive does not make the check fail: entries whose header cannot be
    read are passed over. The objects in the library are not looked at. *)
Theorem C199_refuted :
  exists (open : str -> option opened) (parse : str -> option obj_file) (canonicalize : str -> option str)
         (b : binary) (target : str) (args : list str) (details : DepsModel.link_info) (es : list event) (i h : nat)
         (li : CheckerModel.link_info),
  let scan := graph_scan ex_env (fun u => sl_line (fu_location u))
                (fun _ => read_link open parse (fun _ => Some b) canonicalize target details) in
  (forall c, ELoad c ∈ es -> made_for (en_index ex_env) c) /\ NoDup (map li_sel (links es)) /\
  es !! i = Some (EComplete h) /\ link_info_from_args args = Some details /\
  (exists arg path f, arg ∈ drop 1 args /\ object_path arg /\ canonicalize arg = Some path /\
     at_or_below target path /\ open path = Some f /\ has_extension path (lit "rlib") /\ fo_entries f = [BadHeader]) /\
  exists log, outcomes ex_env scan foo_request es !! i = Some (OComplete (Some li) log (Some [])).
Proof.
  exists (ar_open [BadHeader]), ar_parse, ar_canonical, ar_binary, (lit "/t"), ar_args, ar_details, ar_events, 2, 0, bin_a.
  cbv zeta.
  split; [exact ar_made|]. split; [apply (bool_decide_unpack _); vm_compute; exact I|]. split; [reflexivity|].
  split; [vm_compute; reflexivity|]. split.
  - exists (lit "/w/../t/debug/libfoo.rlib"), ar_lib, (Opened [BadHeader] None). split_and!.
    + apply elem_of_list_here.
    + exact ar_object.
    + vm_compute. reflexivity.
    + right. exists (lit "debug/libfoo.rlib"). reflexivity.
    + vm_compute. reflexivity.
    + exact ar_extension.
    + reflexivity.
  - exists (Some bin_a). vm_compute. reflexivity.
Qed.
Print Assumptions C199_refuted.
