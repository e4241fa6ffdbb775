(** What a successful run of [cargo acl] compiled. *)
From Verif Require Import Base TextModel ApiMapModel ConfigModel ConfigSpec TomlModel ProblemModel StoreModel DepsModel ScannerModel
  ScannerSpec UiModel CompileModel CompileSpec.
From Verif Require FlowModel FlowSpec LaunchModel LaunchSpec LaunchProofs LaunchProps SubprocessModel SubprocessSpec SubprocessProps
  EditorProps UiProps FlowProofs FlowProps CompileProofs.

(** ** C207: a successful run compiled nothing forbidden *)

(** If [cargo acl] exits with success, also with a sub-command (but not when it replays requests), then every compiler that cargo started had, in its last
    run, been given a configuration that the file contained some time during the run; if that does not allow unsafe code
    to the crate, none of the crate's source files has any, and rustc was told to refuse it; likewise for extern; and
    the main process accepted the crate. *)
Theorem C207_compiled :
  forall (print : FlowModel.json -> str) (parse : str -> option FlowModel.json),
  FlowSpec.reads_back print parse ->
  forall (doc : Type) (load : doc -> option (config * FlowModel.extra)) (lexer : str -> list lexed)
         (parse_message : str -> option SubprocessModel.message) (rustc exe : str) (ui_ok : bool)
         (r : compile_run doc) (p : compiler),
  SubprocessSpec.lexer_ok lexer ->
  belongs print parse load lexer parse_message rustc exe r ->
  exit_with ui_ok (cr_results r) = Success -> rr_replay (cr_results r) = false -> p ∈ cr_compilers r ->
  exists a d config settings command out err files,
    a ∈ co_attempts p /\ content_of_file r d /\ load d = Some (config, settings) /\
    SubprocessModel.at_rustc a command = Some (SubprocessModel.ProcOutput (Some 0%Z) out err) /\
    SubprocessModel.cm_program command = rustc /\
    source_files (SubprocessModel.at_read a) (SubprocessModel.at_canonicalize a) (co_argv p) = Some files /\
    accepted r (SubprocessModel.RustcComplete (co_sel p) files) /\
    (SubprocessSpec.may_use_unsafe (cf_permissions config) (co_sel p) \/
     lit "-Funsafe-code" ∈ SubprocessModel.cm_args command /\
     forall f, f ∈ files -> exists bytes, SubprocessModel.at_read a f = Some bytes /\
       SubprocessSpec.not_used unsafe_use lexer bytes) /\
    (SubprocessSpec.may_use_extern (cf_permissions config) (rc_version (cf_raw config)) (co_sel p) \/
     lit "-Fmissing-unsafe-on-extern" ∈ SubprocessModel.cm_args command /\
     forall f, f ∈ files -> exists bytes, SubprocessModel.at_read a f = Some bytes /\
       SubprocessSpec.not_used extern_use lexer bytes).
Proof.
  intros print parse codec doc load lexer parse_message rustc exe ui_ok r p Hlex B Hs Hre Hp.
  assert (Hb : rr_build (cr_results r) = true).
  { apply (UiProps.C94_success ui_ok (cr_results r) (cr_store r) (cr_sent r)); by destruct B. }
  pose proof (belongs_built _ _ _ _ _ _ _ _ B Hre Hb) as Hok.
  pose proof (LaunchProofs.server_inv (cr_served r)) as I.
  pose proof (LaunchProofs.inv_ok _ _ I Hok) as Hc.
  destruct (belongs_cargo _ _ _ _ _ _ _ _ B p Hc Hp) as (evs & out & err & He). unfold process_of in He.
  destruct (SubprocessProps.C34_success _ _ _ _ _ _ _ _ _ _ Hlex He)
    as (before & a & after & evs0 & ps & version & c & files & Ha & Hconf & _ & Hprog & Hrun & Hfiles & Hans & Hu & Hx).
  assert (Hin : a ∈ co_attempts p) by (rewrite Ha; apply elem_of_app; right; left).
  destruct (belongs_config _ _ _ _ _ _ _ _ B p a ps version Hp Hin Hconf) as (b & e & s & sc & Er & Hrun' & Hpc & -> & ->).
  destruct (CompileProofs.found_loaded print parse codec load _ _ _ _ Hrun' Hpc) as (d & cfg & x & Hd & Hl & ->).
  exists a, d, cfg, x, c, out, err, files. split; [done|].
  split; [destruct Hd as [->|Hd]; [by left|right; rewrite Er; apply elem_of_app; by left]|].
  split; [done|]. split; [done|]. split; [done|]. split; [done|]. split; [|split; [exact Hu|exact Hx]].
  destruct (belongs_answer _ _ _ _ _ _ _ _ B p a _ _ Hp Hin Hans) as (i & st & Hi & Ht). exists i.
  split; [by apply (LaunchProps.C156_told (cr_served r) i _ st Hi)|].
  destruct (LaunchProps.C157_order (cr_served r)) as [[rest Hr] _]. rewrite Hr.
  apply lookup_app_l_Some. by rewrite list_lookup_fmap, Hi.
Qed.
Print Assumptions C207_compiled.

(** A run in which a crate first uses unsafe code without permission, the user allows it in the file, and the second
    attempt succeeds. *)
Definition cp_unsafe : SubprocessModel.request :=
  SubprocessModel.UsesUnsafe SubprocessProps.ex_sel [(lit "/w/src/lib.rs", 3, 5)].
Definition cp_complete : SubprocessModel.request :=
  SubprocessModel.RustcComplete SubprocessProps.ex_sel [lit "/w/src/lib.rs"].

Definition cp_answer (q : SubprocessModel.request) : option outcome :=
  match q with
  | SubprocessModel.UsesUnsafe sel places =>
      if decide (places = [(lit "/w/src/lib.rs", 3, 5)] /\
                 sel = SubprocessProps.ex_sel) then Some Continue else None
  | SubprocessModel.RustcComplete sel files =>
      if decide (files = [lit "/w/src/lib.rs"] /\ sel = SubprocessProps.ex_sel) then Some Continue else None
  | _ => None
  end.

Definition cp_reloads : list (FlowModel.flow_event (doc := table)) :=
  FlowProps.fl_run1 ++ FlowModel.FSave FlowProps.fl_doc2 :: FlowProps.fl_run1.
Definition cp_config (n : nat) : option (permissions * Z) :=
  s ← FlowModel.flow_run FlowProofs.a_printer FlowProps.fl_table_load (FlowModel.flow_init FlowProps.fl_doc) (take n cp_reloads);
  c ← FlowModel.process_config FlowProofs.a_parser s;
  Some (FlowModel.sc_permissions c, FlowModel.cm_version (FlowModel.sc_common c)).
Definition cp_attempt (n : nat) : SubprocessModel.attempt :=
  SubprocessModel.Attempt (cp_config n) SubprocessProps.ex_rustc SubprocessProps.ex_read SubprocessProps.ex_canonicalize cp_answer.
Definition cp_compiler : compiler :=
  Compiler SubprocessProps.ex_sel SubprocessProps.ex_argv [cp_attempt 4; cp_attempt 9].

Definition cp_serve (i : nat) (q : SubprocessModel.request) : list (LaunchModel.happening SubprocessModel.request) :=
  [LaunchModel.Connects (LaunchModel.Sends q); LaunchModel.Loop; LaunchModel.Loop; LaunchModel.Loop;
   LaunchModel.Handler i (Some Continue) true; LaunchModel.Handler i None true; LaunchModel.Handler i None true;
   LaunchModel.Handler i None true].
Definition cp_served : list (LaunchModel.happening SubprocessModel.request) :=
  cp_serve 0 cp_unsafe ++ cp_serve 1 cp_complete ++ [LaunchModel.CargoExits (Some 0%Z); LaunchModel.Loop].
Definition cp_run : compile_run table :=
  CompileRun table (UiProps.run_ex (Some 0%Z) false) store_init [] cp_served FlowProps.fl_doc cp_reloads [cp_compiler].

Example C207_ex :
  belongs FlowProofs.a_printer FlowProofs.a_parser FlowProps.fl_table_load SubprocessProps.whole SubprocessProps.ex_parse
    (lit "rustc") (lit "cackle") cp_run /\
  SubprocessSpec.lexer_ok SubprocessProps.whole /\ exit_with true (cr_results cp_run) = Success /\
  rr_replay (cr_results cp_run) = false /\ cp_compiler ∈ cr_compilers cp_run /\
  exists c1 c2,
    process_of SubprocessProps.whole SubprocessProps.ex_parse (lit "rustc") (lit "cackle") cp_compiler =
      ([SubprocessModel.Ran c1; SubprocessModel.Asked cp_unsafe; SubprocessModel.Ran c2; SubprocessModel.Asked cp_complete],
       SubprocessModel.Exits 0 (lit "out") (lit "note")).
Proof.
  assert (E : exists c1 c2,
    process_of SubprocessProps.whole SubprocessProps.ex_parse (lit "rustc") (lit "cackle") cp_compiler =
      ([SubprocessModel.Ran c1; SubprocessModel.Asked cp_unsafe; SubprocessModel.Ran c2; SubprocessModel.Asked cp_complete],
       SubprocessModel.Exits 0 (lit "out") (lit "note"))).
  { eexists _, _. vm_compute. reflexivity. }
  assert (A : forall a, a ∈ co_attempts cp_compiler -> exists n, a = cp_attempt n).
  { intros a Ha. apply elem_of_cons in Ha as [->|Ha]; [by exists 4|]. apply elem_of_list_singleton in Ha as ->. by exists 9. }
  split; [|split; [exact SubprocessProps.whole_ok|split; [done|split; [done|split; [left|exact E]]]]].
  constructor.
  - by exists [].
  - done.
  - done.
  - done.
  - intros _ _. by vm_compute.
  - intros p _ Hp. apply elem_of_list_singleton in Hp as ->. destruct E as (c1 & c2 & E). eexists _, _, _. exact E.
  - intros p a ps version Hp Ha. apply elem_of_list_singleton in Hp as ->. destruct (A a Ha) as [n ->].
    cbn [cp_attempt SubprocessModel.at_config]. unfold cp_config. intros H.
    destruct (FlowModel.flow_run _ _ _ _) as [s|] eqn:Es; [|done]. cbn [mbind option_bind] in H.
    destruct (FlowModel.process_config _ s) as [c|] eqn:Ec; [|done]. cbn [mbind option_bind] in H.
    assert (ps = FlowModel.sc_permissions c /\ version = FlowModel.cm_version (FlowModel.sc_common c)) as [-> ->] by (by injection H).
    exists (take n cp_reloads), (drop n cp_reloads), s, c. split; [by rewrite take_drop|]. done.
  - intros p a q o Hp Ha. apply elem_of_list_singleton in Hp as ->. destruct (A a Ha) as [n ->].
    cbn [cp_attempt SubprocessModel.at_answer]. intros H.
    assert (Hq : (q = cp_unsafe \/ q = cp_complete) /\ o = Continue).
    { unfold cp_answer in H. destruct q as [sel files|sel places|sel places|]; try done;
        (destruct (decide _) as [[-> ->]|]; [|done]); injection H as <-; split; try done; [by right|by left]. }
    destruct Hq as [[->| ->] ->]; [exists 0|exists 1]; eexists; (split; [vm_compute; reflexivity|reflexivity]).
Qed.

(** ** C208: what a compiler linked was judged, with a sub-command too *)

From Verif Require Import NamesModel CheckerModel CheckerSpec CheckerProps DepsSpec DepsProps GraphModel GraphSpec GraphProps
  CollectModel CollectSpec CollectProofs CollectProps ArchiveModel ArchiveSpec ArchiveProofs ArchiveProps.

(** If [cargo acl] exits with success, then for every crate that cargo had compiled and that was linked, every object
    that the linker was given from the target directory was read before the compiler could go on, and every use of an API
    in an examined section of it is granted in a configuration that was loaded before its check ended, or what is shown
    for it is excused. *)
Theorem C208_linked :
  forall (print : FlowModel.json -> str) (parse_json : str -> option FlowModel.json),
  FlowSpec.reads_back print parse_json ->
  forall (doc : Type) (load : doc -> option (config * FlowModel.extra)) (lexer : str -> list lexed)
         (parse_message : str -> option SubprocessModel.message) (rustc exe : str) (ui_ok : bool)
         (w : checked_run doc) (p : compiler)
         (open : str -> option opened) (parse : str -> option obj_file) (read_binary : str -> option binary)
         (canonicalize : str -> option str) (target : str) (details : CheckerModel.link_info -> DepsModel.link_info)
         (enc : full_usage -> nat) (li : CheckerModel.link_info) (args : list str) (bytes : str),
  let env := ch_env w in let es := ch_events w in let requests := ch_requests w in
  let read := fun l => read_link open parse read_binary canonicalize target (details l) in
  let scan := graph_scan env enc read in
  SubprocessSpec.lexer_ok lexer ->
  belongs print parse_json load lexer parse_message rustc exe (ch_run w) -> checks w -> ch_scan w = scan ->
  exit_with ui_ok (cr_results (ch_run w)) = Success -> rr_replay (cr_results (ch_run w)) = false ->
  p ∈ cr_compilers (ch_run w) -> ELinker li ∈ es -> li_sel li = co_sel p ->
  (forall c, ELoad c ∈ es -> made_for (en_index env) c) ->
  NoDup (map li_sel (links es)) ->
  (forall f, read li = Some f -> one_debug_name (map fst (fa_debug f)) (fa_references f)) ->
  (forall q, q ∈ args -> plain_path q) -> link_info_from_args args = Some (details li) ->
  DepsSpec.resolved target -> (forall q c, canonicalize q = Some c -> DepsSpec.resolved c) ->
  linked_from open canonicalize target args bytes ->
  exists i h files, es !! i = Some (EComplete h) /\
  accepted (ch_run w) (SubprocessModel.RustcComplete (co_sel p) files) /\ requests h = RustcOutput (co_sel p) files /\
  exists f b bin o, read li = Some f /\ read_binary (li_output (details li)) = Some b /\
    load_symbols (bi_symbols b) ∅ = Some bin /\ parse bytes = Some o /\
    (well_formed o ->
     forall sec first a d off t s, examined o bin (list_to_map (bi_debug b)) sec first a d ->
       (off, t) ∈ sc_relocations sec -> refers_to o bin t s ->
     exists nm loc r, bi_frames b (a + off - os_address first) = Some (nm, loc) /\
       reference_at (list_to_map (bi_debug b)) first a d off nm loc s r /\
     exists j, j <= i /\ es !! j = Some (EComplete h) /\
       forall apis, classifies (apis_in_force (after env scan requests (take i es))) apis ->
       let pkgs := pkg_ids_for_source env (sy_checker (after env scan requests (take (S j) es))) in
       forall pkg api name src loc from sc,
         charged apis pkgs r pkg api name src loc ->
         CollectSpec.shown_as (nd_names (rf_from r)) from -> scope_in (li_sel li) pkg sc ->
         granted_by (take (S i) es) (pi_name pkg, sc) api \/
         exists r' name' src' outer' rest, r' ∈ fa_references f /\ charged apis pkgs r' pkg api name' src' loc /\
           CollectSpec.shown_as (nd_names (rf_from r')) from /\ no_longer src' src /\ outer_file r' outer' /\
           excused env (sy_checker (after env scan requests (take (S i) es))) pkg (ApiUsage name' outer' rest)).
Proof.
  intros print parse_json codec doc load lexer parse_message rustc exe ui_ok w p open parse read_binary canonicalize
    target details enc li args bytes env es requests read scan Hlex B C Hscan Hs Hre Hp Hli Hsel Hmade Hnd Hone Hplain
    Hargs Ht Hc Hl.
  destruct (C207_compiled print parse_json codec doc load lexer parse_message rustc exe ui_ok (ch_run w) p Hlex B Hs Hre Hp)
    as (a & d & cfg & x & c & out & err & files & _ & _ & _ & _ & _ & _ & Hacc & _).
  assert (Hacc' := Hacc). destruct Hacc' as (h & Hd & Hq). apply elem_of_list_lookup in Hli as [k Hk].
  destruct (CompileProofs.analysed w h (co_sel p) files k li C Hnd Hd Hq Hk Hsel) as (i & log & Hi & Ho).
  exists i, h, files. split; [exact Hi|]. split; [exact Hacc|].
  split; [exact (proj1 (checks_decided w C h (co_sel p) files Hd Hq))|].
  unfold ch_outcomes in Ho. rewrite Hscan in Ho.
  exact (C197_judged open parse read_binary canonicalize target details env enc requests es i h li log args bytes
    Hmade Hnd Hi Ho Hone Hplain Hargs Ht Hc Hl).
Qed.
Print Assumptions C208_linked.

(** Calls that the compiler has inlined are judged likewise. *)
Theorem C208_inlined :
  forall (print : FlowModel.json -> str) (parse_json : str -> option FlowModel.json),
  FlowSpec.reads_back print parse_json ->
  forall (doc : Type) (load : doc -> option (config * FlowModel.extra)) (lexer : str -> list lexed)
         (parse_message : str -> option SubprocessModel.message) (rustc exe : str) (ui_ok : bool)
         (w : checked_run doc) (p : compiler)
         (open : str -> option opened) (parse : str -> option obj_file) (read_binary : str -> option binary)
         (canonicalize : str -> option str) (target : str) (details : CheckerModel.link_info -> DepsModel.link_info)
         (enc : full_usage -> nat) (li : CheckerModel.link_info),
  let env := ch_env w in let es := ch_events w in let requests := ch_requests w in
  let read := fun l => read_link open parse read_binary canonicalize target (details l) in
  let scan := graph_scan env enc read in
  SubprocessSpec.lexer_ok lexer ->
  belongs print parse_json load lexer parse_message rustc exe (ch_run w) -> checks w -> ch_scan w = scan ->
  exit_with ui_ok (cr_results (ch_run w)) = Success -> rr_replay (cr_results (ch_run w)) = false ->
  p ∈ cr_compilers (ch_run w) -> ELinker li ∈ es -> li_sel li = co_sel p ->
  (forall c, ELoad c ∈ es -> made_for (en_index env) c) ->
  NoDup (map li_sel (links es)) ->
  (forall f, read li = Some f -> one_debug_name (map fst (fa_debug f)) (fa_references f)) ->
  exists i h, es !! i = Some (EComplete h) /\
  exists f b, read li = Some f /\ read_binary (li_output (details li)) = Some b /\
    forall x, x ∈ bi_inlined b ->
    exists r, inlined_use x r /\
    exists j, j <= i /\ es !! j = Some (EComplete h) /\
      forall apis, classifies (apis_in_force (after env scan requests (take i es))) apis ->
      let pkgs := pkg_ids_for_source env (sy_checker (after env scan requests (take (S j) es))) in
      forall pkg api name src loc from sc,
        charged apis pkgs r pkg api name src loc ->
        CollectSpec.shown_as (nd_names (rf_from r)) from -> scope_in (li_sel li) pkg sc ->
        granted_by (take (S i) es) (pi_name pkg, sc) api \/
        exists r' name' src' outer' rest, r' ∈ fa_references f /\ charged apis pkgs r' pkg api name' src' loc /\
          CollectSpec.shown_as (nd_names (rf_from r')) from /\ no_longer src' src /\ outer_file r' outer' /\
          excused env (sy_checker (after env scan requests (take (S i) es))) pkg (ApiUsage name' outer' rest).
Proof.
  intros print parse_json codec doc load lexer parse_message rustc exe ui_ok w p open parse read_binary canonicalize
    target details enc li env es requests read scan Hlex B C Hscan Hs Hre Hp Hli Hsel Hmade Hnd Hone.
  destruct (C207_compiled print parse_json codec doc load lexer parse_message rustc exe ui_ok (ch_run w) p Hlex B Hs Hre Hp)
    as (a & d & cfg & x & c & out & err & files & _ & _ & _ & _ & _ & _ & (h & Hd & Hq) & _).
  apply elem_of_list_lookup in Hli as [k Hk].
  destruct (CompileProofs.analysed w h (co_sel p) files k li C Hnd Hd Hq Hk Hsel) as (i & log & Hi & Ho).
  exists i, h. split; [exact Hi|]. unfold ch_outcomes in Ho. rewrite Hscan in Ho.
  exact (C206_inlined open parse read_binary canonicalize target details env enc requests es i h li log Hmade Hnd Hi Ho Hone).
Qed.
Print Assumptions C208_inlined.

(** The run of C197, in which a use of [std::fs] is first a problem and then granted, made by a run with a sub-command. *)
Definition cj_complete : SubprocessModel.request := SubprocessModel.RustcComplete foo_bin [lit "/foo/main.rs"].
Definition cj_attempt : SubprocessModel.attempt :=
  SubprocessModel.Attempt (cp_config 4) (fun _ => Some (SubprocessModel.ProcOutput (Some 0%Z) [] []))
    (fun path => if str_eqb path (lit "/t/foo.d") then Some (lit "/foo/main.rs:" ++ [nl])
                 else if str_eqb path (lit "/foo/main.rs") then Some (lit "fn") else None)
    Some (fun q => match q with
                   | SubprocessModel.RustcComplete sel files =>
                       if decide (files = [lit "/foo/main.rs"] /\ sel = foo_bin) then Some Continue else None
                   | _ => None
                   end).
Definition cj_compiler : compiler := Compiler foo_bin SubprocessProps.ex_argv [cj_attempt].
Definition cj_results : run_results :=
  RunResults true false false Continue true None Continue (Some Continue) Continue true true false false GiveUp.
Definition cj_run : checked_run table :=
  CheckedRun table
    (CompileRun table cj_results store_init [] (cp_serve 0 cj_complete ++ [LaunchModel.CargoExits (Some 0%Z); LaunchModel.Loop])
       FlowProps.fl_doc cp_reloads [cj_compiler])
    ex_env (ar_scan ar_entries (lit "/t")) foo_request ar_events.

Example C208_ex :
  belongs FlowProofs.a_printer FlowProofs.a_parser FlowProps.fl_table_load SubprocessProps.whole SubprocessProps.ex_parse
    (lit "rustc") (lit "cackle") (ch_run cj_run) /\ checks cj_run /\
  exit_with true (cr_results (ch_run cj_run)) = Success /\ rr_replay (cr_results (ch_run cj_run)) = false /\
  rr_command (cr_results (ch_run cj_run)) = true /\
  cj_compiler ∈ cr_compilers (ch_run cj_run) /\ ELinker bin_a ∈ ch_events cj_run /\ li_sel bin_a = co_sel cj_compiler.
Proof.
  split; [|split; [|split; [done|split; [done|split; [done|split; [left|split; [right; left|done]]]]]]].
  - constructor.
    + by exists [].
    + done.
    + done.
    + done.
    + intros _ _. by vm_compute.
    + intros p _ Hp. apply elem_of_list_singleton in Hp as ->. eexists _, _, _. vm_compute. reflexivity.
    + intros p a ps version Hp Ha. apply elem_of_list_singleton in Hp as ->. apply elem_of_list_singleton in Ha as ->.
      cbn [cj_attempt SubprocessModel.at_config]. unfold cp_config. intros H.
      destruct (FlowModel.flow_run _ _ _ _) as [s|] eqn:Es; [|done]. cbn [mbind option_bind] in H.
      destruct (FlowModel.process_config _ s) as [c|] eqn:Ec; [|done]. cbn [mbind option_bind] in H.
      assert (ps = FlowModel.sc_permissions c /\ version = FlowModel.cm_version (FlowModel.sc_common c)) as [-> ->] by (by injection H).
      exists (take 4 cp_reloads), (drop 4 cp_reloads), s, c. split; [by rewrite take_drop|]. done.
    + intros p a q o Hp Ha. apply elem_of_list_singleton in Hp as ->. apply elem_of_list_singleton in Ha as ->.
      cbn [cj_attempt SubprocessModel.at_answer]. intros H. destruct q as [sel files| | |]; try done.
      destruct (decide _) as [[-> ->]|]; [|done]. injection H as <-. exists 0. eexists.
      split; [vm_compute; reflexivity|reflexivity].
  - constructor.
    + intros i sel files _ Hr.
      assert (E : LaunchSpec.requests (cr_served (ch_run cj_run)) = [cj_complete]) by (vm_compute; reflexivity).
      rewrite E in Hr. destruct i as [|i]; [|by destruct i]. cbn [lookup list_lookup] in Hr. unfold cj_complete in Hr.
      assert (sel = foo_bin /\ files = [lit "/foo/main.rs"]) as [-> ->] by (split; congruence).
      split; [done|]. exists 4, (Some bin_a), None. split; [done|]. unfold ch_outcomes.
      cbn [cj_run ch_env ch_scan ch_requests ch_events]. rewrite C197_ex. split; [done|].
      intros m Hm He. destruct m as [|[|[|[|m]]]]; try done; [|lia]. eexists _, _, _, _. reflexivity.
    + intros li k n h Hk Hn _. destruct k as [|[|[|[|[|k]]]]]; try done. destruct n as [|[|n]]; try done. lia.
    + intros li h h' n n' _ Hn Hn' _ _. assert (A : forall n h, ch_events cj_run !! n = Some (EComplete h) -> h = 0).
      { intros m g Hm. destruct m as [|[|[|[|[|m]]]]]; try done; cbn in Hm; congruence. }
      by rewrite (A n h Hn), (A n' h' Hn').
Qed.
