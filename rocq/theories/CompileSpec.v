(** What holds between the parts of a run. *)
From Verif Require Import Base TextModel ConfigModel ProblemModel StoreModel ScannerModel UiModel CompileModel.
From Verif Require CheckerModel CheckerSpec StoreSpec LaunchModel LaunchSpec FlowModel SubprocessModel.

Section run.
  Context (print : FlowModel.json -> str) (parse : str -> option FlowModel.json).
  Context {doc : Type} (load : doc -> option (config * FlowModel.extra)).
  Context (lexer : str -> list lexed) (parse_message : str -> option SubprocessModel.message) (rustc exe : str).

  (** The whole of what a wrapper does and how it ends. *)
  Definition process_of (p : compiler) : list SubprocessModel.event * SubprocessModel.ending :=
    SubprocessModel.proxy_rustc lexer parse_message rustc exe (co_sel p) (co_argv p) (co_attempts p).

  (** The configuration that a process finds at some time of the run. *)
  Definition found_at_some_time (r : compile_run doc) (ps : permissions) (version : Z) : Prop :=
    exists before after s c,
      cr_reloads r = before ++ after /\
      FlowModel.flow_run print load (FlowModel.flow_init (cr_file r)) before = Some s /\
      FlowModel.process_config parse s = Some c /\
      ps = FlowModel.sc_permissions c /\ version = FlowModel.cm_version (FlowModel.sc_common c).

  (** The parts fit together: line 439 reads the flag of the store, and an outcome that is given up has been given up
      in the store; the build is a success if the loop says so (main.rs:426-432); cargo exits with 0 only if
      every compiler it started did; a compiler finds the configuration that was last written for it; the answer it
      gets was written by the thread that served its request. *)
  Record belongs (r : compile_run doc) : Prop := {
    belongs_history : StoreSpec.history (cr_store r) (cr_sent r);
    belongs_aborted : rr_aborted (cr_results r) = st_aborted (cr_store r);
    belongs_initial : rr_initial (cr_results r) = Some GiveUp -> exists c, GiveUp ∈ StoreSpec.received (cr_sent r) c;
    belongs_imports : rr_imports (cr_results r) = GiveUp -> exists c, GiveUp ∈ StoreSpec.received (cr_sent r) c;
    belongs_built : rr_replay (cr_results r) = false -> rr_build (cr_results r) = true ->
      LaunchModel.sv_result (LaunchModel.server_run LaunchModel.server_init (cr_served r)) = Some LaunchModel.BuildOk;
    belongs_cargo : forall p,
      LaunchModel.sv_cargo (LaunchModel.server_run LaunchModel.server_init (cr_served r)) = Some (Some 0%Z) ->
      p ∈ cr_compilers r -> exists evs out err, process_of p = (evs, SubprocessModel.Exits 0 out err);
    belongs_config : forall p a ps version, p ∈ cr_compilers r -> a ∈ co_attempts p ->
      SubprocessModel.at_config a = Some (ps, version) -> found_at_some_time r ps version;
    belongs_answer : forall p a q o, p ∈ cr_compilers r -> a ∈ co_attempts p ->
      SubprocessModel.at_answer a q = Some o -> exists i st,
        LaunchModel.sv_handlers (LaunchModel.server_run LaunchModel.server_init (cr_served r)) !! i = Some (q, st) /\
        LaunchSpec.told st = Some o }.

  (** The file had this content at the start or later in the run. *)
  Definition content_of_file (r : compile_run doc) (d : doc) : Prop :=
    d = cr_file r \/ FlowModel.FSave d ∈ cr_reloads r.

  (** The main process has decided that a request may continue. *)
  Definition accepted (r : compile_run doc) (q : SubprocessModel.request) : Prop :=
    exists i, LaunchSpec.decided (cr_served r) i (Some Continue) /\ LaunchSpec.requests (cr_served r) !! i = Some q.
End run.

(** ** The checker during a run *)

Section checked.
  Context {doc : Type}.

  Definition ch_outcomes (w : checked_run doc) : list CheckerModel.outcome_of :=
    CheckerSpec.outcomes (ch_env w) (ch_scan w) (ch_requests w) (ch_events w).

  (** [handle_request] (main.rs:578-605): the handler checks until there are no problems, and only then lets the
      compiler go on; an error ends it. A call of the linker is reported before the compiler that makes it completes;
      there is one compiler for each crate that is linked. *)
  Record checks (w : checked_run doc) : Prop := {
    checks_decided : forall i sel files,
      LaunchSpec.decided (cr_served (ch_run w)) i (Some Continue) ->
      LaunchSpec.requests (cr_served (ch_run w)) !! i = Some (SubprocessModel.RustcComplete sel files) ->
      ch_requests w i = CheckerModel.RustcOutput sel files /\
      exists n taken log, ch_events w !! n = Some (CheckerModel.EComplete i) /\
        ch_outcomes w !! n = Some (CheckerModel.OComplete taken log (Some [])) /\
        forall m, m < n -> ch_events w !! m = Some (CheckerModel.EComplete i) ->
          exists taken log p ps, ch_outcomes w !! m = Some (CheckerModel.OComplete taken log (Some (p :: ps)));
    checks_linked : forall li k n h,
      ch_events w !! k = Some (CheckerModel.ELinker li) -> ch_events w !! n = Some (CheckerModel.EComplete h) ->
      CheckerModel.ro_sel (ch_requests w h) = CheckerModel.li_sel li -> k < n;
    checks_one : forall li h h' n n', CheckerModel.ELinker li ∈ ch_events w ->
      ch_events w !! n = Some (CheckerModel.EComplete h) -> ch_events w !! n' = Some (CheckerModel.EComplete h') ->
      CheckerModel.ro_sel (ch_requests w h) = CheckerModel.li_sel li ->
      CheckerModel.ro_sel (ch_requests w h') = CheckerModel.li_sel li -> h = h' }.
End checked.
