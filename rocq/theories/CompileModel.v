(** The compilers of a whole run of [cargo acl]: how the results of the calls in [Cackle::run] hang together with the
    loop that serves requests, the reloads of the configuration and the wrappers of rustc that cargo starts.
    Sources: /repo/src/main.rs:357-457, /repo/src/proxy.rs:161-240, /repo/src/proxy/subprocess.rs:193-220, 246-320,
    431-449. *)
From Verif Require Import Base ConfigModel ProblemModel StoreModel UiModel.
From Verif Require LaunchModel FlowModel SubprocessModel CheckerModel.

(** One process that cargo starts in place of rustc ([proxy_rustc], subprocess.rs:193-220): the crate, the arguments,
    and the world around each of its attempts. *)
Record compiler := Compiler {
  co_sel : crate_sel;
  co_argv : list str;
  co_attempts : list SubprocessModel.attempt }.

(** A run: the results of the calls in [Cackle::run]; the store of problems at line 439 and what it had told its
    clients; what happened in the loop that serves requests
    (proxy.rs:198-237); the file with the configuration at first, the saves and reloads; the compilers. *)
Record compile_run {doc : Type} := CompileRun {
  cr_results : run_results;
  cr_store : store;
  cr_sent : list store_event;
  cr_served : list (LaunchModel.happening SubprocessModel.request);
  cr_file : doc;
  cr_reloads : list (FlowModel.flow_event (doc := doc));
  cr_compilers : list compiler }.
Arguments compile_run : clear implicits.

(** What the checker went through during such a run (CheckerModel.v): the handlers of completed compilers are numbered
    as the connections in the loop. *)
Record checked_run {doc : Type} := CheckedRun {
  ch_run : compile_run doc;
  ch_env : CheckerModel.environment;
  ch_scan : CheckerModel.checker -> CheckerModel.link_info -> option CheckerModel.scan_outputs;
  ch_requests : nat -> CheckerModel.rustc_output;
  ch_events : list CheckerModel.event }.
Arguments checked_run : clear implicits.
