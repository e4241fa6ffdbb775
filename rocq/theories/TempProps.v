(** The temporary directory. *)
From Verif Require Import Base TempModel TempSpec TempProofs.

(** C272: a run that is not a summary, and at whose end no thread serves a request, has removed the directory it made. A directory
    that was given is never removed. *)
Theorem C272_removed (es : list temp_event) (s : temp_state) :
  ~ is_summary es -> temp_run (temp_init Owned) es = Some s -> has_exited s -> tp_handlers s = 0 -> ~ left_behind s.
Proof. apply run_removed. Qed.
Print Assumptions C272_removed.

Theorem C272_given (es : list temp_event) (s : temp_state) :
  temp_run (temp_init Borrowed) es = Some s -> left_behind s.
Proof. apply borrowed_stays. Qed.
Print Assumptions C272_given.

Example C272_example :
  let es := [RequestComes; RequestComes; RequestEnds; RequestEnds; RunReturns; UiEnds; Joins; Drops; Exits] in
  option_map (fun s => (tp_main s, tp_handlers s, tp_there s)) (temp_run (temp_init Owned) es) = Some (Gone, 0, false) /\
  option_map (fun s => (tp_main s, tp_handlers s, tp_there s)) (temp_run (temp_init Borrowed) es) = Some (Gone, 0, true).
Proof. vm_compute. auto. Qed.

(** The last request may end between the end of [run_and_report_errors] and the exit. *)
Example C272_example_late :
  let es := [RequestComes; RunReturns; UiEnds; Joins; Drops; RequestEnds; Exits] in
  option_map (fun s => (tp_main s, tp_there s)) (temp_run (temp_init Owned) es) = Some (Gone, false).
Proof. vm_compute. reflexivity. Qed.

(** C273: a summary always leaves the directory behind, since the interface waits for events that it could be sent by the
    store of problems, which it owns itself; so does a run with a request that is still judged at its end. *)
Theorem C273_summary (es : list temp_event) (k : temp_dir) (s : temp_state) :
  is_summary es -> ui_sound es -> temp_run (temp_init k) es = Some s -> left_behind s.
Proof. apply summary_leaves. Qed.
Print Assumptions C273_summary.

Theorem C273_refuted :
  exists es s, is_summary es /\ ui_sound es /\ temp_run (temp_init Owned) es = Some s /\ has_exited s /\ left_behind s.
Proof.
  exists [SummaryReturns; Exits]. eexists. split; [by left|]. split; [|split; [reflexivity|done]].
  intros H. repeat (apply elem_of_cons in H as [H|H]; [discriminate H|]). by apply elem_of_nil in H.
Qed.
Print Assumptions C273_refuted.

Theorem C273_refuted_request :
  exists es s, ~ is_summary es /\ ui_sound es /\ temp_run (temp_init Owned) es = Some s /\ has_exited s /\ left_behind s.
Proof.
  exists [RequestComes; RunReturns; UiEnds; Joins; Drops; Exits]. eexists.
  split; [|split; [|split; [reflexivity|done]]];
    intros H; repeat (apply elem_of_cons in H as [H|H]; [discriminate H|]); by apply elem_of_nil in H.
Qed.
Print Assumptions C273_refuted_request.
