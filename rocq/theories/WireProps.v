(** Absurd messages, the shown command line of the sandbox, and the output of cargo. *)
From Coq Require Import NArith.
From Verif Require Import Base BaseFacts TextModel ConfigModel IoModel SandboxModel SandboxProps LaunchSpec WireModel WireSpec WireProofs.

(** ** C200: messages with an absurd length *)

(** Not every malformed message is answered with an error: eight bytes that announce more than there is memory for
    end the process, whatever the memory and before anything else of the message has come. *)
Theorem C200_refuted {V} (from_str : str -> option V) (memory : N) :
  (memory < 2 ^ 64 - 1)%N ->
  exists stream, length stream = 8 /\ read_from_stream from_str stream = None /\ read_message memory from_str stream = Died.
Proof.
  intros Hm. exists (replicate 8 (ascii_of_nat 255)). split; [reflexivity|].
  assert (E : read_exact 8 (replicate 8 (ascii_of_nat 255)) = Some (replicate 8 (ascii_of_nat 255), [])) by (vm_compute; reflexivity).
  assert (El : from_le_bytes (replicate 8 (ascii_of_nat 255)) = (2 ^ 64 - 1)%N) by (vm_compute; reflexivity).
  unfold read_from_stream, read_message. rewrite E, El. split; [reflexivity|].
  by apply N.ltb_lt in Hm as ->.
Qed.
Print Assumptions C200_refuted.

(** ** C201: the shown command line is what was run *)

(** Pasted into bash, the shown command runs the same program with the same arguments, if each argument consists of
    characters without a meaning, or is shown in quotes and quotes suffice. *)
Theorem C201_shown (vars : str -> str) (program : str) (args : list str) :
  program <> [] -> (forall c, c ∈ program -> meaningless c) -> (forall a, a ∈ args -> ordinary a) ->
  bash_runs vars (show_command program args) [program :: args].
Proof. apply command_shown. Qed.
Print Assumptions C201_shown.

(** For the sandbox of a build script it suffices that its own arguments are like that. *)
Theorem C201_sandbox (vars : str -> str) (args : list str) (envs : list (str * option str)) (program : str) (cmd_args : list str) :
  (forall a, a ∈ args -> ordinary a) ->
  (forall n v, (n, v) ∈ envs -> ordinary n /\ forall x, v = Some x -> ordinary x) ->
  ordinary program -> (forall a, a ∈ cmd_args -> ordinary a) ->
  bash_runs vars (display_to_run args envs program cmd_args) [lit "bwrap" :: bwrap_args args envs program cmd_args].
Proof.
  intros Ha He Hp Hc. apply command_shown.
  - done.
  - intros c Hin. unfold meaningless. revert c Hin. apply Forall_forall. apply (bool_decide_unpack _). vm_compute. exact I.
  - assert (Hlit : Forall (fun w : str => forall c, c ∈ w -> meaningless c)
      [lit "--unshare-all"; lit "--uid"; lit "1000"; lit "--gid"; lit "1000"; lit "--hostname"; lit "none";
       lit "--new-session"; lit "--clearenv"; lit "--dev"; lit "/dev"; lit "--proc"; lit "/proc"; lit "--setenv";
       lit "--unsetenv"; lit "--"]).
    { repeat (apply Forall_cons; split; [unfold meaningless; apply Forall_forall; apply (bool_decide_unpack _); vm_compute; exact I|]).
      apply Forall_nil. exact I. }
    rewrite Forall_forall in Hlit.
    assert (Hw : forall w, w ∈ [lit "--unshare-all"; lit "--uid"; lit "1000"; lit "--gid"; lit "1000"; lit "--hostname"; lit "none";
       lit "--new-session"; lit "--clearenv"; lit "--dev"; lit "/dev"; lit "--proc"; lit "/proc"; lit "--setenv";
       lit "--unsetenv"; lit "--"] -> ordinary w) by (intros w Hin; left; by apply Hlit).
    clear Hlit. intros a Hin. unfold bwrap_args in Hin. rewrite !elem_of_app in Hin.
    destruct Hin as [Hin|[Hin|[Hin|[Hin|[Hin|Hin]]]]].
    + apply Hw. apply elem_of_list_lookup in Hin as [i Hi]. apply elem_of_list_lookup. exists i.
      do 9 (destruct i as [|i]; [exact Hi|]). discriminate.
    + by apply Ha.
    + apply Hw. apply elem_of_list_lookup in Hin as [i Hi]. apply elem_of_list_lookup. exists (9 + i).
      do 4 (destruct i as [|i]; [exact Hi|]). discriminate.
    + apply elem_of_list_In, in_concat in Hin as (l & Hl & Hin). apply in_map_iff in Hl as ([n v] & <- & Hin').
      apply elem_of_list_In in Hin, Hin'. destruct (He n v Hin') as [Hn Hv]. cbn [snd fst] in Hin.
      destruct v as [v|]; repeat (apply elem_of_cons in Hin as [->|Hin]); try (by apply elem_of_nil in Hin);
        auto; apply Hw; apply (bool_decide_unpack _); vm_compute; exact I.
    + repeat (apply elem_of_cons in Hin as [->|Hin]); [..|by apply elem_of_nil in Hin]; [|done].
      apply Hw; apply (bool_decide_unpack _); vm_compute; exact I.
    + by apply Hc.
Qed.
Print Assumptions C201_sandbox.

Definition wi_args : list str := [lit "--setenv"; lit "CARGO_PKG_DESCRIPTION"; lit "A ""small"" tool \o/"; lit "--tmpfs"; []].
Example C201_ex :
  show_command (lit "bwrap") wi_args = lit "bwrap --setenv CARGO_PKG_DESCRIPTION ""A \""small\"" tool \\o/"" --tmpfs """"" /\
  forall vars, bash_runs vars (show_command (lit "bwrap") wi_args) [lit "bwrap" :: wi_args].
Proof.
  split; [vm_compute; reflexivity|]. intros vars. eexists. split; [vm_compute; reflexivity|].
  constructor; [vm_compute; reflexivity|constructor].
Qed.

Example C201_ex_ordinary : forall a, a ∈ wi_args -> ordinary a.
Proof.
  intros a Hin. unfold wi_args in Hin. repeat (apply elem_of_cons in Hin as [->|Hin]); [..|by apply elem_of_nil in Hin].
  1,2,4: left; unfold meaningless; apply Forall_forall; apply (bool_decide_unpack _); vm_compute; exact I.
  - right. split; [right; left; apply (bool_decide_unpack _); vm_compute; exact I|].
    unfold quotes_help. apply Forall_forall. apply (bool_decide_unpack _). vm_compute. exact I.
  - left. intros c Hc. by apply elem_of_nil in Hc.
Qed.

(** ** C202: what a crate can put into the shown command line *)

(** The environment of a build script of a crate with this description. *)
Definition wi_host (description : str) : host :=
  ex_host [(lit "HOME", lit "/home/u"); (lit "CARGO_MANIFEST_DIR", lit "/home/u/ws/a"); (lit "PATH", lit "/usr/bin");
           (lit "CARGO_PKG_DESCRIPTION", description)].
Definition wi_program : str := lit "/home/u/ws/target/debug/build/a/build-script".
Definition wi_shown (description : str) : str :=
  display_to_run (the_args (for_perm_sel (wi_host description) (ex_config None []) wi_program)) [] wi_program [].

(** The shown command line of the sandbox is not what was run: the description of a crate is a part of it, and with
    this one bash runs another command, outside the sandbox. *)
Theorem C202_another_command_refuted :
  exists (description : str) (args : list str),
    for_perm_sel (wi_host description) (ex_config None []) wi_program = Some (Some args) /\
    exists cmds, (forall vars, bash_runs vars (display_to_run args [] wi_program []) cmds) /\
      [lit "reboot"] ∈ cmds /\ length cmds = 3.
Proof.
  exists (lit ";reboot;"). eexists. split; [vm_compute; reflexivity|]. eexists. split.
  - intros vars. eexists. split; [vm_compute; reflexivity|].
    repeat (constructor; [vm_compute; reflexivity|]). constructor.
  - split; [|reflexivity]. right. left.
Qed.
Print Assumptions C202_another_command_refuted.

(** Quotes do not help against a dollar sign, and a new line comes out as a backslash and a letter. *)
Theorem C202_other_arguments_refuted :
  exists (arg1 arg2 : str) (vars : str -> str) (other1 other2 : str), other1 <> arg1 /\ other2 <> arg2 /\
    bash_runs vars (show_command (lit "bwrap") [arg1; arg2]) [[lit "bwrap"; other1; other2]].
Proof.
  exists (lit "see $HOME."), (lit "a " ++ [nl] ++ lit "b"), (fun _ => lit "/home/u"), (lit "see /home/u."), (lit "a \nb").
  split; [done|]. split; [done|]. eexists. split; [vm_compute; reflexivity|]. constructor; [vm_compute; reflexivity|constructor].
Qed.
Print Assumptions C202_other_arguments_refuted.

(** ** C203: the output of cargo *)

(** Whatever the threads, cargo and the user interface do: of each channel the beginning of what cargo printed is on
    the terminal, in order; when [wait_for_output] returns, all of it. While the user interface has the terminal,
    nothing is written to it. *)
Theorem C203_passed_on (es : list output_event) (s : output_state) (t : channel) :
  output_run es = Some s ->
  (exists rest, printed es t = shown_of (os_shown s) t ++ rest) /\
  (output_waited s = true -> shown_of (os_shown s) t = printed es t) /\
  (os_locked s = true -> forall e s', output_run (es ++ [e]) = Some s' -> os_shown s' = os_shown s).
Proof.
  intros Hr. destruct (output_invariant es s Hr t) as [Hp He]. split; [by eexists|]. split.
  - intros Hw. unfold output_waited in Hw. apply andb_true_iff in Hw as [Ho Hx].
    assert (Ht : pi_ended (os_pipe s t) = true) by (by destruct t). destruct (He Ht) as (Hh & Hw & _).
    rewrite Hp. unfold held. rewrite Hh, Hw. by rewrite !app_nil_r.
  - intros Hl e s' Hs. rewrite output_run_snoc, Hr in Hs. by apply (output_locked s e s').
Qed.
Print Assumptions C203_passed_on.

(** When cargo has closed its output and the user interface has given back the terminal, the threads can go on to
    their end. *)
Theorem C203_ends (es : list output_event) (s : output_state) :
  output_run es = Some s -> (forall t, pi_closed (os_pipe s t) = true) -> os_locked s = false ->
  exists es' s', Forall passing es' /\ output_run (es ++ es') = Some s' /\ output_waited s' = true.
Proof. apply output_ends. Qed.
Print Assumptions C203_ends.

Definition wi_line : str := replicate 65 "a"%char ++ [nl].
Definition wi_events : list output_event :=
  [Printed Stdout wi_line; TakeLock; ReadPipe Stdout 64; Printed Stderr (lit "b" ++ [nl]); GiveLock; PassOn Stdout;
   ReadPipe Stderr 2; PassOn Stderr; ReadPipe Stdout 2; Closed Stdout; Closed Stderr; PassOn Stdout; SeeEnd Stdout; SeeEnd Stderr].
Definition wi_text : str := replicate 64 "a"%char ++ lit "b" ++ [nl] ++ lit "a" ++ [nl].

Example C203_ex :
  (exists s, output_run wi_events = Some s /\ output_waited s = true /\ shown_of (os_shown s) Stdout = wi_line /\
     shown_of (os_shown s) Stderr = lit "b" ++ [nl]) /\
  (exists s, output_run (take 4 wi_events) = Some s /\ os_locked s = true /\ output_step s (PassOn Stdout) = None).
Proof. split; eexists; (split; [vm_compute; reflexivity|]); vm_compute; auto. Qed.

(** ** C204: lines of the output *)

(** Lines are not kept whole: at most 64 bytes are passed on at once, and the other channel can come in between. *)
Theorem C204_refuted :
  exists (es : list output_event) (s : output_state) (a b : str),
    output_run es = Some s /\ output_waited s = true /\
    Printed Stdout (a ++ [nl]) ∈ es /\ printed es Stdout = a ++ [nl] /\ nl ∉ a /\
    Printed Stderr (b ++ [nl]) ∈ es /\ printed es Stderr = b ++ [nl] /\ nl ∉ b /\
    ~ lines_of (a ++ [nl]) (b ++ [nl]) (concat (map snd (os_shown s))).
Proof.
  exists wi_events. eexists. exists (replicate 65 "a"%char), (lit "b").
  split; [vm_compute; reflexivity|]. split; [vm_compute; reflexivity|].
  split; [left|]. split; [vm_compute; reflexivity|]. split; [apply (bool_decide_unpack _); vm_compute; exact I|].
  split; [do 3 right; left|]. split; [vm_compute; reflexivity|]. split; [apply (bool_decide_unpack _); vm_compute; exact I|].
  match goal with |- ~ lines_of _ _ ?x => assert (Ex : x = wi_text) by (vm_compute; reflexivity); rewrite Ex; clear Ex end.
  intros H. destruct (first_line _ _ _ H) as [E|(l & Hl & (x & Ex) & y & Ey)].
  - discriminate.
  - unfold wi_text in Ex. rewrite (app_assoc _ (lit "b")) in Ex.
    apply (cut_at nl l _ x (lit "a" ++ [nl])) in Ex; [|done|apply (bool_decide_unpack _); vm_compute; exact I].
    subst l. destruct Ey as [Ey|Ey].
    + apply (cut_at nl _ (replicate 65 "a"%char) y []) in Ey; [discriminate| |];
        apply (bool_decide_unpack _); vm_compute; exact I.
    + apply (cut_at nl _ (lit "b") y []) in Ey; [discriminate| |];
        apply (bool_decide_unpack _); vm_compute; exact I.
Qed.
Print Assumptions C204_refuted.
