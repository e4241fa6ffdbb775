(** Theorems about the directory that is analysed, the built-in definitions, the initial configuration, the
    prompt of the basic interface, replayed requests and offered imports. *)
From Coq Require Import NArith.
From Verif Require Import Base BaseFacts TextModel ApiMapModel ApiMapSpec ApiMapProofs ConfigModel ConfigSpec
  ConfigProofs ConfigLoadProofs ProblemModel StoreModel TomlModel EditorModel EditorProps DemangleModel IndexModel
  ReportModel ReportProofs FrontModel FrontSpec FrontProofs FrontInitProofs FrontReplayProofs.

(** ** C172: without a path, the nearest directory with a manifest is analysed *)

Theorem C172_nearest_manifest :
  forall (exists_file : list str -> bool) (cwd : list str),
  (forall dir, root_path exists_file None (Some cwd) = Some dir <-> nearest_manifest exists_file cwd dir) /\
  (root_path exists_file None (Some cwd) = None <->
     forall dir, dir `prefix_of` cwd -> ~ has_manifest exists_file dir).
Proof. intros ex cwd. split; [intros dir; apply root_nearest|apply root_none]. Qed.
Print Assumptions C172_nearest_manifest.

Example C172_ex :
  let files := [[lit "w"; lit "Cargo.toml"]; [lit "w"; lit "crates"; lit "a"; lit "Cargo.toml"]] in
  let ex := fun p => bool_decide (p ∈ files) in
  root_path ex None (Some [lit "w"; lit "crates"; lit "a"; lit "src"]) = Some [lit "w"; lit "crates"; lit "a"] /\
  root_path ex None (Some [lit "w"; lit "crates"]) = Some [lit "w"] /\
  root_path ex None (Some [lit "tmp"]) = None.
Proof. by vm_compute. Qed.

(** ** C173: the APIs of the standard library *)

Theorem C173_std_apis :
  forall (exports : str -> list nat -> option (gmap str api_config)) (idx : crate_index)
         (root : option str) (file : raw_config) (c : config) (name : list str),
  load_config built_ins exports idx root file = Loaded c ->
  exists apis, apis_for_name (map_to_list (rc_apis (cf_raw c))) name = Some apis /\
    forall api, api ∈ std_api_names -> rc_apis file !! api = None ->
      (api ∈ apis <-> api ∈ rc_import_std file /\ std_api name api).
Proof. exact std_classification. Qed.
Print Assumptions C173_std_apis.

(** A file that imports some APIs and defines nothing itself. *)
Definition imports_std (apis : list str) : raw_config :=
  RawConfig 3 false apis ∅ ∅ sandbox_default sandbox_default.
Definition no_exports (_ : str) (_ : list nat) : option (gmap str api_config) := None.
Definition std_apis_of (apis : list str) (name : list str) : option (list str) :=
  match load_config built_ins no_exports [] (Some (lit "/w")) (imports_std apis) with
  | Loaded c => elements <$> apis_for_name (map_to_list (rc_apis (cf_raw c))) name
  | _ => None
  end.

Example C173_ex :
  std_apis_of [lit "fs"; lit "process"] [lit "std"; lit "fs"; lit "read"] = Some [lit "fs"] /\
  std_apis_of [lit "fs"; lit "process"] [lit "std"; lit "process"; lit "Command"; lit "new"] = Some [lit "process"] /\
  std_apis_of [lit "fs"; lit "process"] [lit "std"; lit "process"; lit "exit"] = Some [] /\
  std_apis_of [lit "fs"; lit "terminate"] [lit "std"; lit "process"; lit "exit"] = Some [lit "terminate"] /\
  std_apis_of [lit "fs"] [lit "std"; lit "process"; lit "Command"] = Some [] /\
  std_apis_of std_api_names [lit "std"; lit "os"; lit "unix"; lit "net"; lit "UnixStream"]
    = Some [lit "unix_sockets"].
Proof. by vm_compute. Qed.

(** ** C174: the prompt of the basic interface does what the number says *)

Theorem C174_number_applies :
  forall (apply : edit -> table -> option table) (fixes : list edit) (s : prompt_state) (line : str)
         (t : N) (i : nat) (e : edit) (d d' : table),
  (N.of_nat (length fixes) <= u64_max)%N ->
  chooses (length fixes) line i -> fixes !! i = Some e -> ps_file s = Doc d -> apply e d = Some d' ->
  prompt_step apply fixes s (EvLine line (Some t)) = Ends (PromptState (Doc d') (Some t) (Some t)) Fixed.
Proof. exact prompt_chosen. Qed.
Print Assumptions C174_number_applies.

Theorem C174_difference :
  forall (apply : edit -> table -> option table) (fixes : list edit) (s : prompt_state) (line : str)
         (written : option N) (i : nat) (e : edit) (d d' : table),
  (N.of_nat (length fixes) <= u64_max)%N ->
  asks_for_difference (length fixes) line i -> fixes !! i = Some e -> ps_file s = Doc d ->
  apply e d = Some d' ->
  prompt_step apply fixes s (EvLine line written) = Stays s [ODiff i d d'].
Proof. exact prompt_diff. Qed.
Print Assumptions C174_difference.

Theorem C174_other_lines :
  forall (apply : edit -> table -> option table) (fixes : list edit) (s : prompt_state) (line : str)
         (written : option N),
  (N.of_nat (length fixes) <= u64_max)%N ->
  (forall i, ~ chooses (length fixes) line i /\ ~ asks_for_difference (length fixes) line i) ->
  prompt_step apply fixes s (EvLine line written) = Stays s [OInvalid].
Proof. exact prompt_invalid. Qed.
Print Assumptions C174_other_lines.

(** Over the whole prompt the file is only changed by the fix with the number that was typed last,
    applied to the file as it was then, or by somebody else. *)
Theorem C174_file_changes :
  forall (apply : edit -> table -> option table) (fixes : list edit) (evs : list prompt_event)
         (s s' : prompt_state) (o : list prompt_output) (ending : prompt_end) (rest : list prompt_event),
  (N.of_nat (length fixes) <= u64_max)%N ->
  prompt_for_fix apply fixes s evs = (s', o, ending, rest) ->
  exists used, evs = used ++ rest /\
    match ending with
    | Fixed => exists before line t i e d d', used = before ++ [EvLine line (Some t)] /\
        chooses (length fixes) line i /\ fixes !! i = Some e /\
        (changed_by_others (ps_file s) before = Doc d \/
         changed_by_others (ps_file s) before = NotReadable /\ d = []) /\
        apply e d = Some d' /\ ps_file s' = Doc d'
    | _ => ps_file s' = changed_by_others (ps_file s) used
    end.
Proof. exact prompt_writes. Qed.
Print Assumptions C174_file_changes.

Definition fr_fixes : list edit := [SelectSandbox Disabled; SelectSandbox Bubblewrap].
Definition fr_apply : edit -> table -> option table := apply_edit any_kind built_ins.
Definition fr_doc : table := [(lit "common", Table [(lit "version", Integer 3)])].
Definition fr_with (kind : str) : table :=
  fr_doc ++ [(lit "sandbox", Table [(lit "kind", Text kind)])].

Example C174_ex :
  prompt_for_fix fr_apply fr_fixes (PromptState (Doc fr_doc) (Some 5%N) (Some 5%N))
    [EvLine (lit "3") (Some 6%N); EvTick; EvLine (lit " D1") (Some 6%N); EvLine (lit "2 ") (Some 7%N); EvTick]
  = (PromptState (Doc (fr_with (lit "Bubblewrap"))) (Some 7%N) (Some 7%N),
     [OInvalid; ODiff 0 fr_doc (fr_with (lit "Disabled"))], Fixed, [EvTick]) /\
  chooses 2 (lit "2 ") 1 /\ asks_for_difference 2 (lit " D1") 0.
Proof.
  split; [by vm_compute|]. split.
  - split; [lia|]. exists (lit "2"). split.
    + exists [], (lit " "). split_and!; try done.
      * repeat constructor.
      * intros c [= <-] [H|H]; [discriminate H|revert H; vm_compute; naive_solver].
      * intros c [= <-] [H|H]; [discriminate H|revert H; vm_compute; naive_solver].
    + exists (lit "2"). split_and!; [by left|done| |done]. repeat constructor; vm_compute; naive_solver.
  - split; [lia|]. exists "D"%char, (lit "1"). split_and!; [|by right|].
    + exists (lit " "), []. split_and!; try done.
      * repeat constructor.
      * intros c [= <-] [H|H]; [discriminate H|revert H; vm_compute; naive_solver].
      * intros c [= <-] [H|H]; [discriminate H|revert H; vm_compute; naive_solver].
    + exists (lit "1"). split_and!; [by left|done| |done]. repeat constructor; vm_compute; naive_solver.
Qed.

(** ** C175: the initial configuration restricts what was selected *)

Theorem C175_initial_configuration :
  forall (usable : sandbox_kind -> bool) (kind : sandbox_kind) (before : list str) (last enter : str)
         (rest : list str) (names_before : list (list str)) (names_last : list str),
  usable kind = true ->
  Forall2 names_in before names_before -> names_in last names_last -> selection names_before names_last ->
  NoDup (filter (fun n => n ∈ std_api_names) (concat names_before) ++ names_last) ->
  exists d, missing_configuration usable kind (before ++ last :: enter :: rest) = Created d rest /\
    forall exports idx root, exists c, load_document built_ins exports idx root d = Some (Loaded c) /\
      rc_version (cf_raw c) = 3%Z /\ sb_kind (rc_sandbox (cf_raw c)) = Some kind /\
      rc_packages (cf_raw c) = ∅ /\
      forall name, exists apis, apis_for_name (map_to_list (rc_apis (cf_raw c))) name = Some apis /\
        forall api, api ∈ apis <-> (api ∈ concat names_before \/ api ∈ names_last) /\ std_api name api.
Proof. exact initial_configuration. Qed.
Print Assumptions C175_initial_configuration.

Definition fr_created (lines : list str) : option table :=
  match missing_configuration any_kind Bubblewrap lines with
  | Created d _ => Some d
  | Panic => None
  end.
Definition fr_classified (lines : list str) (name : list str) : option (list str) :=
  d ← fr_created lines;
  match load_document built_ins no_exports [] (lit "/w") d with
  | Some (Loaded c) => elements <$> apis_for_name (map_to_list (rc_apis (cf_raw c))) name
  | _ => None
  end.

Example C175_ex :
  fr_created [lit "fs, nte"; lit "net,"; []] =
    Some [(lit "common", Table [(lit "version", Integer 3);
                                (lit "import_std", Array [Text (lit "fs"); Text (lit "net")])]);
          (lit "sandbox", Table [(lit "kind", Text (lit "Bubblewrap"))])] /\
  fr_classified [lit "fs, nte"; lit "net,"; []] [lit "std"; lit "fs"; lit "read"] = Some [lit "fs"] /\
  fr_classified [lit "fs, nte"; lit "net,"; []] [lit "std"; lit "net"; lit "TcpStream"] = Some [lit "net"] /\
  fr_classified [lit "fs, nte"; lit "net,"; []] [lit "std"; lit "env"; lit "var"] = Some [].
Proof. by vm_compute. Qed.

(** ** C176: saved requests are replayed in the order in which they came *)

Theorem C176_replayed_in_order :
  forall (R S : Type) (print : R -> str) (parse : str -> option R)
         (handle : S -> R -> S * option outcome) (s : S) (requests : list R),
  length requests <= 1000 -> (forall r, parse (print r) = Some r) ->
  let '(s', ok) := replay_requests parse handle s (foldl (save_request print) ∅ requests) in
  (ok = true <-> all_continue handle s requests s') /\ (ok = false <-> stopped handle s requests s').
Proof. exact @replay_spec. Qed.
Print Assumptions C176_replayed_in_order.

(** A handler that records what it is given and refuses a request "bad". *)
Definition recording (s : list str) (r : str) : list str * option outcome :=
  (s ++ [r], if bool_decide (r = lit "bad") then Some GiveUp else Some Continue).

Example C176_ex :
  replay_requests Some recording [] (foldl (save_request (fun r => r)) ∅ (map (fun n => number (N.of_nat n)) (seq 7 12)))
    = (map (fun n => number (N.of_nat n)) (seq 7 12), true) /\
  replay_requests Some recording [] (foldl (save_request (fun r => r)) ∅ [lit "a"; lit "bad"; lit "c"])
    = ([lit "a"; lit "bad"], false).
Proof. by vm_compute. Qed.

(** ** C177: exported APIs are offered until the file says something about them *)

Theorem C177_offered :
  forall (exports : str -> list nat -> option (gmap str api_config)) (idx : crate_index) (root : str)
         (built_ins : gmap str api_config) (file : raw_config) (c : config) (pkg : str) (v : list nat)
         (api : str) (def : api_config),
  load_config built_ins exports idx (Some root) file = Loaded c ->
  (PkgId pkg v, api, def) ∈ unused_imports exports idx (cf_raw c) <->
  (exists p, p ∈ idx /\ pk_name p = pkg /\ pk_version p = v) /\
  (exists apis, exports pkg v = Some apis /\ apis !! api = Some def) /\
  (forall pc, rc_packages file !! pkg = Some pc -> pc_import pc = None).
Proof. exact offered_iff. Qed.
Print Assumptions C177_offered.

Definition fr_api : api_config := ApiConfig [lit "foo::run"] [] [].
Definition fr_exports (pkg : str) (_ : list nat) : option (gmap str api_config) :=
  if bool_decide (pkg = lit "foo") then Some {[lit "run" := fr_api]} else None.
Definition fr_offers (pkg : list (str * item)) : option (list (pkg_id * str * api_config)) :=
  match load_document ∅ fr_exports ed_idx (lit "/w") (ed_doc 3 pkg) with
  | Some (Loaded c) => Some (unused_imports fr_exports ed_idx (cf_raw c))
  | _ => None
  end.

Example C177_ex :
  fr_offers [] = Some [(PkgId (lit "foo") [1; 0; 0], lit "run", fr_api)] /\
  fr_offers [(lit "foo", Table [(lit "allow_unsafe", Flag true)])]
    = Some [(PkgId (lit "foo") [1; 0; 0], lit "run", fr_api)] /\
  fr_offers [(lit "foo", Table [(lit "import", Array [])])] = Some [] /\
  fr_offers [(lit "foo", Table [(lit "import", Array [Text (lit "run")])])] = Some [].
Proof. by vm_compute. Qed.

(** ** C178: processes of Unix (refuted)

    What the standard library offers below [std::os::unix::process] should belong to the API for processes,
    as what it offers below [std::os::linux::process] does. The definition has [std::unix::process]
    instead, which does not exist; the name belongs to no API even if all of them are imported. *)
Theorem C178_unix_process_refuted :
  exists name : list str,
    [lit "std"; lit "os"; lit "unix"; lit "process"] `prefix_of` name /\
    (forall exports idx root file c,
       load_config built_ins exports idx root file = Loaded c ->
       (forall api, api ∈ std_api_names -> api ∈ rc_import_std file /\ rc_apis file !! api = None) ->
       exists apis, apis_for_name (map_to_list (rc_apis (cf_raw c))) name = Some apis /\
         forall api, api ∈ std_api_names -> api ∉ apis) /\
    std_apis_of std_api_names name = Some [].
Proof.
  exists [lit "std"; lit "os"; lit "unix"; lit "process"; lit "parent_id"].
  split_and!; [by exists [lit "parent_id"]| |by vm_compute].
  intros exports idx root file c Hl Hall.
  destruct (std_classification _ _ _ _ _ [lit "std"; lit "os"; lit "unix"; lit "process"; lit "parent_id"] Hl)
    as (apis & E & H).
  exists apis. split; [done|]. intros api Hapi Hin.
  destruct (Hall api Hapi) as [Hi Hn]. apply (H api Hapi Hn) in Hin as [_ Hs].
  destruct Hs;
    repeat match goal with
    | H : _ \/ _ |- _ => destruct H as [H|H]
    | H : below _ _ |- _ =>
        revert H; unfold below; apply (bool_decide_unpack (~ _)); vm_compute; exact I
    end.
Qed.
Print Assumptions C178_unix_process_refuted.

(** ** C179: repeating the names after a mistake (refuted)

    An API that the user names when asked for APIs to restrict should be restricted. After a line with a
    name that is not known the question is repeated, but the other names of the line have been taken
    already, and naming them again removes them. *)
Theorem C179_retyped_refuted :
  exists (lines : list str) (last : str) (names_before : list (list str)) (names_last : list str)
         (api : str) (d : table),
    Forall2 names_in lines names_before /\ names_in last names_last /\ selection names_before names_last /\
    api ∈ names_last /\ api ∈ std_api_names /\
    fr_created (lines ++ [last; []]) = Some d /\
    d = [(lit "common", Table [(lit "version", Integer 3);
                               (lit "import_std", Array [Text (lit "net")])]);
         (lit "sandbox", Table [(lit "kind", Text (lit "Bubblewrap"))])] /\
    fr_classified (lines ++ [last; []]) [lit "std"; lit "fs"; lit "remove_file"] = Some [] /\
    api = lit "fs".
Proof.
  assert (Hw : forall n : str, n ∈ [lit "fs"; lit "nte"; lit "net"] -> trims_to n n).
  { intros n Hn. exists [], []. rewrite app_nil_r. split_and!; [done|done|done| |].
    - intros c Hc [H|H]; revert Hn Hc H; rewrite ?elem_of_cons, elem_of_nil;
        intros [->|[->|[->|[]]]]; intros [= <-]; vm_compute; naive_solver.
    - intros c Hc [H|H]; revert Hn Hc H; rewrite ?elem_of_cons, elem_of_nil;
        intros [->|[->|[->|[]]]]; intros [= <-]; vm_compute; naive_solver. }
  assert (Hp : forall p : str, p ∈ [lit "fs"; lit "nte"; lit "net"] -> ","%char ∉ p).
  { intros n. rewrite !elem_of_cons, elem_of_nil.
    intros [->|[->|[->|[]]]]; apply (bool_decide_unpack _); vm_compute; exact I. }
  exists [lit "fs,nte"], (lit "fs,net"), [[lit "fs"; lit "nte"]], [lit "fs"; lit "net"], (lit "fs"). eexists.
  split_and!.
  - repeat constructor. exists [lit "fs"; lit "nte"], [lit "fs"; lit "nte"]. split_and!.
    + split_and!; [done| |by vm_compute]. intros p Hin. apply Hp. set_solver.
    + repeat constructor; apply Hw; set_solver.
    + by vm_compute.
  - exists [lit "fs"; lit "net"], [lit "fs"; lit "net"]. split_and!.
    + split_and!; [done| |by vm_compute]. intros p Hin. apply Hp. set_solver.
    + repeat constructor; apply Hw; set_solver.
    + by vm_compute.
  - split.
    + intros names ->%elem_of_list_singleton. exists (lit "nte"). split; [set_solver|].
      apply (bool_decide_unpack _); vm_compute; exact I.
    + intros n. rewrite !elem_of_cons, elem_of_nil.
      intros [->|[->|[]]]; apply (bool_decide_unpack _); vm_compute; exact I.
  - left.
  - left.
  - by vm_compute.
  - by vm_compute.
  - by vm_compute.
  - done.
Qed.
Print Assumptions C179_retyped_refuted.

(** ** C180: no answer to the question for the initial configuration (refuted)

    If the input ends while the initial configuration is asked for, the analysis should be given up with
    an error, as it is when the input ends at a later question; it panics instead. *)
Theorem C180_closed_input_refuted :
  exists lines : list str,
    missing_configuration any_kind Bubblewrap lines = Panic /\
    prompt_for_fix fr_apply fr_fixes (PromptState (Doc fr_doc) (Some 5%N) (Some 5%N)) []
      = (PromptState (Doc fr_doc) (Some 5%N) (Some 5%N), [], GivenUp, []).
Proof. exists []. by vm_compute. Qed.
Print Assumptions C180_closed_input_refuted.

(** ** C181: a fix that cannot be applied (refuted)

    If the chosen fix cannot be applied the user should be able to choose another one or edit the file;
    with a file that is accepted but has the packages in an inline table, or one that somebody is just
    editing, the interface ends. *)
Definition fr_inline : table :=
  [(lit "common", Table [(lit "version", Integer 3)]);
   (lit "pkg", Inline [(lit "foo", Inline [(lit "allow_unsafe", Flag false)])])].
Definition fr_unsafe : problem :=
  PDisallowedUnsafe (CrateSel (PkgId (lit "foo") [1; 0; 0]) Primary) 0.

Theorem C181_failing_fix_refuted :
  exists (d : table) (p : problem) (c : config) (line : str) (s : prompt_state),
    load_document built_ins no_exports ed_idx (lit "/w") d = Some (Loaded c) /\
    ps_file s = Doc d /\ ps_known s = ps_time s /\
    prompt_for_fix fr_apply (fixes_for_problem (fun _ => sandbox_default) (fun _ => api_config_default)
        (fun _ _ => None) p c) s [EvLine line (Some 6%N); EvLine line (Some 6%N)]
      = (s, [], Failed, [EvLine line (Some 6%N)]) /\
    prompt_for_fix fr_apply fr_fixes s [EvFile NotToml (Some 6%N); EvLine line (Some 7%N); EvTick]
      = (PromptState NotToml (Some 6%N) (ps_known s), [], Failed, [EvTick]).
Proof.
  destruct (load_document built_ins no_exports ed_idx (lit "/w") fr_inline) as [[c| |]|] eqn:E;
    [|exfalso; assert (match load_document built_ins no_exports ed_idx (lit "/w") fr_inline with
        | Some (Loaded _) => true | _ => false end = true) as X by (vm_compute; reflexivity);
      rewrite E in X; discriminate X..].
  exists fr_inline, fr_unsafe, c, (lit "1"), (PromptState (Doc fr_inline) (Some 5%N) (Some 5%N)).
  split_and!; [done|done|done| |]; by vm_compute.
Qed.
Print Assumptions C181_failing_fix_refuted.

(** ** C182: a fix keeps what the file contains (refuted)

    Applying a fix should keep the rest of the configuration. A file that cannot be read at that moment, for
    example because a byte of it is not UTF-8, is taken to be empty and overwritten. *)
Theorem C182_unreadable_refuted :
  exists (s s' : prompt_state) (line : str),
    ps_file s = Doc (ed_doc 3 ed_foo) /\
    prompt_for_fix fr_apply fr_fixes s [EvFile NotReadable (Some 6%N); EvLine line (Some 7%N)]
      = (s', [], Fixed, []) /\
    ps_file s' = Doc [(lit "sandbox", Table [(lit "kind", Text (lit "Disabled"))])].
Proof.
  exists (PromptState (Doc (ed_doc 3 ed_foo)) (Some 5%N) (Some 5%N)). eexists _, (lit "1").
  split_and!; [done|by vm_compute|by vm_compute].
Qed.
Print Assumptions C182_unreadable_refuted.

(** ** C183: replaying more than 1000 requests (refuted)

    Saved requests should be replayed in the order in which they came also if there are more than 1000; the
    names of the files are sorted as texts, and the file with number 1000 comes after the one with number
    100. *)
Theorem C183_many_requests_refuted :
  exists (requests handled : list str),
    NoDup requests /\
    replay_requests Some noting [] (foldl (save_request (fun r => r)) ∅ requests) = (handled, true) /\
    handled ≡ₚ requests /\ handled <> requests /\ ~ all_continue noting [] requests handled.
Proof.
  set (requests := (fun n => number (N.of_nat n)) <$> seq 0 1001).
  assert (Hl : length requests = 1001) by (unfold requests; by rewrite fmap_length, seq_length).
  assert (Hnd : NoDup requests).
  { apply NoDup_fmap_2; [|apply NoDup_seq]. intros m n H%number_inj. lia. }
  clearbody requests.
  destruct (order_1001 requests Hl Hnd) as (handled & E & Hp & Hne).
  exists requests, handled.
  split; [exact Hnd|]. split; [exact E|]. split; [exact Hp|]. split; [exact Hne|].
  assert (Hrec : forall s rs s1, all_continue noting s rs s1 -> s1 = s ++ rs).
  { intros s rs s1 Hc. induction Hc as [s|s r rs s1 s2 Eh Hc IH]; [by rewrite app_nil_r|].
    unfold noting in Eh. injection Eh as <-. rewrite IH, <- app_assoc. done. }
  intros Hc. apply Hrec in Hc. exact (Hne Hc).
Qed.
Print Assumptions C183_many_requests_refuted.

(** ** C184: replaying the last run (refuted)

    Replaying should repeat the requests of the run that was saved; the requests of a later run are saved
    beside those of the earlier ones, and all of them are replayed. *)
Theorem C184_last_run_refuted :
  exists earlier later : list str,
    let dir := foldl (save_request (fun r => r)) ∅ earlier in
    replay_requests Some recording [] dir = (earlier, true) /\
    replay_requests Some recording [] (foldl (save_request (fun r => r)) dir later)
      = (earlier ++ later, true) /\ earlier ++ later <> later.
Proof. exists [lit "a"; lit "b"], [lit "a"; lit "c"]. by vm_compute. Qed.
Print Assumptions C184_last_run_refuted.
