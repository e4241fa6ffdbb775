(** C219-C222: the profile that is built. *)
From Verif Require Import Base BaseFacts TextModel NamesModel ApiMapModel ConfigModel ConfigSpec ProblemModel CheckerModel
  CheckerSpec CheckerProps DepsModel DepsSpec DepsProps GraphModel GraphSpec GraphProps CollectModel CollectSpec CollectProofs
  CollectProps SubprocessModel SubprocessSpec LaunchModel LaunchSpec LaunchProofs LaunchProps ArchiveModel ArchiveSpec
  ArchiveProofs ArchiveProps ProfileSpec.

(** ** C219: debug information is asked for *)

(** Whatever the profile says and whatever the arguments of cargo are: the last word by which the compiler is told
    about debug information asks for all of it. *)
Theorem C219_compiler :
  forall (rustc exe : str) (kind : crate_kind) (argv : list str) (unsafe_ok extern_ok : bool),
  exists before after,
    cm_args (get_command rustc exe kind argv unsafe_ok extern_ok) =
      before ++ [lit "-C"; lit "debuginfo=2"] ++ after /\
    forall w, w ∈ after -> ~ about_debuginfo w.
Proof.
  intros rustc exe kind argv u e. unfold get_command. destruct (kept_args (drop 2 argv) None) as [args linker].
  cbn [cm_args].
  exists args, ([lit "--error-format=json"; lit "-C"; lit "linker=" ++ exe; lit "-C"; lit "save-temps"; lit "-Ccodegen-units=1"]
     ++ (if u then [] else [lit "-Funsafe-code"]) ++ (if e then [] else [lit "-Fmissing-unsafe-on-extern"])).
  split; [done|]. intros w Hw Ha.
  rewrite !elem_of_app, !elem_of_cons, !elem_of_nil in Hw.
  destruct Ha as [->|[v Hv]].
  - repeat (destruct Hw as [Hw|Hw]; [first [discriminate Hw|done]|]).
    destruct u, e; rewrite ?elem_of_list_singleton, ?elem_of_nil in Hw; repeat (destruct Hw as [Hw|Hw]);
      first [done|discriminate Hw].
  - rewrite !elem_of_cons, elem_of_nil in Hv.
    destruct Hv as [->|[->|[->|[]]]];
      (repeat (destruct Hw as [Hw|Hw]; [first [discriminate Hw|done]|]);
       destruct u, e; rewrite ?elem_of_list_singleton, ?elem_of_nil in Hw; repeat (destruct Hw as [Hw|Hw]);
       first [done|discriminate Hw]).
Qed.
Print Assumptions C219_compiler.

(** If neither the command line nor the configuration selects a profile, cargo builds the profile [cackle] with the
    settings of development, without optimisation, with debug information and not incrementally, as long as the user
    gives no settings of their own. *)
Theorem C219_default :
  forall (dir tmpdir target_dir exe rustc names : str) (a : launch_args) (c : build_config) (sub f : str) (l : list str),
  wanted_profile a c (lit "cackle") -> wanted_features a c f -> wanted_words a c sub l ->
  (forall w, w ∈ f :: l ++ la_packages a ++ option_list (la_target a) -> ~ lit "--config" `prefix_of` w) ->
  let call := build_call dir tmpdir target_dir exe rustc names a c in
  given call (lit "cackle") (lit "inherits") ([double_quote] ++ lit "dev" ++ [double_quote]) /\
  given call (lit "cackle") (lit "opt-level") (lit "0") /\
  given call (lit "cackle") (lit "debug") (lit "true") /\
  given call (lit "cackle") (lit "incremental") (lit "false").
Proof.
  intros dir tmpdir target_dir exe rustc names a c sub f l Hp Hf Hw Hno call.
  destruct (C155_settings dir tmpdir target_dir exe rustc names a c) as (rest & Hs & Hrest).
  specialize (Hrest sub (lit "cackle") f l Hp Hf Hw).
  assert (rest = []) as ->.
  { apply Hrest. rewrite not_elem_of_cons. split; [apply (bool_decide_unpack _); vm_compute; exact I|]. intros Hin. by apply (Hno _ Hin). }
  rewrite app_nil_r in Hs. fold call in Hs.
  split_and!.
  - exists []. eexists. split; [rewrite Hs; reflexivity|].
    intros v' H. rewrite !elem_of_cons, elem_of_nil in H. repeat (destruct H as [H|H]; [discriminate H|]). done.
  - eexists [_]. eexists. split; [rewrite Hs; reflexivity|].
    intros v' H. rewrite !elem_of_cons, elem_of_nil in H. repeat (destruct H as [H|H]; [discriminate H|]). done.
  - eexists [_; _]. eexists. split; [rewrite Hs; reflexivity|].
    intros v' H. rewrite !elem_of_cons, elem_of_nil in H. repeat (destruct H as [H|H]; [discriminate H|]). done.
  - eexists [_; _; _]. eexists. split; [rewrite Hs; reflexivity|].
    intros v' H. rewrite !elem_of_cons, elem_of_nil in H. repeat (destruct H as [H|H]; [discriminate H|]). done.
Qed.
Print Assumptions C219_default.

Definition pf_args (profile : option str) : launch_args := LaunchArgs false None profile None None [].
Definition pf_config : build_config := BuildConfig None [] None.
Definition pf_settings : list str :=
  [lit "profile.cackle.inherits=" ++ [double_quote] ++ lit "dev" ++ [double_quote];
   lit "profile.cackle.opt-level=0"; lit "profile.cackle.debug=true"; lit "profile.cackle.incremental=false";
   lit "split-debuginfo=" ++ [double_quote] ++ lit "off" ++ [double_quote]].

Example C219_ex :
  wanted_profile (pf_args None) pf_config (lit "cackle") /\ wanted_features (pf_args None) pf_config [] /\
  wanted_words (pf_args None) pf_config (lit "build") [lit "--all-targets"] /\
  cm_args (get_command (lit "rustc") (lit "/cackle") Primary
    [lit "cackle"; lit "rustc"; lit "-C"; lit "debuginfo=0"; lit "-Cdebuginfo=1"] true true) =
    [lit "-Cdebuginfo=1"; lit "-C"; lit "debuginfo=2"; lit "--error-format=json"; lit "-C"; lit "linker=/cackle"; lit "-C";
     lit "save-temps"; lit "-Ccodegen-units=1"].
Proof.
  split; [right; right; done|]. split; [right; done|]. split; [split; [done|by right]|]. by vm_compute.
Qed.

(** ** C220: stripping *)

(** A profile that strips symbols makes cargo call the compiler with [-C strip=symbols], which the wrapper leaves as
    it is. In the binary without symbols nothing can be found, and a use of an API that is not granted is accepted;
    the same objects linked to a binary with its symbols are rejected. *)
Theorem C220_refuted :
  exists (argv : list str) (open : str -> option opened) (parse : str -> option obj_file)
         (canonicalize : str -> option str) (b b' : binary) (target : str) (args : list str)
         (details : DepsModel.link_info) (es : list CheckerModel.event) (i h : nat) (li : CheckerModel.link_info),
  let scan := fun b => graph_scan ex_env (fun u => sl_line (fu_location u))
                (fun _ => read_link open parse (fun _ => Some b) canonicalize target details) in
  (forall rustc exe kind u e, exists before after,
     cm_args (get_command rustc exe kind argv u e) = before ++ [lit "-C"; lit "strip=symbols"] ++ after /\
     forall w, w ∈ after -> ~ lit "strip=" `prefix_of` w) /\
  stripped b b' /\
  (forall c, ELoad c ∈ es -> made_for (en_index ex_env) c) /\ NoDup (map li_sel (links es)) /\
  es !! i = Some (EComplete h) /\ link_info_from_args args = Some details /\
  (exists log p, outcomes ex_env (scan b) foo_request es !! i = Some (OComplete (Some li) log (Some [p]))) /\
  exists log, outcomes ex_env (scan b') foo_request es !! i = Some (OComplete (Some li) log (Some [])).
Proof.
  exists [lit "cackle"; lit "rustc"; lit "--crate-name"; lit "foo"; lit "-C"; lit "strip=symbols"],
    (ar_open ar_entries), ar_parse, ar_canonical, ar_binary, (Binary [] [] [] (fun _ => Some (None, None))), (lit "/t"),
    ar_args, ar_details, ar_events, 2, 0, bin_a.
  cbv zeta. split.
  { intros rustc exe kind u e. exists [lit "--crate-name"; lit "foo"]. eexists. split; [reflexivity|].
    intros w Hw Hs.
    assert (X : forall l : list str, forallb (fun w => negb (starts_with (lit "strip=") w)) l = true -> w ∉ l).
    { intros l Hl Hin. rewrite forallb_forall in Hl. apply elem_of_list_In in Hin. apply Hl in Hin.
      destruct Hs as [k ->]. discriminate Hin. }
    revert Hw. apply X. by destruct u, e. }
  split; [done|].
  split; [exact ar_made|]. split; [apply (bool_decide_unpack _); vm_compute; exact I|]. split; [reflexivity|].
  split; [vm_compute; reflexivity|]. split.
  - exists (Some bin_a), ar_problem. vm_compute. reflexivity.
  - exists (Some bin_a). vm_compute. reflexivity.
Qed.
Print Assumptions C220_refuted.

(** ** C221, C222: settings that do not apply *)

(** If a profile is selected, the settings are given for another one: nothing is said about the profile that is
    built. *)
Theorem C221_refuted :
  exists (a : launch_args) (c : build_config) (p : str),
  wanted_profile a c p /\
  forall dir tmpdir target_dir exe rustc names,
    let call := build_call dir tmpdir target_dir exe rustc names a c in
    option_values (lit "--profile") call = [p] /\ forall key v, ~ given call p key v.
Proof.
  exists (pf_args (Some (lit "release"))), pf_config, (lit "release"). split; [by left|].
  intros dir tmpdir target_dir exe rustc names call. split; [reflexivity|].
  intros key v (before & after & H & _).
  assert (Hin : profile_setting (lit "release") key v ∈ settings call) by (rewrite H; apply elem_of_app; right; left).
  assert (Hs : settings call = pf_settings) by reflexivity.
  rewrite Hs in Hin. unfold pf_settings in Hin. rewrite !elem_of_cons, elem_of_nil in Hin.
  repeat (destruct Hin as [Hin|Hin]; [discriminate Hin|]). done.
Qed.
Print Assumptions C221_refuted.

(** The setting that is meant to keep debug information in the binary is given outside of the profiles: neither the
    profile that is built if none is selected nor one that is selected gets it. *)
Theorem C222_refuted :
  exists (a1 a2 : launch_args) (c : build_config) (p : str),
  wanted_profile a1 c (lit "cackle") /\ wanted_profile a2 c p /\ p <> lit "cackle" /\
  forall dir tmpdir target_dir exe rustc names v,
    ~ given (build_call dir tmpdir target_dir exe rustc names a1 c) (lit "cackle") (lit "split-debuginfo") v /\
    ~ given (build_call dir tmpdir target_dir exe rustc names a2 c) p (lit "split-debuginfo") v.
Proof.
  exists (pf_args None), (pf_args (Some (lit "release"))), pf_config, (lit "release").
  split; [by right; right|]. split; [by left|]. split; [discriminate|].
  intros dir tmpdir target_dir exe rustc names v.
  assert (X : forall a (q : str) (call : cargo_call), call = build_call dir tmpdir target_dir exe rustc names a pf_config ->
    settings call = pf_settings -> q ∈ [lit "cackle"; lit "release"] -> ~ given call q (lit "split-debuginfo") v).
  { intros a q call -> Hs Hq (before & after & H & _).
    assert (Hin : profile_setting q (lit "split-debuginfo") v ∈ pf_settings)
      by (rewrite <- Hs, H; apply elem_of_app; right; left).
    unfold pf_settings in Hin. rewrite !elem_of_cons, elem_of_nil in Hin. rewrite !elem_of_cons, elem_of_nil in Hq.
    destruct Hq as [->|[->|[]]]; repeat (destruct Hin as [Hin|Hin]; [discriminate Hin|]); done. }
  split; (eapply X; [reflexivity|reflexivity|]); [left|right; left].
Qed.
Print Assumptions C222_refuted.
