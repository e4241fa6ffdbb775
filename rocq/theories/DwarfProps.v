(** Debug information: the theorems. *)
From Verif Require Import Base TextModel TextSpec NamesModel NamesSpec NamesProofs DepsModel CollectModel DwarfModel DwarfSpec DwarfProofs DwarfCheck.

(** ** C45: symbols get the names and places of their entries *)

(** Which symbols get debug information, and which: that of an entry that describes the symbol, in a unit that is
    not part of the standard library. *)
Theorem C45_symbols :
  forall (in_std : str -> bool) (ts : list unit_tree) (ar : artifacts),
  laid_out ts -> from_dwarf in_std (map encode ts) = Some ar ->
  forall symbol : str,
  (forall info, ar_symbols ar !! symbol = Some info ->
     exists t anc d, t ∈ ts /\ in_std (unit_dir t) = false /\ within (ut_dies t) anc d /\ describes t anc d symbol info) /\
  (forall t anc d info, t ∈ ts -> in_std (unit_dir t) = false -> within (ut_dies t) anc d ->
     describes t anc d symbol info -> is_Some (ar_symbols ar !! symbol)).
Proof.
  intros in_std ts ar Hlay E symbol. destruct (from_dwarf_spec ts in_std ar E) as (l & -> & Hl). split.
  - intros info Hi. apply artifacts_symbols in Hi. apply Hl in Hi as (t & l' & Ht & Hs & El & Hi).
    apply (scan_unit_symbols ts Hlay t l' symbol info Ht El) in Hi as (anc & d & Hw & Hd). by exists t, anc, d.
  - intros t anc d info Ht Hs Hw Hd. apply artifacts_recorded with info. apply Hl.
    assert (is_Some (scan_unit (map encode ts) (encode t))) as [l' El].
    { unfold from_dwarf, scan_units in E. destruct (flat_mapM _ _) as [l0|] eqn:Ef; [|done].
      destruct (CollectProofs.flat_mapM_elem _ _ _ Ef) as [Hall _].
      destruct (Hall (encode t)) as [ys Hys]; [by apply elem_of_list_fmap_1|].
      rewrite compdir_encode, Hs in Hys. by eexists. }
    exists t, l'. split_and!; [done..|]. apply (scan_unit_symbols ts Hlay t l' symbol info Ht El). by exists anc, d.
Qed.
Print Assumptions C45_symbols.

(** If the entries agree about a symbol, it gets what they say. *)
Theorem C45_agreed :
  forall (in_std : str -> bool) (ts : list unit_tree) (ar : artifacts) (symbol : str) (info : sym_debug),
  laid_out ts -> from_dwarf in_std (map encode ts) = Some ar ->
  (exists t anc d, t ∈ ts /\ in_std (unit_dir t) = false /\ within (ut_dies t) anc d /\ describes t anc d symbol info) ->
  (forall t anc d info', t ∈ ts -> in_std (unit_dir t) = false -> within (ut_dies t) anc d ->
     describes t anc d symbol info' -> info' = info) ->
  ar_symbols ar !! symbol = Some info.
Proof.
  intros in_std ts ar symbol info Hlay E (t & anc & d & Ht & Hs & Hw & Hd) Hall.
  destruct (C45_symbols in_std ts ar Hlay E symbol) as [H1 H2].
  destruct (H2 t anc d info Ht Hs Hw Hd) as [info' Hi]. rewrite Hi. f_equal.
  destruct (H1 info' Hi) as (t' & anc' & d' & Ht' & Hs' & Hw' & Hd'). by eapply Hall.
Qed.
Print Assumptions C45_agreed.

(** ** C122: inlined calls *)

(** The recorded calls are those of the functions that were inlined, from the function they were inlined into. *)
Theorem C122_inlined :
  forall (in_std : str -> bool) (ts : list unit_tree) (ar : artifacts),
  laid_out ts -> own_references ts -> from_dwarf in_std (map encode ts) = Some ar ->
  forall i : inlined,
  i ∈ ar_inlined ar <->
  exists t anc d, t ∈ ts /\ in_std (unit_dir t) = false /\ within (ut_dies t) anc d /\ inlined_call ts t anc d i.
Proof.
  intros in_std ts ar Hlay Hown E i. destruct (from_dwarf_spec ts in_std ar E) as (l & -> & Hl).
  assert (i ∈ ar_inlined (artifacts_of l) <-> FoundInlined i ∈ l) as ->.
  { cbn [artifacts_of ar_inlined]. rewrite elem_of_list_omap. split.
    - intros ([f|] & Hin & [= ->]). done.
    - intros Hin. by exists (FoundInlined i). }
  rewrite Hl. split.
  - intros (t & l' & Ht & Hs & El & Hi). apply (scan_unit_inlined ts Hlay t l' i Hown Ht El) in Hi as (anc & d & Hw & Hd).
    by exists t, anc, d.
  - intros (t & anc & d & Ht & Hs & Hw & Hd).
    assert (is_Some (scan_unit (map encode ts) (encode t))) as [l' El].
    { unfold from_dwarf, scan_units in E. destruct (flat_mapM _ _) as [l0|] eqn:Ef; [|done].
      destruct (CollectProofs.flat_mapM_elem _ _ _ Ef) as [Hall _].
      destruct (Hall (encode t)) as [ys Hys]; [by apply elem_of_list_fmap_1|].
      rewrite compdir_encode, Hs in Hys. by eexists. }
    exists t, l'. split_and!; [done..|]. apply (scan_unit_inlined ts Hlay t l' i Hown Ht El). by exists anc, d.
Qed.
Print Assumptions C122_inlined.

(** ** C123: readable debug information is read *)

Theorem C123_readable :
  forall (in_std : str -> bool) (ts : list unit_tree),
  laid_out ts -> own_references ts ->
  (forall t, t ∈ ts -> in_std (unit_dir t) = false -> readable ts t) ->
  exists ar, from_dwarf in_std (map encode ts) = Some ar.
Proof. intros in_std ts Hlay Hown Hread. by apply from_dwarf_total. Qed.
Print Assumptions C123_readable.

(** *** An example *)

Definition no_std (dir : str) : bool := in_rust_std (lit "/root/.rustup/toolchains/stable") dir.

Definition run_symbol : str := lit "_ZN3app1S3run17h0123456789abcdefE".
Definition main_symbol : str := lit "_ZN3app4main17h0123456789abcdefE".
Definition write_symbol : str := lit "_ZN3std2fs5write17h0123456789abcdefE".
Definition once_symbol : str := lit "_ZN4core3ops8function6FnOnce9call_once17h0123456789abcdefE".

(** [std::fs::write] is inlined into [app::main], in a block and through a shim. [app::S::run] is declared in its
    type and defined elsewhere. *)
Definition write_entry : die := Die 90 TagSubprogram [AtName (lit "write"); AtLinkage write_symbol] None.
Definition write_call : die :=
  Die 60 TagInlined [AtOrigin (UnitRef 90); AtLowPc (Some 108); AtCallFile (Some (Some (lit "/core/ops"), lit "function.rs"));
                     AtCallLine (Some 250)] None.
Definition once_call : die :=
  Die 55 TagInlined [AtOrigin (InfoRef 92); AtLowPc (Some 106); AtCallFile (Some (Some (lit "src"), lit "lib.rs"));
                     AtCallLine (Some 4); AtCallColumn (Some 9)] (Some [write_call]).
Definition main_entry : die :=
  Die 40 TagSubprogram [AtName (lit "main"); AtLinkage main_symbol; AtDeclFile (Some (Some (lit "src"), lit "lib.rs"));
                        AtDeclLine (Some 3); AtLowPc (Some 100)]
    (Some [Die 50 TagBlock [AtLowPc (Some 104)] (Some [once_call])]).
Definition run_entry : die :=
  Die 30 TagSubprogram [AtName (lit "run"); AtLinkage run_symbol; AtDeclFile (Some (Some (lit "src"), lit "lib.rs"));
                        AtDeclLine (Some 7)] None.
Definition app_unit : unit_tree :=
  UnitTree 0 (Some (lit "/app"))
    [Die 11 TagOther [AtName (lit "src/lib.rs")]
       (Some [Die 20 TagNamespace [AtName (lit "app")]
                (Some [Die 25 TagStructure [AtName (lit "S")] (Some [run_entry]); main_entry]);
              Die 80 TagNamespace [AtName (lit "std")]
                (Some [Die 85 TagNamespace [AtName (lit "fs")] (Some [write_entry])]);
              Die 92 TagSubprogram [AtSpecification (UnitRef 93)] None;
              Die 93 TagSubprogram [AtLinkage once_symbol] None])] 2.
Definition std_unit : unit_tree :=
  UnitTree 200 (Some (lit "/rustc/0123456789"))
    [Die 11 TagSubprogram [AtName (lit "main"); AtDeclFile (Some (None, lit "rt.rs")); AtDeclLine (Some 1)] None] 0.
Definition ex_units : list unit_tree := [app_unit; std_unit].

Lemma from_dwarf_map {A} (in_std : str -> bool) (us : list dw_unit) (f : artifacts -> A) (v : A) :
  f <$> from_dwarf in_std us = Some v -> exists ar, from_dwarf in_std us = Some ar /\ f ar = v.
Proof. destruct (from_dwarf in_std us) as [ar|]; [|done]. intros [= E]. by exists ar. Qed.

Example C45_example :
  laid_out ex_units /\
  exists ar, from_dwarf no_std (map encode ex_units) = Some ar /\
    ar_symbols ar !! run_symbol = Some (SymDebug (lit "/app") (Some (lit "src")) (lit "lib.rs") 7 None
      (Some (DebugName [lit "app"; lit "S"] (lit "run")))) /\
    ar_symbols ar !! lit "main" = None.
Proof.
  split; [apply laid_out_check; vm_compute; reflexivity|].
  destruct (from_dwarf_map no_std (map encode ex_units) (fun ar => (ar_symbols ar !! run_symbol, ar_symbols ar !! lit "main"))
    (Some (SymDebug (lit "/app") (Some (lit "src")) (lit "lib.rs") 7 None (Some (DebugName [lit "app"; lit "S"] (lit "run")))), None))
    as (ar & E & H); [vm_compute; reflexivity|].
  exists ar. split_and!; [exact E|exact (f_equal fst H)|exact (f_equal snd H)].
Qed.

Example C122_example :
  laid_out ex_units /\ own_references ex_units /\
  exists ar, from_dwarf no_std (map encode ex_units) = Some ar /\
    Inlined (BinLoc 108 108) (SymAndName (Some main_symbol) (Some (DebugName [lit "app"] (lit "main"))))
      (SymAndName (Some write_symbol) (Some (DebugName [lit "std"; lit "fs"] (lit "write"))))
      (CallLoc (lit "/app") (Some (lit "src")) (Some (lit "lib.rs")) (Some 4) (Some 9)) ∈ ar_inlined ar /\
    length (ar_inlined ar) = 2.
Proof.
  split_and!; [apply laid_out_check; vm_compute; reflexivity|apply own_references_check; vm_compute; reflexivity|].
  destruct (from_dwarf_map no_std (map encode ex_units) ar_inlined
    [Inlined (BinLoc 106 106) (SymAndName (Some main_symbol) (Some (DebugName [lit "app"] (lit "main"))))
       (SymAndName (Some once_symbol) None)
       (CallLoc (lit "/app") (Some (lit "src")) (Some (lit "lib.rs")) (Some 4) (Some 9));
     Inlined (BinLoc 108 108) (SymAndName (Some main_symbol) (Some (DebugName [lit "app"] (lit "main"))))
       (SymAndName (Some write_symbol) (Some (DebugName [lit "std"; lit "fs"] (lit "write"))))
       (CallLoc (lit "/app") (Some (lit "src")) (Some (lit "lib.rs")) (Some 4) (Some 9))])
    as (ar & E & H); [vm_compute; reflexivity|].
  exists ar. split; [exact E|]. rewrite H. split; [right; left|done].
Qed.

Example C123_example :
  laid_out ex_units /\ own_references ex_units /\ readable ex_units app_unit /\
  forall t, t ∈ ex_units -> no_std (unit_dir t) = false -> t = app_unit.
Proof.
  split_and!; [apply laid_out_check; vm_compute; reflexivity|apply own_references_check; vm_compute; reflexivity| |].
  - apply readable_check; [left|vm_compute; reflexivity].
  - intros t Ht Hs. apply elem_of_cons in Ht as [->|Ht]; [done|]. apply elem_of_list_singleton in Ht as ->.
    assert (no_std (unit_dir std_unit) = true) as E by (vm_compute; reflexivity). pose proof (eq_trans (eq_sym E) Hs). done.
Qed.

(** ** C124: not every inlined function is found *)

(** A function whose inlined code is in several pieces has no single address; it is left out. *)
Definition split_call : die := Die 60 TagInlined [AtOrigin (UnitRef 90); AtRanges (Some 108); AtCallLine (Some 4)] None.
Definition caller_with (d : die) : die :=
  Die 40 TagSubprogram [AtName (lit "main"); AtLinkage main_symbol; AtLowPc (Some 100)] (Some [d]).
Definition std_part : die :=
  Die 80 TagNamespace [AtName (lit "std")] (Some [Die 85 TagNamespace [AtName (lit "fs")] (Some [write_entry])]).
Definition split_unit : unit_tree := UnitTree 0 (Some (lit "/app")) [caller_with split_call; std_part] 0.

Definition write_names : sym_and_name :=
  SymAndName (Some write_symbol) (Some (DebugName [lit "std"; lit "fs"] (lit "write"))).
Definition main_names : sym_and_name := SymAndName (Some main_symbol) (Some (DebugName [] (lit "main"))).

Lemma write_denoted (ts : list unit_tree) (t : unit_tree) :
  std_part ∈ ut_dies t -> denotes ts t (UnitRef 90) write_names.
Proof.
  intros H. apply (denotes_own ts t (UnitRef 90) t
    [Die 85 TagNamespace [AtName (lit "fs")] (Some [write_entry]); std_part] write_entry); [|done].
  split; [|done]. apply (within_below _ std_part [Die 85 TagNamespace [AtName (lit "fs")] (Some [write_entry])]); [done|].
  apply (within_below _ (Die 85 TagNamespace [AtName (lit "fs")] (Some [write_entry])) []); [left|]. constructor. left.
Qed.

Lemma main_no_shim : ~ shim main_names.
Proof.
  intros (s & [= <-] & H%look_through_is). assert (is_look_through main_symbol = Some false) as E by (vm_compute; reflexivity).
  pose proof (eq_trans (eq_sym E) H) as X. discriminate X.
Qed.

Theorem C124_refuted :
  exists (ts : list unit_tree) (ar : artifacts) (t : unit_tree) (anc : list die) (d : die) (a : nat)
         (names from : sym_and_name) (call : call_loc),
    laid_out ts /\ own_references ts /\ from_dwarf no_std (map encode ts) = Some ar /\
    t ∈ ts /\ no_std (unit_dir t) = false /\ within (ut_dies t) anc d /\ die_tag d = TagInlined /\
    names_of ts t anc d names /\ ~ unnamed names /\ placed d a /\ called_from ts t anc (call_of t d) from call /\
    ar_inlined ar = [].
Proof.
  destruct (from_dwarf_map no_std (map encode [split_unit]) ar_inlined []) as (ar & E & H); [vm_compute; reflexivity|].
  exists [split_unit], ar, split_unit, [caller_with split_call], split_call, 108, write_names, main_names, (call_of split_unit split_call).
  split_and!; [apply laid_out_check; vm_compute; reflexivity|apply own_references_check; vm_compute; reflexivity|exact E|left
              |vm_compute; reflexivity| |done| | | | |exact H].
  - apply (within_below _ (caller_with split_call) []); [left|]. constructor. left.
  - apply write_denoted. right. left.
  - by intros [? _].
  - split; [lia|]. right. right. left.
  - constructor; [done|by intros [? _]|exact main_no_shim].
Qed.
Print Assumptions C124_refuted.

(** ** C125: functions of other units get wrong names *)

(** [std::fs::write] is described in another unit. At the same offset in the unit that refers to it there is a
    function of [app::safe]. The call is recorded as one of [app::safe::write]. *)
Definition far_call : die := Die 60 TagInlined [AtOrigin (InfoRef 290); AtLowPc (Some 108)] None.
Definition safe_part : die :=
  Die 80 TagNamespace [AtName (lit "app")] (Some [Die 85 TagNamespace [AtName (lit "safe")]
    (Some [Die 90 TagSubprogram [AtName (lit "other")] None])]).
Definition near_unit : unit_tree := UnitTree 0 (Some (lit "/app")) [caller_with far_call; safe_part] 0.
Definition far_unit : unit_tree := UnitTree 200 (Some (lit "/rustc/0123456789")) [std_part] 0.

Theorem C125_refuted :
  exists (ts : list unit_tree) (ar : artifacts) (t : unit_tree) (anc : list die) (d : die) (i i' : inlined),
    laid_out ts /\ from_dwarf no_std (map encode ts) = Some ar /\
    t ∈ ts /\ no_std (unit_dir t) = false /\ within (ut_dies t) anc d /\ inlined_call ts t anc d i /\
    in_to i = write_names /\ ar_inlined ar = [i'] /\
    sn_debug (in_to i') = Some (DebugName [lit "app"; lit "safe"] (lit "write")).
Proof.
  destruct (from_dwarf_map no_std (map encode [near_unit; far_unit]) ar_inlined
    [Inlined (BinLoc 108 108) main_names (SymAndName (Some write_symbol) (Some (DebugName [lit "app"; lit "safe"] (lit "write"))))
       (CallLoc (lit "/app") None None None None)]) as (ar & E & H); [vm_compute; reflexivity|].
  exists [near_unit; far_unit], ar, near_unit, [caller_with far_call], far_call,
    (Inlined (BinLoc 108 108) main_names write_names (call_of near_unit far_call)).
  eexists. split_and!; [apply laid_out_check; vm_compute; reflexivity|exact E|left|vm_compute; reflexivity| | |done|exact H|done].
  - apply (within_below _ (caller_with far_call) []); [left|]. constructor. left.
  - split_and!; cbn [in_to in_from in_bin in_call].
    + done.
    + cbn. apply (denotes_own _ near_unit (InfoRef 290) far_unit
        [Die 85 TagNamespace [AtName (lit "fs")] (Some [write_entry]); std_part] write_entry); [|done].
      split; [|split; [right; left|done]].
      apply (within_below _ std_part [Die 85 TagNamespace [AtName (lit "fs")] (Some [write_entry])]); [left|].
      apply (within_below _ (Die 85 TagNamespace [AtName (lit "fs")] (Some [write_entry])) []); [left|]. constructor. left.
    + by intros [? _].
    + exists 108. split_and!; [done|lia|done].
    + constructor; [done|by intros [? _]|exact main_no_shim].
Qed.
Print Assumptions C125_refuted.

(** ** C126: functions of enumerations and unions lose their namespace *)

Definition kind_fn : die :=
  Die 30 TagSubprogram [AtName (lit "open"); AtLinkage run_symbol; AtDeclFile (Some (None, lit "lib.rs")); AtDeclLine (Some 7)] None.
Definition kind_type : die := Die 25 TagEnumeration [AtName (lit "Kind")] (Some [kind_fn]).
Definition kind_space : die := Die 20 TagNamespace [AtName (lit "app")] (Some [kind_type]).

Theorem C126_refuted :
  exists (ts : list unit_tree) (ar : artifacts) (t : unit_tree) (anc : list die) (d : die) (symbol name : str) (info : sym_debug),
    laid_out ts /\ from_dwarf no_std (map encode ts) = Some ar /\
    t ∈ ts /\ no_std (unit_dir t) = false /\ within (ut_dies t) anc d /\
    linkage_attr (die_attrs d) = Some symbol /\ name_attr (die_attrs d) = Some name /\
    scope anc = [lit "app"; lit "Kind"] /\
    ar_symbols ar !! symbol = Some info /\ sd_name info = Some (DebugName [] name).
Proof.
  set (t := UnitTree 0 (Some (lit "/app")) [kind_space] 0).
  destruct (from_dwarf_map no_std (map encode [t]) (fun ar => ar_symbols ar !! run_symbol)
    (Some (SymDebug (lit "/app") None (lit "lib.rs") 7 None (Some (DebugName [] (lit "open")))))) as (ar & E & H); [vm_compute; reflexivity|].
  exists [t], ar, t, [kind_type; kind_space], kind_fn, run_symbol, (lit "open"). eexists.
  split_and!; [apply laid_out_check; vm_compute; reflexivity|exact E|left|vm_compute; reflexivity| |done|done|done|exact H|done].
  apply (within_below _ kind_space [kind_type]); [left|]. apply (within_below _ kind_type []); [left|]. constructor. left.
Qed.
Print Assumptions C126_refuted.

(** ** C127: inlined calls are not tied to the function around them *)

(** The address recorded as the start of the function around is that of the inlined code. *)
Theorem C127_refuted :
  exists (ts : list unit_tree) (ar : artifacts) (t : unit_tree) (anc : list die) (d p : die) (i : inlined) (start : nat),
    laid_out ts /\ own_references ts /\ from_dwarf no_std (map encode ts) = Some ar /\
    t ∈ ts /\ within (ut_dies t) anc d /\ inlined_call ts t anc d i /\ i ∈ ar_inlined ar /\
    function_around anc = Some p /\ low_pc (die_attrs p) = Some start /\ bl_start (in_bin i) <> start.
Proof.
  set (d := Die 60 TagInlined [AtOrigin (UnitRef 90); AtLowPc (Some 108); AtCallLine (Some 4)] None).
  set (t := UnitTree 0 (Some (lit "/app")) [caller_with d; std_part] 0).
  destruct (from_dwarf_map no_std (map encode [t]) ar_inlined
    [Inlined (BinLoc 108 108) main_names write_names (CallLoc (lit "/app") None None (Some 4) None)]) as (ar & E & H); [vm_compute; reflexivity|].
  exists [t], ar, t, [caller_with d], d, (caller_with d),
    (Inlined (BinLoc 108 108) main_names write_names (CallLoc (lit "/app") None None (Some 4) None)), 100.
  split_and!; [apply laid_out_check; vm_compute; reflexivity|apply own_references_check; vm_compute; reflexivity|exact E|left| | | |done|done|done].
  - apply (within_below _ (caller_with d) []); [left|]. constructor. left.
  - split_and!; cbn [in_to in_from in_bin in_call].
    + done.
    + apply write_denoted. right. left.
    + by intros [? _].
    + exists 108. split_and!; [done|lia|done].
    + apply (called_here [t] t (caller_with d) [] (call_of t d)); [done|by intros [? _]|exact main_no_shim].
  - rewrite H. left.
Qed.
Print Assumptions C127_refuted.

(** ** C128: a local variable can take the place of a function *)

(** A function whose symbol is its name, and a variable of the same name inside a function of another crate. *)
Definition plugin_fn : die :=
  Die 30 TagSubprogram [AtName (lit "plugin_init"); AtDeclFile (Some (None, lit "plugin.rs")); AtDeclLine (Some 7); AtLowPc (Some 100)] None.
Definition local_var : die :=
  Die 50 TagVariable [AtName (lit "plugin_init"); AtDeclFile (Some (None, lit "lib.rs")); AtDeclLine (Some 3)] None.

Theorem C128_refuted :
  exists (ts : list unit_tree) (ar : artifacts) (t : unit_tree) (d : die) (symbol : str) (info info' : sym_debug),
    laid_out ts /\ from_dwarf no_std (map encode ts) = Some ar /\
    t ∈ ts /\ no_std (unit_dir t) = false /\
    within (ut_dies t) [] d /\ die_tag d = TagSubprogram /\ describes t [] d symbol info /\
    (* every other entry that describes the symbol is a variable inside a function *)
    (forall u anc' e info'', u ∈ ts -> within (ut_dies u) anc' e -> describes u anc' e symbol info'' ->
       u = t /\ anc' = [] /\ e = d \/ die_tag e = TagVariable /\ is_Some (function_around anc')) /\
    ar_symbols ar !! symbol = Some info' /\
    sd_compdir info = lit "/plugin" /\ sd_compdir info' = lit "/app".
Proof.
  set (t := UnitTree 0 (Some (lit "/plugin")) [plugin_fn] 0).
  set (t' := UnitTree 200 (Some (lit "/app")) [caller_with local_var] 0).
  destruct (from_dwarf_map no_std (map encode [t; t']) (fun ar => ar_symbols ar !! lit "plugin_init")
    (Some (SymDebug (lit "/app") None (lit "lib.rs") 3 None (Some (DebugName [] (lit "plugin_init")))))) as (ar & E & H); [vm_compute; reflexivity|].
  exists [t; t'], ar, t, plugin_fn, (lit "plugin_init"),
    (SymDebug (lit "/plugin") None (lit "plugin.rs") 7 None (Some (DebugName [] (lit "plugin_init")))).
  eexists.
  split_and!; [apply laid_out_check; vm_compute; reflexivity|exact E|left|vm_compute; reflexivity|constructor; left|done| | |exact H|done|done].
  - split_and!; [by left|by right|done..].
  - intros u anc' e info'' Hu Hw Hd. apply elem_of_cons in Hu as [->|Hu]; [|apply elem_of_list_singleton in Hu as ->];
      apply all_entries_within in Hw.
    + left. apply elem_of_list_singleton in Hw as [= -> ->]. done.
    + right. apply elem_of_cons in Hw as [[= -> ->]|Hw].
      * exfalso. destruct Hd as (_ & [Hd|[Hd _]] & _); [|done].
        assert (bool_decide (Some main_symbol = Some (lit "plugin_init")) = false) as Hne by (vm_compute; reflexivity).
        apply bool_decide_eq_false in Hne. by apply Hne.
      * apply elem_of_list_singleton in Hw as [= -> ->]. split; [done|]. by eexists.
Qed.
Print Assumptions C128_refuted.

(** ** C129: calls inlined into a method are lost *)

(** The definition of a method refers to its declaration in the type for its names. *)
Definition method_def : die :=
  Die 40 TagSubprogram [AtSpecification (UnitRef 30); AtLowPc (Some 100)]
    (Some [Die 60 TagInlined [AtOrigin (UnitRef 90); AtLowPc (Some 108); AtCallLine (Some 4)] None]).

Theorem C129_refuted :
  exists (ts : list unit_tree) (ar : artifacts) (t : unit_tree) (d p : die) (r : die_ref) (names from : sym_and_name) (a : nat),
    laid_out ts /\ own_references ts /\ from_dwarf no_std (map encode ts) = Some ar /\
    t ∈ ts /\ no_std (unit_dir t) = false /\ within (ut_dies t) [p] d /\ die_tag d = TagInlined /\ low_pc (die_attrs d) = Some a /\ 1 < a /\
    names_of ts t [p] d names /\ ~ unnamed names /\
    die_tag p = TagSubprogram /\ specification_attr (die_attrs p) = Some r /\ denotes ts t r from /\
    ~ unnamed from /\ ~ shim from /\
    ar_inlined ar = [].
Proof.
  set (d := Die 60 TagInlined [AtOrigin (UnitRef 90); AtLowPc (Some 108); AtCallLine (Some 4)] None).
  set (s := Die 25 TagStructure [AtName (lit "S")] (Some [run_entry])).
  set (t := UnitTree 0 (Some (lit "/app")) [s; method_def; std_part] 0).
  destruct (from_dwarf_map no_std (map encode [t]) ar_inlined []) as (ar & E & H); [vm_compute; reflexivity|].
  exists [t], ar, t, d, method_def, (UnitRef 30), write_names, (SymAndName (Some run_symbol) (Some (DebugName [lit "S"] (lit "run")))), 108.
  split_and!; [apply laid_out_check; vm_compute; reflexivity|apply own_references_check; vm_compute; reflexivity|exact E|left|vm_compute; reflexivity
              | |done|done|lia| | |done|done| | | |exact H].
  - apply (within_below _ method_def []); [right; left|]. constructor. left.
  - apply write_denoted. right. right. left.
  - by intros [? _].
  - apply (denotes_own [t] t (UnitRef 30) t [s] run_entry); [|done]. split; [|done].
    apply (within_below _ s []); [left|]. constructor. left.
  - by intros [? _].
  - intros (x & [= <-] & Hx%look_through_is). assert (is_look_through run_symbol = Some false) as Er by (vm_compute; reflexivity).
    pose proof (eq_trans (eq_sym Er) Hx) as X. discriminate X.
Qed.
Print Assumptions C129_refuted.

(** ** C130: packages in certain directories count as the standard library *)

(** A package in [/rust/app], although the sysroot is elsewhere: nothing is read about its functions. *)
Theorem C130_refuted :
  exists (ts : list unit_tree) (ar : artifacts) (sysroot : str) (t : unit_tree) (d : die) (symbol : str) (info : sym_debug),
    laid_out ts /\ from_dwarf (in_rust_std sysroot) (map encode ts) = Some ar /\
    t ∈ ts /\ path_starts_with sysroot (unit_dir t) = false /\ path_starts_with (lit "/rustc") (unit_dir t) = false /\
    within (ut_dies t) [] d /\ describes t [] d symbol info /\ ar_symbols ar !! symbol = None.
Proof.
  set (t := UnitTree 0 (Some (lit "/rust/app")) [plugin_fn] 0).
  destruct (from_dwarf_map (in_rust_std (lit "/usr/lib/rustlib")) (map encode [t]) (fun ar => ar_symbols ar !! lit "plugin_init") None)
    as (ar & E & H); [vm_compute; reflexivity|].
  exists [t], ar, (lit "/usr/lib/rustlib"), t, plugin_fn, (lit "plugin_init"),
    (SymDebug (lit "/rust/app") None (lit "plugin.rs") 7 None (Some (DebugName [] (lit "plugin_init")))).
  split_and!; [apply laid_out_check; vm_compute; reflexivity|exact E|left|vm_compute; reflexivity|vm_compute; reflexivity|constructor; left| |exact H].
  split_and!; [by left|by right|done..].
Qed.
Print Assumptions C130_refuted.
