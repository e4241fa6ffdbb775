(** What the processes of a build know of the configuration. *)
From stdpp Require Import gmap.
From Verif Require Import Base ApiMapModel ConfigModel TomlModel ProblemModel EditorModel EditorSpec
  EditorFixProofs ConfigSpec EditorProps FlowModel FlowSpec FlowProofs.

(** ** C194: processes decide by what was loaded *)

(** What a process reads is what was written for it, whatever the configuration is, and it decides as the
    configuration does. *)
Theorem C194_faithful :
  forall (print : json -> str) (parse : str -> option json), reads_back print parse ->
  forall (x : extra) (c : config), exists s,
    deserialise parse (serialise print (from_full_config x c)) = Some s /\
    decides_like s c /\
    cm_build_flags (sc_common s) = ex_build_flags x /\ cm_features (sc_common s) = ex_features x /\
    cm_profile (sc_common s) = ex_profile x.
Proof.
  intros print parse codec x c. exists (from_full_config x c).
  split; [by apply deserialise_serialise|]. done.
Qed.
Print Assumptions C194_faithful.

(** Different permissions are never written as the same text. *)
Theorem C194_distinct :
  forall (print : json -> str) (parse : str -> option json), reads_back print parse ->
  forall (x x' : extra) (c c' : config),
  serialise print (from_full_config x c) = serialise print (from_full_config x' c') ->
  cf_permissions c = cf_permissions c' /\ rc_rustc_sandbox (cf_raw c) = rc_rustc_sandbox (cf_raw c') /\
  rc_version (cf_raw c) = rc_version (cf_raw c').
Proof.
  intros print parse codec x x' c c' E. apply (f_equal (deserialise parse)) in E.
  rewrite !(deserialise_serialise print parse codec) in E. unfold from_full_config in E.
  injection E as Hv _ _ _ _ _ Hp Hr. done.
Qed.
Print Assumptions C194_distinct.

Definition fl_x : extra := Extra (Some [lit "-q"]) [lit "std"] None.
Definition fl_doc : table := 
  ed_doc 2 [(lit "foo", Table [(lit "build", Table [(lit "allow_unsafe", Flag true)])])].
Definition fl_cfg : config := config_of (ed_load ed_idx fl_doc).

Example C194_ex :
  reads_back a_printer a_parser /\
  (s ← deserialise a_parser (serialise a_printer (from_full_config fl_x fl_cfg));
   Some (unsafe_permitted (sc_permissions s) (lit "foo") BuildScript,
         unsafe_permitted (sc_permissions s) (lit "foo") Primary, cm_version (sc_common s))) =
    Some (true, false, 2%Z).
Proof. split; [exact a_codec|]. by vm_compute. Qed.

(** ** C195: reloads never go backwards *)

(** Whatever threads, saves and processes do in whichever order: whenever no reload is in progress, a
    process that starts decides as the configuration does that the checker has. *)
Theorem C195_agree :
  forall (print : json -> str) (parse : str -> option json), reads_back print parse ->
  forall (doc : Type) (load : doc -> option (config * extra)) (d : doc) (es : list flow_event) (s : flow) (c : config),
  flow_run print load (flow_init d) es = Some s -> fl_lock s = None -> fl_config s = Some c ->
  exists p, process_config parse s = Some p /\ decides_like p c.
Proof.
  intros print parse codec doc load d es s c H Hl Hc.
  pose proof (run_consistent print load es _ _ H eq_refl) as Hs. unfold consistent in Hs. rewrite Hl, Hc in Hs.
  destruct Hs as [x Hx]. exists (from_full_config x c). unfold process_config. rewrite Hx. cbn [mbind option_bind].
  split; [by apply deserialise_serialise|]. done.
Qed.
Print Assumptions C195_agree.

(** Once a reload that began at [s0] has succeeded, processes decide by something the file contained then
    or later, whichever other threads reload before, after or meanwhile. *)
Theorem C195_fresh :
  forall (print : json -> str) (parse : str -> option json), reads_back print parse ->
  forall (doc : Type) (load : doc -> option (config * extra)) (d : doc) (before during : list flow_event)
         (t : nat) (s0 s1 s2 : flow),
  flow_run print load (flow_init d) before = Some s0 -> flow_step print load s0 (FLock t) = Some s1 ->
  flow_run print load s1 during = Some s2 -> FUpdate t ∈ during ->
  exists p d' c x, process_config parse s2 = Some p /\ contents_since s0 s2 d' /\ load d' = Some (c, x) /\
    decides_like p c.
Proof.
  intros print parse codec doc load d before during t s0 s1 s2 Hb Hl Hd Ht.
  pose proof (nonempty_run print load d before s0 Hb) as Hne.
  assert (Hf : fresh print load s0 false s1).
  { cbn in Hl. destruct (fl_lock s0); [done|]. injection Hl as <-. split; [by exists []|]. by split. }
  apply (run_fresh print load during s0 s1 s2 false Hne Hd) in Hf as (_ & _ & Hf).
  destruct Hf as (c & x & (d' & Hs & Hd') & Hx).
  { cbn. apply existsb_exists. exists (FUpdate t). split; [by apply elem_of_list_In|done]. }
  exists (from_full_config x c), d', c, x. unfold process_config. rewrite Hx. cbn [mbind option_bind].
  split; [by apply deserialise_serialise|]. done.
Qed.
Print Assumptions C195_fresh.

(** A file that cannot be loaded leaves processes and the checker with what they had. *)
Theorem C195_failed :
  forall (print : json -> str) (parse : str -> option json) (doc : Type) (load : doc -> option (config * extra))
         (d : doc) (before during : list flow_event) (t : nat) (s0 s1 s2 : flow),
  flow_run print load (flow_init d) before = Some s0 -> flow_step print load s0 (FLock t) = Some s1 ->
  flow_run print load s1 during = Some s2 ->
  (forall d', contents_since s0 s2 d' -> load d' = None) ->
  process_config parse s2 = process_config parse s0 /\ fl_config s2 = fl_config s0 /\
  (forall t', (t', true) ∈ fl_ended s2 -> (t', true) ∈ fl_ended s0).
Proof.
  intros print parse doc load d before during t s0 s1 s2 Hb Hl Hd Hno.
  destruct (run_idle print load during s0 s1 s2) as (_ & _ & H1 & H2 & H3).
  - by apply (nonempty_run print load d before).
  - exact Hd.
  - cbn in Hl. destruct (fl_lock s0); [done|]. injection Hl as <-. split; [by exists []|]. by cbn.
  - exact Hno.
  - unfold process_config. by rewrite H1, H2.
Qed.
Print Assumptions C195_failed.

(** No reload blocks another for ever: whoever has the lock can go on to the end by themselves. *)
Theorem C195_ends :
  forall (print : json -> str) (doc : Type) (load : doc -> option (config * extra)) (d : doc)
         (es : list flow_event) (s : flow),
  flow_run print load (flow_init d) es = Some s ->
  exists rest s', flow_run print load s rest = Some s' /\ no_save rest /\ (length rest <= 3)%nat /\ fl_lock s' = None.
Proof.
  intros print doc load d es s H. pose proof (nonempty_run print load d es s H) as Hne. by apply run_ends.
Qed.
Print Assumptions C195_ends.

(** A thread that finds the lock free can reload, and is told whether the file could be loaded. *)
Theorem C195_reload :
  forall (print : json -> str) (doc : Type) (load : doc -> option (config * extra)) (d : doc)
         (es : list flow_event) (s : flow) (t : nat),
  flow_run print load (flow_init d) es = Some s -> fl_lock s = None ->
  exists rest s' ok, flow_run print load s (FLock t :: rest) = Some s' /\ no_save rest /\ fl_lock s' = None /\
    fl_ended s' = (t, ok) :: fl_ended s /\
    (ok = true <-> exists d' c x, head (fl_file s) = Some d' /\ load d' = Some (c, x) /\ fl_config s' = Some c).
Proof.
  intros print doc load d es s t H Hl. pose proof (nonempty_run print load d es s H) as Hne.
  destruct s as [[|d' file] lock flat config ended]; [done|]. cbn [fl_lock] in Hl. subst lock.
  destruct (load d') as [[c x]|] eqn:Ed.
  - exists [FParse t; FWrite t; FUpdate t]. eexists _, true. split.
    { cbn. rewrite Ed, Nat.eqb_refl. cbn. rewrite Nat.eqb_refl. cbn. by rewrite Nat.eqb_refl. }
    split; [intros y Hy; repeat (apply elem_of_cons in Hy as [Hy|Hy]; [done|]); by apply elem_of_nil in Hy|]. split; [done|]. split; [done|]. split; [|done]. intros _. by exists d', c, x.
  - exists [FParse t]. eexists _, false. split; [cbn; by rewrite Ed, Nat.eqb_refl|].
    split; [intros y Hy; repeat (apply elem_of_cons in Hy as [Hy|Hy]; [done|]); by apply elem_of_nil in Hy|]. split; [done|]. split; [done|]. split; [done|].
    intros (d'' & c & x & [= <-] & X & _). by rewrite Ed in X.
Qed.
Print Assumptions C195_reload.

(** Two threads: the second waits for the lock while the first reloads, the file is saved in between. *)
Definition fl_table_load (d : table) : option (config * extra) := (fun c => (c, fl_x)) <$> loads_to (ed_load ed_idx d).
Definition fl_doc2 : table := ed_doc 2 [(lit "foo", Table [(lit "allow_unsafe", Flag true)])].
Definition fl_run1 : list (flow_event (doc := table)) := [FLock 1; FParse 1; FWrite 1; FUpdate 1].
Definition fl_run2 : list (flow_event (doc := table)) :=
  [FLock 1; FParse 1; FSave fl_doc2; FWrite 1; FUpdate 1; FLock 2; FParse 2; FWrite 2; FUpdate 2; FSave []; FLock 1; FParse 1].
Definition fl_sees (es : list flow_event) : option (bool * bool * list (nat * bool)) :=
  s ← flow_run a_printer fl_table_load (flow_init fl_doc) es;
  p ← process_config a_parser s;
  Some (unsafe_permitted (sc_permissions p) (lit "foo") BuildScript,
        unsafe_permitted (sc_permissions p) (lit "foo") Primary, fl_ended s).

Example C195_ex :
  fl_sees fl_run1 = Some (true, false, [(1, true)]) /\
  fl_sees fl_run2 = Some (true, true, [(1, false); (2, true); (1, true)]) /\
  flow_run a_printer fl_table_load (flow_init fl_doc) [FLock 1; FLock 2] = None.
Proof. split_and!; by vm_compute. Qed.

(** ** C196: an accepted fix takes effect *)

(** Loading a document; [settings] are the settings that are only passed on. *)
Definition load_table (built_ins : gmap str api_config) (exports : str -> list nat -> option (gmap str api_config))
    (idx : crate_index) (root : str) (settings : table -> extra) (d : table) : option (config * extra) :=
  (fun c => (c, settings d)) <$> loads_to (load_document built_ins exports idx root d).

(** After a document has been saved and a reload has ended that began after that, processes decide as the
    document says. *)
Theorem C196_saved :
  forall (print : json -> str) (parse : str -> option json), reads_back print parse ->
  forall (built_ins : gmap str api_config) (exports : str -> list nat -> option (gmap str api_config))
         (idx : crate_index) (root : str) (settings : table -> extra) (d0 d' : table) (c' : config)
         (before during : list flow_event) (t : nat) (s0 s1 s2 : flow),
  let load := load_table built_ins exports idx root settings in
  load_document built_ins exports idx root d' = Some (Loaded c') ->
  flow_run print load (flow_init d0) before = Some s0 -> head (fl_file s0) = Some d' ->
  flow_step print load s0 (FLock t) = Some s1 -> flow_run print load s1 during = Some s2 ->
  FUpdate t ∈ during -> no_save during ->
  exists p, process_config parse s2 = Some p /\ decides_like p c'.
Proof.
  intros print parse codec built_ins exports idx root settings d0 d' c' before during t s0 s1 s2 load
    Hd' Hb Hh Hl Hd Ht Hn.
  destruct (C195_fresh print parse codec _ load d0 before during t s0 s1 s2 Hb Hl Hd Ht)
    as (p & d'' & c & x & Hp & (saved & Hf & Hin) & Hload & Hdec).
  exists p. split; [exact Hp|].
  assert (E : fl_file s2 = fl_file s0).
  { rewrite (run_no_save print load during s1 s2 Hn Hd).
    cbn in Hl. destruct (fl_lock s0); [done|]. by injection Hl as <-. }
  assert (saved = []) as ->.
  { rewrite E in Hf. apply (f_equal length) in Hf. rewrite app_length in Hf. destruct saved; [done|cbn in Hf; lia]. }
  destruct Hin as [Hin|Hin]; [by apply elem_of_nil in Hin|]. rewrite Hh in Hin. injection Hin as <-.
  unfold load, load_table in Hload. rewrite Hd' in Hload. cbn in Hload. by injection Hload as <- _.
Qed.
Print Assumptions C196_saved.

(** So the fix for unsafe code has taken effect when rustc is started again. *)
Theorem C196_unsafe :
  forall (print : json -> str) (parse : str -> option json), reads_back print parse ->
  forall (built_ins : gmap str api_config) (exports : str -> list nat -> option (gmap str api_config))
         (idx : crate_index) (root : str) (settings : table -> extra) (usable : sandbox_kind -> bool)
         (failed_in : nat -> sandbox_config) (exported : nat -> api_config)
         (prefixes : bool -> list api_usage -> option (list str)) (sel : crate_sel) (locations : nat)
         (e : edit) (d d' d0 : table) (c : config) (before during : list flow_event) (t : nat) (s0 s1 s2 : flow),
  let load := load_table built_ins exports idx root settings in
  load_document built_ins exports idx root d = Some (Loaded c) ->
  index_selector idx (pi_name (cs_pkg sel)) (crate_scope (cs_kind sel)) ->
  e ∈ fixes_for_problem failed_in exported prefixes (PDisallowedUnsafe sel locations) c ->
  apply_edit usable built_ins e d = Some d' ->
  flow_run print load (flow_init d0) before = Some s0 -> head (fl_file s0) = Some d' ->
  flow_step print load s0 (FLock t) = Some s1 -> flow_run print load s1 during = Some s2 ->
  FUpdate t ∈ during -> no_save during ->
  exists p, process_config parse s2 = Some p /\
    unsafe_permitted (sc_permissions p) (pi_name (cs_pkg sel)) (cs_kind sel) = true.
Proof.
  intros print parse codec built_ins exports idx root settings usable failed_in exported prefixes sel locations
    e d d' d0 c before during t s0 s1 s2 load Hc Hi He Ha Hb Hh Hl Hd Ht Hn.
  destruct (C81_unsafe built_ins exports idx root usable failed_in exported prefixes sel locations e d d' c Hc Hi He Ha)
    as (c' & Hc' & _ & Hu).
  destruct (C196_saved print parse codec built_ins exports idx root settings d0 d' c' before during t s0 s1 s2
              Hc' Hb Hh Hl Hd Ht Hn) as (p & Hp & Hk & _).
  exists p. split; [exact Hp|]. by rewrite (proj1 (Hk _ _)).
Qed.
Print Assumptions C196_unsafe.

(** Likewise the fix for extern declarations, from version 3 of the configuration on. *)
Theorem C196_extern :
  forall (print : json -> str) (parse : str -> option json), reads_back print parse ->
  forall (built_ins : gmap str api_config) (exports : str -> list nat -> option (gmap str api_config))
         (idx : crate_index) (root : str) (settings : table -> extra) (usable : sandbox_kind -> bool)
         (failed_in : nat -> sandbox_config) (exported : nat -> api_config)
         (prefixes : bool -> list api_usage -> option (list str)) (sel : crate_sel) (locations : nat)
         (e : edit) (d d' d0 : table) (c : config) (before during : list flow_event) (t : nat) (s0 s1 s2 : flow),
  let load := load_table built_ins exports idx root settings in
  load_document built_ins exports idx root d = Some (Loaded c) ->
  index_selector idx (pi_name (cs_pkg sel)) (crate_scope (cs_kind sel)) ->
  e ∈ fixes_for_problem failed_in exported prefixes (PDisallowedExtern sel locations) c ->
  (2 < rc_version (cf_raw c))%Z ->
  apply_edit usable built_ins e d = Some d' ->
  flow_run print load (flow_init d0) before = Some s0 -> head (fl_file s0) = Some d' ->
  flow_step print load s0 (FLock t) = Some s1 -> flow_run print load s1 during = Some s2 ->
  FUpdate t ∈ during -> no_save during ->
  exists p, process_config parse s2 = Some p /\
    extern_permitted (sc_permissions p) (cm_version (sc_common p)) (pi_name (cs_pkg sel)) (cs_kind sel) = true.
Proof.
  intros print parse codec built_ins exports idx root settings usable failed_in exported prefixes sel locations
    e d d' d0 c before during t s0 s1 s2 load Hc Hi He Hv Ha Hb Hh Hl Hd Ht Hn.
  destruct (C81_extern built_ins exports idx root usable failed_in exported prefixes sel locations e d d' c Hc Hi He Ha)
    as (c' & Hc' & _ & Hu).
  destruct (C196_saved print parse codec built_ins exports idx root settings d0 d' c' before during t s0 s1 s2
              Hc' Hb Hh Hl Hd Ht Hn) as (p & Hp & Hk & _).
  exists p. split; [exact Hp|]. rewrite (proj2 (Hk _ _)). by apply Hu.
Qed.
Print Assumptions C196_extern.

Definition fl_sel : crate_sel := CrateSel ed_pkg Primary.
Definition fl_load : table -> option (config * extra) :=
  load_table ∅ nothing_exported ed_idx (lit "/w") (fun _ => fl_x).

(** Unsafe code in the package is reported, the fix is accepted and saved while another thread reloads
    what was there before. *)
Definition fl_fix : edit := AllowUnsafe (lit "foo", All).
Definition fl_before : list flow_event :=
  [FLock 1; FParse 1; FSave (edited_doc fl_fix fl_doc); FWrite 1; FUpdate 1].
Definition fl_during : list (flow_event (doc := table)) := [FParse 2; FWrite 2; FUpdate 2; FLock 3].
Definition fl_unsafe (es : list flow_event) : option bool :=
  s ← flow_run a_printer fl_load (flow_init fl_doc) es; p ← process_config a_parser s;
  Some (unsafe_permitted (sc_permissions p) (lit "foo") Primary).

Example C196_ex :
  fl_fix ∈ fixes_for_problem (fun _ => sandbox_default) no_export no_prefixes (PDisallowedUnsafe fl_sel 1) fl_cfg /\
  (s ← flow_run a_printer fl_load (flow_init fl_doc) fl_before; head (fl_file s)) = Some (edited_doc fl_fix fl_doc) /\
  apply_edit any_kind ∅ fl_fix fl_doc = Some (edited_doc fl_fix fl_doc) /\
  fl_unsafe fl_before = Some false /\
  fl_unsafe (fl_before ++ [FLock 2] ++ fl_during) = Some true /\
  no_save fl_during /\ FUpdate 2 ∈ fl_during.
Proof.
  split; [by left|]. split; [by vm_compute|]. split; [by vm_compute|]. split; [by vm_compute|].
  split; [by vm_compute|]. split; [|right; right; left].
  intros d H. unfold fl_during in H. repeat (apply elem_of_cons in H as [H|H]; [done|]). by apply elem_of_nil in H.
Qed.
