(** C25, C63, C64, C65: source files of a crate and inputs of the linker. *)
From Verif Require Import Base BaseFacts TextModel TextFacts BuildScriptSpec NamesProofs
  DepsModel DepsSpec DepsProofs.

(** C25. The sources are read back from the file that rustc writes for them. *)
Theorem C25_round_trip (ls ps : list str) :
  deps_lines rustc_escape ls ps ->
  (forall p, p ∈ ps -> nl ∉ p /\ few_backslashes p) ->
  parse_deps (unlines ls) = ps.
Proof.
  intros H Hp. apply (parse_unlines rustc_escape); [done|]. intros p Hin.
  destruct (Hp p Hin). split; [by apply rustc_escape_nl|by apply unescape_few].
Qed.
Print Assumptions C25_round_trip.

(** With backslashes escaped as well, every path without a line feed is read back. *)
Theorem C25_round_trip_escaped (ls ps : list str) :
  deps_lines make_escape ls ps ->
  (forall p, p ∈ ps -> nl ∉ p) ->
  parse_deps (unlines ls) = ps.
Proof.
  intros H Hp. apply (parse_unlines make_escape); [done|]. intros p Hin.
  split; [by apply make_escape_nl, Hp|by apply unescape_make].
Qed.
Print Assumptions C25_round_trip_escaped.

Example C25_ex_round_trip :
  parse_deps (lit "/t/a-1.d: src/main.rs src/a\ b.rs" ++ [nl; nl] ++ lit "src/main.rs:" ++ [nl] ++
              lit "src/a\ b.rs:" ++ [nl; nl] ++ lit "# env-dep:CARGO_PKG_NAME=a" ++ [nl])
  = [lit "src/main.rs"; lit "src/a b.rs"].
Proof. by vm_compute. Qed.

Example C25_ex_lines :
  deps_lines rustc_escape [lit "/t/a-1.d: src/main.rs"; []; lit "src/a\ b.rs:"] [lit "src/a b.rs"].
Proof.
  apply deps_other; [apply (bool_decide_unpack _); by vm_compute|done|done|].
  apply deps_other; [apply not_elem_of_nil|done|done|].
  apply (deps_source rustc_escape (lit "src/a b.rs")), deps_end.
Qed.

(** The dependency file is looked for where the last of each kind of argument puts it. *)
Theorem C25_deps_file (items : list rustc_arg) (crate dir extra : str) :
  (forall a, a ∈ items -> proper_arg a) ->
  emits_deps items ->
  last_given crate_of items crate ->
  last_given out_dir_of items dir ->
  (last_given extra_of items extra \/ never_given extra_of items /\ extra = []) ->
  crate <> [] -> "/"%char ∉ crate ->
  exists path, deps_path_from_args (concat (map arg_texts items)) = DepsPath path /\
    file_in dir (crate ++ extra ++ lit ".d") path.
Proof.
  intros Hp He Hc Hd Hx Hne Hs. exists (path_join dir (crate ++ extra ++ lit ".d")). split; cycle 1.
  { apply path_join_file; destruct crate as [|c crate]; try done. cbn. intros [= ->]. apply Hs. left. } unfold deps_path_from_args. rewrite <- (app_nil_r (concat _)), deps_args_items by done.
  apply emits_spec in He. rewrite He.
  rewrite (upd_last _ _ _ _ (given_map Some _ _ _ Hc)), (upd_last _ _ _ _ (given_map Some _ _ _ Hd)).
  cbn [deps_args]. destruct Hx as [Hx|[Hx ->]].
  - by rewrite (upd_last _ _ _ _ Hx).
  - by rewrite upd_never.
Qed.
Print Assumptions C25_deps_file.

(** There is no file exactly if the last [--emit=] does not ask for one, and an error exactly if
    it does and the crate or the directory is missing. *)
Theorem C25_no_deps_file (items : list rustc_arg) :
  (forall a, a ∈ items -> proper_arg a) ->
  (deps_path_from_args (concat (map arg_texts items)) = DepsNone <-> ~ emits_deps items) /\
  (deps_path_from_args (concat (map arg_texts items)) = DepsError <->
     emits_deps items /\ (never_given crate_of items \/ never_given out_dir_of items)).
Proof.
  intros Hp. unfold deps_path_from_args. rewrite <- (app_nil_r (concat _)), deps_args_items by done. rewrite emits_spec.
  destruct (upd emit_of items false); cbn [deps_args]; [|split; split; try done; by intros []].
  assert (K : forall f : rustc_arg -> option str,
             upd (fun a => option_map Some (f a)) items None = None <-> never_given f items).
  { intros f. destruct (given_or_not f items) as [Hn|(x & Hx)].
    - rewrite upd_never by by apply never_map. done.
    - rewrite (upd_last _ _ _ _ (given_map Some _ _ _ Hx)). split; [done|]. intros Hn.
      destruct Hx as (b & a & c & -> & Ha & _). rewrite (Hn a) in Ha; [done|].
      apply elem_of_app. right. left. }
  rewrite <- !K.
  destruct (upd (fun a => option_map Some (crate_of a)) items None), (upd (fun a => option_map Some (out_dir_of a)) items None);
    split; split; try done; try (by intros []; tauto); try (intros _; split; [done|]; tauto);
    intros [_ [X|X]]; done.
Qed.
Print Assumptions C25_no_deps_file.

(** An option without its value is an error. *)
Theorem C25_missing_value (items : list rustc_arg) (option : str) :
  (forall a, a ∈ items -> proper_arg a) ->
  option ∈ [lit "-C"; lit "--out-dir"; lit "--crate-name"] ->
  deps_path_from_args (concat (map arg_texts items) ++ [option]) = DepsError.
Proof.
  intros Hp Ho. unfold deps_path_from_args. rewrite deps_args_items by done.
  repeat (apply elem_of_cons in Ho as [->|Ho]; [done|]). by apply elem_of_nil in Ho.
Qed.
Print Assumptions C25_missing_value.

(** The three theorems speak of every list of arguments. *)
Theorem C25_every_call (args : list str) :
  exists items, (forall a, a ∈ items -> proper_arg a) /\
    (args = concat (map arg_texts items) \/
     exists option, option ∈ [lit "-C"; lit "--out-dir"; lit "--crate-name"] /\
       args = concat (map arg_texts items) ++ [option]).
Proof. exact (args_items args). Qed.
Print Assumptions C25_every_call.

Example C25_ex_deps_file :
  deps_path_from_args [lit "--crate-name"; lit "bar"; lit "--emit=dep-info,link"; lit "-C"; lit "opt-level=0";
    lit "-C"; lit "extra-filename=-1a2b"; lit "--out-dir"; lit "/t/deps"] = DepsPath (lit "/t/deps/bar-1a2b.d") /\
  deps_path_from_args [lit "--crate-name"; lit "bar"; lit "--emit=dep-info,link"] = DepsError /\
  deps_path_from_args [lit "--crate-name"; lit "bar"; lit "--emit=link"] = DepsNone /\
  deps_path_from_args [lit "--emit=dep-info"; lit "-C"] = DepsError.
Proof. by vm_compute. Qed.

Example C25_ex_items :
  let items := [ACrateName (lit "bar"); AOther (lit "--emit=dep-info,link"); ACodegen (lit "extra-filename=-1");
                AOutDir (lit "/t")] in
  emits_deps items /\ last_given crate_of items (lit "bar") /\ last_given extra_of items (lit "-1") /\
  last_given out_dir_of items (lit "/t").
Proof.
  cbn zeta. split.
  { exists [ACrateName (lit "bar")], (lit "dep-info,link"), [ACodegen (lit "extra-filename=-1"); AOutDir (lit "/t")].
    split; [done|]. split; [by exists (lit "--emit="), (lit ",link")|].
    intros k H. apply elem_of_cons in H as [H|H]; [done|]. by apply elem_of_list_singleton in H. }
  split.
  { exists [], (ACrateName (lit "bar")), [AOther (lit "--emit=dep-info,link"); ACodegen (lit "extra-filename=-1"); AOutDir (lit "/t")].
    split; [done|]. split; [done|]. intros b H. repeat (apply elem_of_cons in H as [->|H]; [done|]). by apply elem_of_nil in H. }
  split.
  { exists [ACrateName (lit "bar"); AOther (lit "--emit=dep-info,link")], (ACodegen (lit "extra-filename=-1")), [AOutDir (lit "/t")].
    split; [done|]. split; [done|]. intros b H. apply elem_of_list_singleton in H as ->. done. }
  exists [ACrateName (lit "bar"); AOther (lit "--emit=dep-info,link"); ACodegen (lit "extra-filename=-1")], (AOutDir (lit "/t")), [].
  split; [done|]. split; [done|]. intros b H. by apply elem_of_nil in H.
Qed.

(** The files scanned are the resolved sources of the dependency file, in its order. *)
Theorem C25_sources (read canonicalize : str -> option str) (args : list str) (path : str) (ls ps : list str) :
  deps_path_from_args args = DepsPath path ->
  read path = Some (unlines ls) ->
  deps_lines rustc_escape ls ps ->
  (forall p, p ∈ ps -> nl ∉ p /\ few_backslashes p) ->
  exists files, source_files read canonicalize args = Some files /\
    gathered (fun p file => canonicalize p = Some file) ps files.
Proof.
  intros H1 H2 H3 H4. exists (omap canonicalize ps). unfold source_files. rewrite H1, H2.
  rewrite (C25_round_trip ls ps H3 H4). split; [done|]. apply omap_gathered.
Qed.
Print Assumptions C25_sources.

Example C25_ex_sources :
  source_files (fun p => if str_eqb p (lit "/t/bar.d") then Some (lit "src/lib.rs:" ++ [nl] ++ lit "gen.rs:" ++ [nl]) else None)
    (fun p => if str_eqb p (lit "src/lib.rs") then Some (lit "/w/src/lib.rs") else None)
    [lit "--crate-name"; lit "bar"; lit "--emit=dep-info"; lit "--out-dir"; lit "/t"]
  = Some [lit "/w/src/lib.rs"].
Proof. by vm_compute. Qed.

(** C63. A source file with a backslash in its name is read back under another name. *)
Theorem C63_backslash_refuted :
  exists (ls ps : list str), deps_lines rustc_escape ls ps /\ (forall p, p ∈ ps -> nl ∉ p) /\
    parse_deps (unlines ls) <> ps.
Proof.
  exists [lit "src/a\b.rs:"], [lit "src/a\b.rs"]. split.
  - apply (deps_source rustc_escape (lit "src/a\b.rs")), deps_end.
  - split; [|done]. intros p ->%elem_of_list_singleton. apply (bool_decide_unpack _). by vm_compute.
Qed.
Print Assumptions C63_backslash_refuted.

(** If the changed name does not exist the file is skipped without any error. *)
Theorem C63_source_skipped_refuted :
  exists (read canonicalize : str -> option str) (args : list str) (path : str) (p : str),
    deps_path_from_args args = DepsPath path /\
    read path = Some (unlines [rustc_escape p ++ lit ":"]) /\
    is_Some (canonicalize p) /\
    source_files read canonicalize args = Some [].
Proof.
  exists (fun _ => Some (lit "src/a\b.rs:" ++ [nl])),
    (fun p => if str_eqb p (lit "src/a\b.rs") then Some (lit "/w/src/a\b.rs") else None),
    [lit "--crate-name"; lit "bar"; lit "--emit=dep-info"; lit "--out-dir"; lit "/t"],
    (lit "/t/bar.d"), (lit "src/a\b.rs").
  split; [by vm_compute|]. split; [by vm_compute|]. split; [|by vm_compute].
  exists (lit "/w/src/a\b.rs"). by vm_compute.
Qed.
Print Assumptions C63_source_skipped_refuted.

(** C64. A second [--emit=] without [dep-info] hides the first, which asked for it. *)
Theorem C64_several_emits_refuted :
  exists (items : list rustc_arg), (forall a, a ∈ items -> proper_arg a) /\ asks_for_deps items /\
    deps_path_from_args (concat (map arg_texts items)) = DepsNone /\
    forall read canonicalize, source_files read canonicalize (concat (map arg_texts items)) = Some [].
Proof.
  exists [ACrateName (lit "bar"); AOther (lit "--emit=dep-info,link"); AOutDir (lit "/t"); AOther (lit "--emit=asm")].
  split; [|split; [|split; [by vm_compute|done]]].
  - intros a Ha. repeat (apply elem_of_cons in Ha as [->|Ha]; [intros t Ht; by simplify_eq|]). by apply elem_of_nil in Ha.
  - exists (lit "dep-info,link"), [], (lit ",link"). split; [|done]. right. left.
Qed.
Print Assumptions C64_several_emits_refuted.

(** C65. What is recorded of a call of the linker. *)
Theorem C65_link_inputs (args : list str) (li : link_info) :
  (forall p, p ∈ args -> plain_path p) ->
  link_info_from_args args = Some li ->
  gathered (fun arg p => p = arg /\ object_path arg) (drop 1 args) (li_objects li) /\
  (li_shared li = true <-> lit "-shared" ∈ args).
Proof.
  intros Hp H. unfold link_info_from_args in H. destruct (get_output_file args) as [o|]; [|done].
  injection H as <-. cbn [li_objects li_shared]. split.
  - apply filter_gathered. intros p Hin. apply object_path_spec, Hp.
    destruct args as [|a args]; [done|]. cbn in Hin. by right.
  - apply mem_str_spec.
Qed.
Print Assumptions C65_link_inputs.

Theorem C65_output (args : list str) :
  (forall li, link_info_from_args args = Some li ->
     exists before after, args = before ++ lit "-o" :: li_output li :: after /\ lit "-o" ∉ before) /\
  (link_info_from_args args = None <-> forall before out after, args <> before ++ lit "-o" :: out :: after).
Proof.
  unfold link_info_from_args. split.
  - intros li H. destruct (get_output_file args) as [o|] eqn:E; [|done]. injection H as <-.
    by apply output_some.
  - destruct (get_output_file args) as [o|] eqn:E.
    + split; [done|]. intros H. apply output_some in E as (b & a & -> & _). by destruct (H b o a).
    + split; [|done]. intros _ b o a ->.
      destruct (decide (lit "-o" ∈ b)) as [Hb|Hb].
      * apply elem_of_list_split_l in Hb as (b1 & b2 & -> & Hb1).
        rewrite <- app_assoc in E. cbn [app] in E.
        assert (X : exists o2 r, b2 ++ lit "-o" :: o :: a = o2 :: r) by (destruct b2; cbn; eauto).
        destruct X as (o2 & r & X). rewrite X in E.
        assert (Y : get_output_file (b1 ++ lit "-o" :: o2 :: r) = Some o2) by (apply output_some; by exists b1, r).
        congruence.
      * assert (Y : get_output_file (b ++ lit "-o" :: o :: a) = Some o) by (apply output_some; by exists b, a).
        congruence.
Qed.
Print Assumptions C65_output.

(** The objects scanned are those whose resolved path is in the target directory. *)
Theorem C65_objects_scanned (canonicalize : str -> option str) (li : link_info) (dir : str) :
  resolved dir ->
  (forall p q, canonicalize p = Some q -> resolved q) ->
  gathered (fun p q => canonicalize p = Some q /\ at_or_below dir q) (li_objects li)
    (object_paths_under canonicalize li dir).
Proof.
  intros Hd Hc. unfold object_paths_under. induction (li_objects li) as [|p ps IH]; [constructor|].
  cbn [omap list_omap]. destruct (canonicalize p) as [q|] eqn:E.
  - pose proof (below_spec dir q Hd (Hc p q E)) as B.
    destruct (decide (path_starts_with dir q = true)) as [Hq|Hq].
    + rewrite filter_cons_True by done. constructor; [|done]. split; [done|]. by apply B.
    + rewrite filter_cons_False by done. constructor; [|done]. intros b [Hb1 Hb2].
      assert (b = q) as -> by congruence. by apply Hq, B.
  - constructor; [|done]. intros b [Hb _]. congruence.
Qed.
Print Assumptions C65_objects_scanned.

Example C65_ex_link :
  link_info_from_args [lit "cc"; lit "-m64"; lit "/t/a.o"; lit "/t/libx.rlib"; lit "-lc"; lit ".o"; lit "-o"; lit "/t/out"]
  = Some (LinkInfo [lit "/t/a.o"; lit "/t/libx.rlib"] (lit "/t/out") false) /\
  link_info_from_args [lit "cc"; lit "@/tmp/args"] = None.
Proof. by vm_compute. Qed.

Example C65_ex_under :
  object_paths_under Some (LinkInfo [lit "/t/a.o"; lit "/tt/b.o"; lit "/usr/lib/crt1.o"] [] false) (lit "/t") = [lit "/t/a.o"].
Proof. by vm_compute. Qed.

Example C65_ex_plain : plain_path (lit "/t/a.o") /\ object_path (lit "/t/a.o") /\ resolved (lit "/t").
Proof.
  split; [|split].
  - intros d. split; intros H.
    + change (lit "/t/a.o") with (lit "/t/a." ++ ["o"%char]) in H. by apply app_inj_tail in H as [_ H].
    + change (lit "/t/a.o") with (lit "/t/a." ++ ["o"%char]) in H. change (lit "/.") with (lit "/" ++ ["."%char]) in H.
      rewrite app_assoc in H. by apply app_inj_tail in H as [_ H].
  - exists (lit "/t/"), (lit "a"), (lit "o"). split; [done|]. split; [right; by exists (lit "/t")|].
    split; [done|]. split; [apply (bool_decide_unpack _); by vm_compute|by right].
  - exists [lit "t"]. split; [done|]. split; [|done]. intros c ->%elem_of_list_singleton. split_and!; try done.
    apply (bool_decide_unpack _). by vm_compute.
Qed.
