(** Properties C33-C35 and C73-C78. *)
From Verif Require Import Base BaseFacts TextSpec Utf8Proofs TextModel TextFacts ApiMapModel ConfigModel ProblemModel StoreModel
  BuildScriptModel BuildScriptSpec BuildScriptProofs ScannerModel ScannerSpec ScannerProofs DepsModel
  IndexModel IndexSpec SandboxModel SubprocessModel SubprocessSpec SubprocessProofs.

(** ** C33: the compiler's arguments *)

Theorem C33_arguments (rustc exe self name : str) (kind : crate_kind) (items : list rustc_arg)
    (unsafe_ok extern_ok : bool) :
  Forall proper_arg items ->
  let c := get_command rustc exe kind (self :: name :: concat (map arg_text items)) unsafe_ok extern_ok in
  cm_program c = rustc /\
  (exists kept, passed_on items kept /\
    cm_args c = kept ++ [lit "-C"; lit "debuginfo=2"; lit "--error-format=json";
                         lit "-C"; lit "linker=" ++ exe; lit "-C"; lit "save-temps"; lit "-Ccodegen-units=1"]
                ++ (if unsafe_ok then [] else [lit "-Funsafe-code"])
                ++ (if extern_ok then [] else [lit "-Fmissing-unsafe-on-extern"])) /\
  (forall l, (lit "CACKLE_ORIG_LINKER", l) ∈ cm_env c <-> linker_asked items l) /\
  (forall v, (lit "CACKLE_CRATE_KIND", v) ∈ cm_env c <-> v = to_token kind).
Proof.
  intros H. unfold get_command.
  change (drop 2 (self :: name :: concat (map arg_text items))) with (concat (map arg_text items)).
  destruct (kept_args_spec items None H) as [H1 H2].
  destruct (kept_args (concat (map arg_text items)) None) as [kept linker]. cbn [fst snd] in *.
  split; [done|]. split; [by exists kept|]. cbn [cm_env].
  assert (Hne : lit "CACKLE_ORIG_LINKER" <> lit "CACKLE_CRATE_KIND") by done.
  assert (Huniq : forall x y, linker_asked items x -> linker_asked items y -> x = y).
  { intros x y (b1 & a1 & -> & N1) (b2 & a2 & E & N2). clear -E N1 N2. revert b2 E.
    induction b1 as [|z b1 IH]; intros [|w b2] E; cbn [app] in E.
    - injection E as ->. done.
    - injection E as <- ->. destruct (N1 y). apply elem_of_app. right. left.
    - injection E as -> <-. destruct (N2 x). apply elem_of_app. right. left.
    - injection E as -> E. by apply (IH b2). }
  split.
  - intros l. rewrite elem_of_app, elem_of_list_singleton. destruct H2 as [[-> Hn]|(x & -> & Hx)].
    + split.
      * intros [Hl|E]; [by apply not_elem_of_nil in Hl|]. congruence.
      * intros (b & a & -> & _). destruct (Hn l). apply elem_of_app. right. left.
    + rewrite elem_of_list_singleton. split.
      * intros [E|E]; [|congruence]. assert (l = x) as -> by congruence. done.
      * intros Hl. left. by rewrite (Huniq l x Hl Hx).
  - intros v. rewrite elem_of_app, elem_of_list_singleton. split.
    + intros [Hl|E]; [|congruence]. destruct linker as [x|]; [|by apply not_elem_of_nil in Hl].
      apply elem_of_list_singleton in Hl. congruence.
    + intros ->. by right.
Qed.
Print Assumptions C33_arguments.

(** The linker that cargo or the user asked for is the one that is run. *)
Theorem C33_linker (rustc exe self name : str) (kind : crate_kind) (items : list rustc_arg)
    (unsafe_ok extern_ok : bool) (env env' : str -> option str) :
  Forall proper_arg items ->
  env (lit "CACKLE_ORIG_LINKER") = None ->
  (forall n, variable_of env (get_command rustc exe kind (self :: name :: concat (map arg_text items))
     unsafe_ok extern_ok) n (env' n)) ->
  (forall l, linker_asked items l -> real_linker env' = l) /\
  ((forall l, LinkerArg l ∉ items) -> real_linker env' = lit "cc").
Proof.
  intros H He Hv. destruct (C33_arguments rustc exe self name kind items unsafe_ok extern_ok H) as (_ & _ & Hl & _).
  set (c := get_command _ _ _ _ _ _) in *. specialize (Hv (lit "CACKLE_ORIG_LINKER")). unfold real_linker.
  assert (Hne : lit "CACKLE_ORIG_LINKER" <> lit "CACKLE_CRATE_KIND") by done.
  set (key := lit "CACKLE_ORIG_LINKER") in *. remember (env' key) as ev eqn:Eev. clear Eev. split.
  - intros l Ha. apply Hl in Ha as Hin. destruct Hv as [b a v E Hn|Hn].
    + assert (Hvin : (key, v) ∈ cm_env c) by (rewrite E; apply elem_of_app; right; left).
      unfold c, get_command in Hin, Hvin. destruct (kept_args _ _) as [kept [x|]]; cbn [cm_env app] in Hin, Hvin.
      * apply elem_of_cons in Hin as [Hin|Hin%elem_of_list_singleton]; [|congruence].
        apply elem_of_cons in Hvin as [Hvin|Hvin%elem_of_list_singleton]; [|congruence].
        change (v = l). congruence.
      * apply elem_of_list_singleton in Hin. congruence.
    + by destruct (Hn l).
  - intros Hno. destruct Hv as [b a v E Hn|Hn].
    + assert (Hvin : (key, v) ∈ cm_env c) by (rewrite E; apply elem_of_app; right; left).
      apply Hl in Hvin as (bb & aa & -> & _). destruct (Hno v). apply elem_of_app. right. left.
    + by rewrite He.
Qed.
Print Assumptions C33_linker.

Definition ex_args : list rustc_arg :=
  [OtherArg (lit "--crate-name"); OtherArg (lit "foo"); FormatArg (lit "=human"); CodegenArg (lit "opt-level=3");
   LinkerArg (lit "clang"); DebugArg (lit "0"); OtherArg (lit "src/lib.rs")].

Example C33_ex :
  Forall proper_arg ex_args /\ linker_asked ex_args (lit "clang") /\
  get_command (lit "rustc") (lit "/bin/cackle") TestCrate
    (lit "/bin/cackle" :: lit "rustc" :: concat (map arg_text ex_args)) true false
  = Command (lit "rustc")
      [lit "--crate-name"; lit "foo"; lit "-C"; lit "opt-level=3"; lit "src/lib.rs"; lit "-C"; lit "debuginfo=2";
       lit "--error-format=json"; lit "-C"; lit "linker=/bin/cackle"; lit "-C"; lit "save-temps";
       lit "-Ccodegen-units=1"; lit "-Fmissing-unsafe-on-extern"]
      [(lit "CACKLE_ORIG_LINKER", lit "clang"); (lit "CACKLE_CRATE_KIND", lit "test")].
Proof.
  assert (Hp : forall p s, starts_with p s = false -> ~ p `prefix_of` s).
  { intros p s E [k ->]. by rewrite (proj2 (starts_with_spec p (p ++ k)) (prefix_app_r _ _ _ (reflexivity p))) in E. }
  split; [|split].
  - repeat apply Forall_cons_2; cbn [proper_arg]; repeat split; try done; by apply Hp; vm_compute.
  - exists [OtherArg (lit "--crate-name"); OtherArg (lit "foo"); FormatArg (lit "=human"); CodegenArg (lit "opt-level=3")],
      [DebugArg (lit "0"); OtherArg (lit "src/lib.rs")]. split; [done|].
    intros l' H. apply elem_of_cons in H as [H|H]; [done|]. apply elem_of_list_singleton in H. done.
  - by vm_compute.
Qed.

(** C76. The value of an option given as two arguments stays behind and is taken for a file. *)
Theorem C76_stray_value_refuted :
  exists (argv : list str) (value : str),
    argv = [lit "cackle"; lit "rustc"; lit "--error-format"; value; lit "src/lib.rs"] /\
    exists rest, cm_args (get_command (lit "rustc") (lit "cackle") Primary argv true true)
      = value :: lit "src/lib.rs" :: rest.
Proof.
  exists [lit "cackle"; lit "rustc"; lit "--error-format"; lit "json"; lit "src/lib.rs"], (lit "json").
  split; [done|].
  exists [lit "-C"; lit "debuginfo=2"; lit "--error-format=json"; lit "-C"; lit "linker=cackle"; lit "-C";
          lit "save-temps"; lit "-Ccodegen-units=1"].
  by vm_compute.
Qed.
Print Assumptions C76_stray_value_refuted.

(** C77. A linker given in the joined form is not remembered, and cc is run in its place. *)
Theorem C77_joined_linker_refuted :
  exists (argv : list str) (env' : str -> option str),
    lit "-Clinker=clang" ∈ argv /\
    (forall n, variable_of (fun _ => None)
       (get_command (lit "rustc") (lit "cackle") Primary argv true true) n (env' n)) /\
    real_linker env' = lit "cc".
Proof.
  exists [lit "cackle"; lit "rustc"; lit "-Clinker=clang"; lit "src/main.rs"],
    (fun n => if str_eqb n (lit "CACKLE_CRATE_KIND") then Some (lit "primary") else None).
  assert (E : cm_env (get_command (lit "rustc") (lit "cackle") Primary
    [lit "cackle"; lit "rustc"; lit "-Clinker=clang"; lit "src/main.rs"] true true)
    = [(lit "CACKLE_CRATE_KIND", lit "primary")]) by by vm_compute.
  split; [right; right; left|]. split; [|by vm_compute].
  intros n. destruct (str_eqb n (lit "CACKLE_CRATE_KIND")) eqn:En.
  - apply str_eqb_spec in En as ->. apply (var_set _ _ _ [] []); [exact E|].
    intros v Hv. by apply not_elem_of_nil in Hv.
  - apply var_inherited. rewrite E. intros v Hv. apply elem_of_list_singleton in Hv.
    assert (n = lit "CACKLE_CRATE_KIND") as -> by congruence.
    by rewrite (proj2 (str_eqb_spec _ _) eq_refl) in En.
Qed.
Print Assumptions C77_joined_linker_refuted.

(** ** C34: the compiler's wrapper *)

(** Success is reported only if the last run of the compiler succeeded, the main process accepted
    it, and what the configuration then in force forbids does not occur in the sources. *)
Theorem C34_success (lexer : str -> list lexed) (parse : str -> option message) (rustc exe : str)
    (sel : crate_sel) (argv : list str) (attempts : list attempt) (evs : list event) (out err : str) :
  lexer_ok lexer ->
  proxy_rustc lexer parse rustc exe sel argv attempts = (evs, Exits 0 out err) ->
  exists before a after evs0 ps version c files,
    attempts = before ++ a :: after /\
    at_config a = Some (ps, version) /\
    evs = evs0 ++ [Ran c; Asked (RustcComplete sel files)] /\
    cm_program c = rustc /\ at_rustc a c = Some (ProcOutput (Some 0%Z) out err) /\
    source_files (at_read a) (at_canonicalize a) argv = Some files /\
    at_answer a (RustcComplete sel files) = Some Continue /\
    (may_use_unsafe ps sel \/
     lit "-Funsafe-code" ∈ cm_args c /\
     forall f, f ∈ files -> exists bytes, at_read a f = Some bytes /\ not_used unsafe_use lexer bytes) /\
    (may_use_extern ps version sel \/
     lit "-Fmissing-unsafe-on-extern" ∈ cm_args c /\
     forall f, f ∈ files -> exists bytes, at_read a f = Some bytes /\ not_used extern_use lexer bytes).
Proof.
  intros Hok H. apply proxy_rustc_made in H; [|done].
  remember (Exits 0 out err) as e eqn:Ee. revert Ee. induction H as [|a rest evs more e Ha H IH|a rest evs Ha|a rest evs o Ha|a rest evs Ha]; intros Ee; try done.
  - destruct (IH Ee) as (b & a' & af & evs0 & ps & version & c & files & -> & H1 & -> & H2).
    exists (a :: b), a', af, (evs ++ evs0), ps, version, c, files. split; [done|]. split; [done|].
    split; [by rewrite app_assoc|done].
  - injection Ee as E0 <- <-. inversion Ha as [| | | | |ps version o1 evs1 r H1 H2 H3 E1 E2|ps version o' H1 H2 H3 E1 E2|ps version o' files H1 H2 H3 H4 H5 H6 H7 E1 E2]; subst.
    + by destruct (at_answer a r) as [[|]|].
    + exfalso. unfold exit_code in E0. destruct (po_code o) as [z|] eqn:Eo; cbn in E0; [by subst|done].
    + exists [], a, rest, [], ps, version, (the_command rustc exe sel argv ps version), files.
      split; [done|]. split; [done|]. split; [done|].
      split; [unfold the_command, get_command; by destruct (kept_args _ _)|].
      split. { destruct o as [code out' err']. cbn [po_code po_stdout po_stderr] in *. by subst code. }
      split; [done|]. split; [done|]. split.
      * destruct H6 as [H6|[Hn H6]]; [by left|right]. split; [|done].
        rewrite <- unsafe_permitted_spec in Hn. apply not_true_is_false in Hn.
        unfold the_command, get_command. rewrite Hn. destruct (kept_args _ _) as [kept l]. cbn [cm_args].
        rewrite !elem_of_app. right. right. left. left.
      * destruct H7 as [H7|[Hn H7]]; [by left|right]. split; [|done].
        rewrite <- extern_permitted_spec in Hn. apply not_true_is_false in Hn.
        unfold the_command, get_command. rewrite Hn. destruct (kept_args _ _) as [kept l]. cbn [cm_args].
        rewrite !elem_of_app. right. right. right. left.
Qed.
Print Assumptions C34_success.

(** A failure is the compiler's own, unchanged, or follows the main process giving up. *)
Theorem C34_failure (lexer : str -> list lexed) (parse : str -> option message) (rustc exe : str)
    (sel : crate_sel) (argv : list str) (attempts : list attempt) (evs : list event) (code : Z) (out err : str) :
  lexer_ok lexer ->
  proxy_rustc lexer parse rustc exe sel argv attempts = (evs, Exits code out err) -> code <> 0%Z ->
  (exists a evs0 c status, a ∈ attempts /\ evs = evs0 ++ [Ran c] /\
     at_rustc a c = Some (ProcOutput status out err) /\
     (status = Some code \/ status = None /\ code = (-1)%Z)) \/
  (exists a evs0 r, a ∈ attempts /\ evs = evs0 ++ [Asked r] /\ at_answer a r = Some GiveUp /\
     code = (-1)%Z /\ out = [] /\ err = []).
Proof.
  intros Hok H. apply proxy_rustc_made in H; [|done].
  remember (Exits code out err) as e eqn:Ee. revert Ee. induction H as [|a rest evs more e Ha H IH|a rest evs Ha|a rest evs o Ha|a rest evs Ha]; intros Ee Hc; try done.
  - destruct (IH Ee Hc) as [(a' & evs0 & c & st & Hin & -> & X)|(a' & evs0 & r & Hin & -> & X)]; [left|right].
    + exists a', (evs ++ evs0), c, st. split; [by right|]. split; [by rewrite app_assoc|done].
    + exists a', (evs ++ evs0), r. split; [by right|]. split; [by rewrite app_assoc|done].
  - injection Ee as <- <- <-. right. inversion Ha as [| | | |ps version o files H1 H2 H3 E1 E2|ps version o evs0 r H1 H2 H3 E1 E2| |]; subst.
    + exists a, [Ran (the_command rustc exe sel argv ps version)], (RustcComplete sel files). split; [left|]. done.
    + exists a, (Ran (the_command rustc exe sel argv ps version) :: evs0), r. split; [left|]. split; [done|].
      split; [|done]. by destruct (at_answer a r) as [[|]|].
  - injection Ee as E0 <- <-. inversion Ha as [| | | | |ps version o1 evs1 r H1 H2 H3 E1 E2|ps version o' H1 H2 H3 E1 E2|ps version o' files H1 H2 H3 H4 H5 H6 H7 E1 E2]; subst.
    + by destruct (at_answer a r) as [[|]|].
    + left. exists a, [], (the_command rustc exe sel argv ps version), (po_code o). split; [left|]. split; [done|].
      split; [by destruct o|]. unfold exit_code. destruct (po_code o) as [z|]; cbn; auto.
    + unfold exit_code in Hc. by rewrite H3 in Hc.
Qed.
Print Assumptions C34_failure.

(** The compiler is run again only after the main process has accepted a report. *)
Theorem C34_retry (lexer : str -> list lexed) (parse : str -> option message) (rustc exe : str)
    (sel : crate_sel) (argv : list str) (attempts : list attempt) (evs l1 l2 : list event) (x : event)
    (c : command) (e : ending) :
  lexer_ok lexer ->
  proxy_rustc lexer parse rustc exe sel argv attempts = (evs, e) -> evs = l1 ++ x :: Ran c :: l2 ->
  exists a r places, a ∈ attempts /\ x = Asked r /\ (r = UsesUnsafe sel places \/ r = UsesExtern sel places) /\
    at_answer a r = Some Continue.
Proof.
  intros Hok H. apply proxy_rustc_made in H; [|done]. revert l1.
  induction H as [|a rest evs more e Ha H IH|a rest evs Ha|a rest evs o Ha|a rest evs Ha]; intros l1 E.
  - by destruct l1.
  - destruct (attempted_retry _ _ _ _ _ _ _ _ Ha) as (evs0 & r & Er & Hans & places & Hr).
    destruct (app_split _ _ _ _ _ _ E) as [[k Ek]|[[Ek _]|[k Ek]]].
    + by destruct (attempted_ran _ _ _ _ _ _ _ _ _ l1 x c k Ha).
    + rewrite Er in Ek. apply app_inj_tail in Ek as [_ <-]. exists a, r, places. split; [left|]. done.
    + destruct (IH k Ek) as (a' & r' & places' & Hin & X). exists a', r', places'. split; [by right|done].
  - by destruct (attempted_ran _ _ _ _ _ _ _ _ _ l1 x c l2 Ha).
  - by destruct (attempted_ran _ _ _ _ _ _ _ _ _ l1 x c l2 Ha).
  - by destruct (attempted_ran _ _ _ _ _ _ _ _ _ l1 x c l2 Ha).
Qed.
Print Assumptions C34_retry.

(** What is reported: all uses in the sources of a crate that lacks the permission, or all of the
    compiler's errors of that kind; each place once. *)
Theorem C34_reports (lexer : str -> list lexed) (parse : str -> option message) (rustc exe : str)
    (sel sel' : crate_sel) (argv : list str) (attempts : list attempt) (evs : list event) (e : ending)
    (places : list place) :
  lexer_ok lexer ->
  proxy_rustc lexer parse rustc exe sel argv attempts = (evs, e) ->
  (Asked (UsesUnsafe sel' places) ∈ evs ->
   sel' = sel /\ places <> [] /\ NoDup places /\
   exists a ps version c o, a ∈ attempts /\ at_config a = Some (ps, version) /\ Ran c ∈ evs /\ at_rustc a c = Some o /\
     ((po_code o = Some 0%Z /\ ~ may_use_unsafe ps sel /\ exists files,
         source_files (at_read a) (at_canonicalize a) argv = Some files /\
         uses_in unsafe_use lexer (at_read a) files places) \/
      (po_code o <> Some 0%Z /\
         errors_in parse (at_canonicalize a) (lit "unsafe_code") (po_stderr o) places))) /\
  (Asked (UsesExtern sel' places) ∈ evs ->
   sel' = sel /\ places <> [] /\ NoDup places /\
   exists a ps version c o, a ∈ attempts /\ at_config a = Some (ps, version) /\ Ran c ∈ evs /\ at_rustc a c = Some o /\
     ((po_code o = Some 0%Z /\ ~ may_use_extern ps version sel /\ exists files,
         source_files (at_read a) (at_canonicalize a) argv = Some files /\
         uses_in extern_use lexer (at_read a) files places) \/
      (po_code o <> Some 0%Z /\
         errors_in parse (at_canonicalize a) (lit "missing_unsafe_on_extern") (po_stderr o) places))).
Proof.
  intros Hok H. apply proxy_rustc_made in H; [|done].
  assert (Hone : forall a evs st (r : request),
    attempted lexer parse rustc exe sel argv a evs st -> Asked r ∈ evs ->
    (exists places, r = UsesUnsafe sel' places) \/ (exists places, r = UsesExtern sel' places) ->
    exists ps version o evs0, at_config a = Some (ps, version) /\ Ran (the_command rustc exe sel argv ps version) ∈ evs /\
      at_rustc a (the_command rustc exe sel argv ps version) = Some o /\
      reported lexer parse sel argv a ps version o evs0 r).
  { clear. intros a evs st r Ha Hin Hr.
    assert (Hno : forall files, r <> RustcComplete sel files) by (intros files ->; destruct Hr as [[? ?]|[? ?]]; done).
    assert (Hl : forall c (l : list event), Asked r ∈ Ran c :: l -> Asked r ∈ l).
    { intros c l Hx. by apply elem_of_cons in Hx as [Hx|Hx]. }
    assert (H0 : forall c, ~ Asked r ∈ [Ran c]) by (intros c Hx; apply Hl in Hx; by apply not_elem_of_nil in Hx).
    assert (H2 : forall c files, ~ Asked r ∈ [Ran c; Asked (RustcComplete sel files)]).
    { intros c files Hx. apply Hl, elem_of_list_singleton in Hx. destruct (Hno files). congruence. }
    inversion Ha as [|ps v A1 A2|ps v o A1 A2|ps v o files A1 A2|ps v o files A1 A2 A3|ps v o evs0 r' A1 A2 A3 E1 E2
      |ps v o A1 A2 A3|ps v o files A1 A2 A3 A4 A5 A6 A7]; subst;
      try (exfalso; first [by apply not_elem_of_nil in Hin|by apply H0 in Hin|by apply H2 in Hin]).
    exists ps, v, o, evs0. split; [done|]. split; [left|]. split; [done|].
    apply Hl in Hin. apply elem_of_app in Hin as [Hin|Hin].
    - exfalso. inversion A3; subst; try (by apply not_elem_of_nil in Hin);
        apply elem_of_list_singleton in Hin; injection Hin as ->; by eapply Hno.
    - apply elem_of_list_singleton in Hin. injection Hin as ->. done. }
  assert (Hall : forall r, Asked r ∈ evs ->
    (exists places, r = UsesUnsafe sel' places) \/ (exists places, r = UsesExtern sel' places) ->
    exists a ps version o evs0, a ∈ attempts /\ at_config a = Some (ps, version) /\
      Ran (the_command rustc exe sel argv ps version) ∈ evs /\
      at_rustc a (the_command rustc exe sel argv ps version) = Some o /\
      reported lexer parse sel argv a ps version o evs0 r).
  { intros r Hin Hr.
    assert (Hgo : forall a evs st rest, attempted lexer parse rustc exe sel argv a evs st -> Asked r ∈ evs ->
      exists a' ps version o evs0, a' ∈ a :: rest /\ at_config a' = Some (ps, version) /\
      Ran (the_command rustc exe sel argv ps version) ∈ evs /\
      at_rustc a' (the_command rustc exe sel argv ps version) = Some o /\
      reported lexer parse sel argv a' ps version o evs0 r).
    { intros a evs0 st rest Ha Hi. destruct (Hone a evs0 st r Ha Hi Hr) as (ps & v & o & e0 & X).
      exists a, ps, v, o, e0. split; [left|done]. }
    induction H as [|a rest evs more e Ha H IH|a rest evs Ha|a rest evs o Ha|a rest evs Ha];
      [by apply not_elem_of_nil in Hin| |by eapply Hgo|by eapply Hgo|by eapply Hgo].
    apply elem_of_app in Hin as [Hin|Hin].
    - destruct (Hgo a evs _ rest Ha Hin) as (a' & ps & v & o & e0 & X1 & X2 & X3 & X4).
      exists a', ps, v, o, e0. split; [done|]. split; [done|]. split; [apply elem_of_app; by left|done].
    - destruct (IH Hin) as (a' & ps & v & o & e0 & X1 & X2 & X3 & X4). exists a', ps, v, o, e0.
      split; [by right|]. split; [done|]. split; [apply elem_of_app; by right|done]. }
  split; intros Hin.
  - destruct (Hall _ Hin ltac:(left; by eexists)) as (a & ps & v & o & evs0 & X1 & X2 & X3 & X4 & X5).
    inversion X5 as [files pl R1 R2 R3 R4 R5 R6 R7| |pl R1 R2 R3 R4|]; subst;
      (split; [done|]); (split; [done|]); (split; [done|]);
      exists a, ps, v; eexists _, o;
      (split; [done|]); (split; [done|]); (split; [exact X3|]); (split; [done|]); [left|right]; [|done].
    split; [done|]. split; [done|]. by exists files.
  - destruct (Hall _ Hin ltac:(right; by eexists)) as (a & ps & v & o & evs0 & X1 & X2 & X3 & X4 & X5).
    inversion X5 as [|files pl R1 R2 R3 R4 R5 R6 R7| |pl R1 R2 R3 R4]; subst;
      (split; [done|]); (split; [done|]); (split; [done|]);
      exists a, ps, v; eexists _, o;
      (split; [done|]); (split; [done|]); (split; [exact X3|]); (split; [done|]); [left|right]; [|done].
    split; [done|]. split; [done|]. by exists files.
Qed.
Print Assumptions C34_reports.

(** *** An example: the first run fails because of unsafe code, which the user then permits. *)

(** A lexer that takes the whole file for one token. *)
Definition whole (s : str) : list lexed := match s with [] => [] | _ => [Lexed false (length s)] end.

Lemma whole_ok : lexer_ok whole.
Proof.
  intros bytes Hv. destruct bytes as [|c s]; [exists []|exists [Token (c :: s)]].
  - split; [constructor|done].
  - split; [by constructor; [|constructor]|]. split; [by unfold source_text; cbn; rewrite app_nil_r|done].
Qed.

Definition ex_sel : crate_sel := CrateSel (PkgId (lit "foo") [1; 0; 0]) Primary.
Definition ex_permissions (unsafe_ok : bool) : permissions :=
  {[ (lit "foo", All) := PackageConfig unsafe_ok true [] [] false None None None sandbox_default None ]}.
Definition ex_parse (line : str) : option message :=
  if str_eqb line (lit "M") then Some (Message (lit "unsafe_code") (lit "error") [(lit "src/lib.rs", 3, 5)]) else None.
Definition ex_read (path : str) : option str :=
  if str_eqb path (lit "/t/foo.d") then Some (lit "src/lib.rs:" ++ [nl])
  else if str_eqb path (lit "/w/src/lib.rs") then Some (lit "fn") else None.
Definition ex_canonicalize (path : str) : option str :=
  if str_eqb path (lit "src/lib.rs") then Some (lit "/w/src/lib.rs") else None.
Definition ex_rustc (c : command) : option proc_output :=
  if mem_str (lit "-Funsafe-code") (cm_args c) then Some (ProcOutput (Some 1%Z) [] (lit "M" ++ [nl]))
  else Some (ProcOutput (Some 0%Z) (lit "out") (lit "note")).
Definition ex_attempt (unsafe_ok : bool) : attempt :=
  Attempt (Some (ex_permissions unsafe_ok, 3%Z)) ex_rustc ex_read ex_canonicalize (fun _ => Some Continue).
Definition ex_argv : list str :=
  [lit "cackle"; lit "rustc"; lit "--crate-name"; lit "foo"; lit "--emit=dep-info"; lit "--out-dir"; lit "/t"].

Example C34_ex :
  lexer_ok whole /\
  exists c1 c2, lit "-Funsafe-code" ∈ cm_args c1 /\ lit "-Funsafe-code" ∉ cm_args c2 /\
  proxy_rustc whole ex_parse (lit "rustc") (lit "cackle") ex_sel ex_argv [ex_attempt false; ex_attempt true]
  = ([Ran c1; Asked (UsesUnsafe ex_sel [(lit "/w/src/lib.rs", 3, 5)]); Ran c2;
      Asked (RustcComplete ex_sel [lit "/w/src/lib.rs"])], Exits 0 (lit "out") (lit "note")).
Proof.
  split; [exact whole_ok|].
  exists (get_command (lit "rustc") (lit "cackle") Primary ex_argv false true),
    (get_command (lit "rustc") (lit "cackle") Primary ex_argv true true).
  split; [apply (bool_decide_unpack _); by vm_compute|].
  split; [apply (bool_decide_unpack _); by vm_compute|]. by vm_compute.
Qed.

(** C78. A crate that may use unsafe, but forbids it to itself and uses it all the same, is reported
    as using unsafe code without permission. *)
Theorem C78_own_lint_refuted :
  exists (attempts : list attempt) (evs : list event) (e : ending) (places : list place),
    (forall a, a ∈ attempts -> exists ps version, at_config a = Some (ps, version) /\ may_use_unsafe ps ex_sel) /\
    proxy_rustc whole ex_parse (lit "rustc") (lit "cackle") ex_sel ex_argv attempts = (evs, e) /\
    Asked (UsesUnsafe ex_sel places) ∈ evs /\ e = Exits (-1) [] [].
Proof.
  set (a := Attempt (Some (ex_permissions true, 3%Z)) (fun _ => Some (ProcOutput (Some 1%Z) [] (lit "M" ++ [nl])))
    ex_read ex_canonicalize (fun _ => Some GiveUp)).
  exists [a], [Ran (get_command (lit "rustc") (lit "cackle") Primary ex_argv true true);
               Asked (UsesUnsafe ex_sel [(lit "/w/src/lib.rs", 3, 5)])], (Exits (-1) [] []), [(lit "/w/src/lib.rs", 3, 5)].
  split.
  - intros b Hb. apply elem_of_list_singleton in Hb as ->. exists (ex_permissions true), 3%Z. split; [done|].
    exists (PackageConfig true true [] [] false None None None sandbox_default None). split; [|done].
    apply lookup_singleton.
  - split; [by vm_compute|]. split; [right; left|done].
Qed.
Print Assumptions C78_own_lint_refuted.

(** ** C35: programs that were built, in a sandbox *)

Theorem C35_sandboxed (bin : str) (sel : crate_sel) (args : list str) (attempts : list bin_attempt)
    (evs : list event) (e : ending) :
  (forall a ps, a ∈ attempts -> ba_config a = Some ps -> runs_sandboxed ps sel) ->
  proxy_binary bin sel args attempts = (evs, e) ->
  (forall c, Ran c ∈ evs -> c = Command bin args []) /\
  (forall code out err, e = Exits code out err ->
     (code = 0%Z /\ exists before a after evs0 sandbox, attempts = before ++ a :: after /\
        evs = evs0 ++ [Ran (Command bin args []); Asked (BinComplete sel 0 out err)] /\
        ba_run_in a sandbox (Command bin args []) = Some (ProcOutput (Some 0%Z) out err) /\
        ba_answer a (BinComplete sel 0 out err) = Some Continue) \/
     (code = (-1)%Z /\ out = [] /\ err = [] /\ exists a evs0 r, a ∈ attempts /\ evs = evs0 ++ [Asked r] /\
        ba_answer a r = Some GiveUp)) /\
  (forall l1 x c l2, evs = l1 ++ x :: Ran c :: l2 ->
     exists a code out err, a ∈ attempts /\ x = Asked (BinComplete sel code out err) /\ code <> 0%Z /\
       ba_answer a (BinComplete sel code out err) = Some Continue).
Proof.
  intros Hs H. apply proxy_binary_tried in H; [|done].
  split; [|split]; clear Hs.
  - induction H; intros c Hin; repeat (apply elem_of_cons in Hin as [Hin|Hin]; [by inversion Hin|]);
      try (by apply not_elem_of_nil in Hin). by apply IHtried.
  - intros code out err ->. remember (Exits code out err) as e eqn:Ee. revert Ee.
    induction H as [|a rest|a rest|a rest c o er|a rest c o er Ha|a rest sb o er Hr Ha|a rest c o er more e Hc Ha H IH]; intros Ee; try done.
    + right. injection Ee as <- <- <-. do 3 (split; [done|]).
      exists a, [Ran (Command bin args [])], (BinComplete sel c o er). split; [left|done].
    + left. injection Ee as <- <- <-. split; [done|]. by exists [], a, rest, [], sb.
    + destruct (IH Ee) as [(-> & b & a' & af & evs0 & sb & -> & -> & X)|(-> & -> & -> & a' & evs0 & r & Hin & -> & X)]; [left|right].
      * split; [done|]. by exists (a :: b), a', af, (Ran (Command bin args []) :: Asked (BinComplete sel c o er) :: evs0), sb.
      * do 3 (split; [done|]). exists a', (Ran (Command bin args []) :: Asked (BinComplete sel c o er) :: evs0), r.
        split; [by right|done].
  - induction H as [|a rest|a rest|a rest c o er|a rest c o er Ha|a rest sb o er Hr Ha|a rest c o er more e Hc Ha H IH]; intros l1 x cc l2 E;
      try (by destruct l1 as [|? [|? [|? ?]]]).
    destruct l1 as [|y l1]; cbn [app] in E; [done|]. injection E as <- E.
    destruct l1 as [|z l1]; cbn [app] in E.
    + injection E as <- E. exists a, c, o, er. split; [left|done].
    + injection E as <- E. destruct (IH l1 x cc l2 E) as (a' & c' & o' & er' & Hin & X).
      exists a', c', o', er'. split; [by right|done].
Qed.
Print Assumptions C35_sandboxed.

(** ** C73: when a wrapper is told to continue *)

Theorem C73_continue (turns : list turn) :
  handle_request turns = Some Continue ->
  exists before t after problems, turns = before ++ t :: after /\
    (forall b, b ∈ before -> tn_fix b = Continue /\ tn_reload b = true) /\
    tn_problems t = Some problems /\
    (problems = [] \/
     tn_fix t = Continue /\ tn_reload t = true /\ forall p, p ∈ problems -> retried_by_wrapper p).
Proof. apply handle_request_continue. Qed.
Print Assumptions C73_continue.

(** The main process does not give up on its own: the user declined, or there was an error. *)
Theorem C73_give_up (turns : list turn) :
  handle_request turns = Some GiveUp ->
  exists t, t ∈ turns /\ (tn_problems t = None \/ tn_fix t = GiveUp \/ tn_reload t = false).
Proof.
  induction turns as [|t rest IH]; [done|]. cbn [handle_request]. intros H.
  destruct (tn_problems t) as [[|p ps]|] eqn:Ep; [done| |].
  - destruct (tn_fix t) eqn:Ef.
    + destruct (tn_reload t) eqn:Er; cbn [negb] in H.
      * destruct (all_send_retry (p :: ps)); [done|]. destruct (IH H) as (t' & Hin & X). exists t'. split; [by right|done].
      * exists t. split; [left|]. auto.
    + exists t. split; [left|]. auto.
  - exists t. split; [left|]. auto.
Qed.
Print Assumptions C73_give_up.

Example C73_ex :
  handle_request [Turn (Some [PMessage (lit "a")]) Continue true; Turn (Some []) GiveUp false] = Some Continue /\
  handle_request [Turn (Some [PExecutionFailed ex_sel 0]) Continue true] = Some Continue /\
  handle_request [Turn (Some [PMessage (lit "a"); PExecutionFailed ex_sel 0]) Continue true] = None /\
  handle_request [Turn (Some [PMessage (lit "a")]) Continue true; Turn (Some [PMessage (lit "b")]) GiveUp true] = Some GiveUp.
Proof. by vm_compute. Qed.

(** The output of a sandboxed build script reaches cargo only if each of its instructions was
    permitted under the configuration of the last check. *)
Theorem C35_instructions (bin : str) (pkg : pkg_id) (args : list str) (attempts : list bin_attempt)
    (evs : list event) (out err : str) (ls : list str) :
  let sel := CrateSel pkg BuildScript in
  (forall a ps, a ∈ attempts -> ba_config a = Some ps -> runs_sandboxed ps sel) ->
  (forall a code out err, a ∈ attempts -> ba_answer a (BinComplete sel code out err) = Some Continue ->
     exists turns, handle_request turns = Some Continue /\
       forall t, t ∈ turns -> exists ps n, tn_problems t = Some (fst (execution_complete ps code sel n out))) ->
  proxy_binary bin sel args attempts = (evs, Exits 0 out err) ->
  lines_of out ls ->
  is_utf8 out /\
  exists ps allow, rules_in_force ps pkg allow /\ forall line, line ∈ ls -> ~ rejected allow line.
Proof.
  intros sel Hs Hmain H Hls.
  destruct (C35_sandboxed bin sel args attempts evs _ Hs H) as (_ & H2 & _).
  destruct (H2 0%Z out err eq_refl) as [(_ & before & a & after & evs0 & sandbox & Hat & _ & _ & Hans)|[? _]]; [|done].
  destruct (Hmain a 0%Z out err ltac:(rewrite Hat; apply elem_of_app; right; left) Hans) as (turns & Hc & Hturns).
  destruct (C73_continue turns Hc) as (b & t & af & problems & -> & _ & Hp & Hx).
  destruct (Hturns t ltac:(apply elem_of_app; right; left)) as (ps & n & Ht).
  rewrite Ht in Hp.
  assert (Hex : forall n, (execution_complete ps 0 sel n out).1 = br_problems (bs_build ps pkg out)) by done.
  rewrite Hex in Hp. assert (Ep : br_problems (bs_build ps pkg out) = problems) by congruence. clear Hp.
  destruct (utf8_valid out) eqn:Hv.
  - split; [by apply utf8_valid_spec|].
    assert (Hr : exists allow, rules_in_force ps pkg allow).
    { unfold rules_in_force. destruct (ps !! (pi_name pkg, Build)) as [c|] eqn:El.
      - exists (pc_allow_build_instructions c). left. by exists c.
      - exists []. by right. }
    destruct Hr as [allow Hr]. exists ps, allow. split; [done|].
    destruct (bs_build_valid ps pkg allow out ls Hv Hls Hr) as (bad & vars & Hb & _ & Hpr & _).
    assert (Hbad : bad = []).
    { destruct bad as [|x bad]; [done|]. exfalso. rewrite Ep in Hpr. cbn [map] in Hpr.
      destruct Hx as [->|(_ & _ & Hx)]; [done|].
      specialize (Hx (PDisallowedBuildInstruction pkg x) ltac:(rewrite Hpr; left)).
      by destruct Hx as [(? & ? & ?)|[(? & ? & ?)|(? & ? & ?)]]. }
    subst bad. clear -Hb. remember [] as nil eqn:E in Hb. revert E.
    induction Hb as [|x y l bs Hxy Hb IH|x l bs Hn Hb IH]; intros E line Hin; [by apply not_elem_of_nil in Hin|done|].
    apply elem_of_cons in Hin as [->|Hin]; [|by apply IH].
    intros Hrej. by destruct (Hn x).
  - exfalso. unfold bs_build in Ep. rewrite Hv in Ep. cbn [br_problems] in Ep. subst problems.
    destruct Hx as [?|(_ & _ & Hx)]; [done|]. specialize (Hx _ ltac:(left)).
    by destruct Hx as [(? & ? & ?)|[(? & ? & ?)|(? & ? & ?)]].
Qed.
Print Assumptions C35_instructions.

(** *** An example: the first run fails and is retried; the second one's output is accepted. *)

Definition ex_script : crate_sel := CrateSel (PkgId (lit "foo") [1; 0; 0]) BuildScript.
Definition ex_rules (kind : sandbox_kind) : permissions :=
  {[ (lit "foo", Build) := PackageConfig false false [lit "cargo:rustc-link-lib=*"] [] false None None None
       (SandboxConfig (Some kind) [] None [] [] []) None ]}.
Definition ex_host : host := Host [(lit "HOME", lit "/home/u"); (lit "CARGO_MANIFEST_DIR", lit "/w")] (fun _ => true) (fun _ => true) (fun _ => true).
Definition ex_main (r : request) : option outcome :=
  match r with
  | BinComplete sel code out err =>
      handle_request [Turn (Some (fst (execution_complete (ex_rules Bubblewrap) code sel 0 out))) Continue true]
  | _ => None
  end.
Definition ex_run (code : Z) (out : str) : bin_attempt :=
  BinAttempt (Some (ex_rules Bubblewrap)) ex_host (fun _ => None)
    (fun _ _ => Some (ProcOutput (Some code) out (lit "note"))) ex_main.

Example C35_ex :
  proxy_binary (lit "/t/debug/build/foo/b") ex_script [lit "-x"]
    [ex_run 1 (lit "ignored"); ex_run 0 (lit "cargo:rustc-link-lib=z" ++ [nl])]
  = ([Ran (Command (lit "/t/debug/build/foo/b") [lit "-x"] []); Asked (BinComplete ex_script 1 (lit "ignored") (lit "note"));
      Ran (Command (lit "/t/debug/build/foo/b") [lit "-x"] []);
      Asked (BinComplete ex_script 0 (lit "cargo:rustc-link-lib=z" ++ [nl]) (lit "note"))],
     Exits 0 (lit "cargo:rustc-link-lib=z" ++ [nl]) (lit "note")) /\
  snd (proxy_binary (lit "/t/debug/build/foo/b") ex_script [] [ex_run 0 (lit "cargo:rustc-env=A=b" ++ [nl])]) = Fails /\
  runs_sandboxed (ex_rules Bubblewrap) ex_script.
Proof.
  split; [by vm_compute|]. split; [by vm_compute|].
  exists (PackageConfig false false [lit "cargo:rustc-link-lib=*"] [] false None None None
    (SandboxConfig (Some Bubblewrap) [] None [] [] []) None).
  split; [apply lookup_singleton|done].
Qed.

(** C74. Without a sandbox the program gets its arguments twice. *)
Theorem C74_arguments_refuted :
  exists (a : bin_attempt) (ps : permissions) (args : list str) (c : command) (e : ending),
    ba_config a = Some ps /\
    proxy_binary (lit "/t/foo") ex_sel args [a] = ([Ran c], e) /\ cm_args c <> args.
Proof.
  set (run := fun _ : command => Some (ProcOutput (Some 0%Z) [] [])).
  exists (BinAttempt (Some ∅) ex_host run (fun _ => run) (fun _ => None)), ∅, [lit "--list"],
    (Command (lit "/t/foo") [lit "--list"; lit "--list"] []), (Exits 0 [] []).
  split; [done|]. split; [by vm_compute|done].
Qed.
Print Assumptions C74_arguments_refuted.

(** C75. Without a sandbox the output of a build script reaches cargo unchecked. *)
Theorem C75_unchecked_refuted :
  exists (a : bin_attempt) (ps : permissions) (allow : list str) (evs : list event) (out err line : str) (ls : list str),
    ba_config a = Some ps /\ rules_in_force ps (cs_pkg ex_script) allow /\
    proxy_binary (lit "/t/foo") ex_script [] [a] = (evs, Exits 0 out err) /\
    lines_of out ls /\ line ∈ ls /\ rejected allow line /\ forall r, Asked r ∉ evs.
Proof.
  set (out := lit "cargo:rustc-env=A=b").
  set (run := fun _ : command => Some (ProcOutput (Some 0%Z) out [])).
  exists (BinAttempt (Some (ex_rules Disabled)) ex_host run (fun _ => run) (fun _ => None)), (ex_rules Disabled),
    [lit "cargo:rustc-link-lib=*"], [Ran (Command (lit "/t/foo") [] [])], out, [], out, [out].
  split; [done|]. split.
  { left. exists (PackageConfig false false [lit "cargo:rustc-link-lib=*"] [] false None None None
      (SandboxConfig (Some Disabled) [] None [] [] []) None). split; [apply lookup_singleton|done]. }
  split; [by vm_compute|]. split.
  { apply lines_unterminated; [done|]. apply (bool_decide_unpack _). by vm_compute. }
  split; [left|].
  assert (Hp : forall p s, starts_with p s = false -> ~ p `prefix_of` s).
  { intros p s E H. apply starts_with_spec in H. by rewrite H in E. }
  split.
  - split; [exists (lit "rustc-env=A=b"); by vm_compute|]. split.
    + intros (p & Hin & Hpre). repeat (apply elem_of_cons in Hin as [->|Hin]; [by apply (Hp _ _) in Hpre; [|by vm_compute]|]).
      by apply not_elem_of_nil in Hin.
    + intros (rule & Hin & [(p & E & Hpre)|[_ E]]); apply elem_of_list_singleton in Hin as ->; [|by vm_compute in E].
      change (lit "cargo:rustc-link-lib=*") with (lit "cargo:rustc-link-lib=" ++ lit "*") in E.
      apply app_inv_tail in E as <-. by apply (Hp _ _) in Hpre; [|by vm_compute].
  - intros r Hr. apply elem_of_list_singleton in Hr. done.
Qed.
Print Assumptions C75_unchecked_refuted.
