(** Facts for C252. *)
From Verif Require Import Base BaseFacts TextModel TextFacts ConfigModel ProblemModel StoreModel ScannerModel IndexModel IndexProps
  SandboxModel SubprocessModel SubprocessSpec SubprocessProofs IdentityModel IdentitySpec WrapperSpec.

Lemma wrapper_sel_for pv (h : host) (pkg : pkg_id) (crate : str) (argv : list str) :
  started_for pv h pkg crate ->
  exists kind, compiled_as crate argv kind /\ wrapper_sel pv h argv = Some (CrateSel pkg kind).
Proof.
  intros (Hn & (text & Hv & Hp) & Hc & Hk & names & Hm). unfold wrapper_sel, id_from_env. rewrite Hn, Hv, Hp, Hm.
  destruct (C28_rustc_kind (env_var h) argv crate Hc Hk) as (H1 & H2 & H3).
  destruct pkg as [name version]. cbn [pi_name pi_version fst snd].
  destruct (decide (lit "--test" ∈ argv)) as [Ht|Ht].
  - exists TestCrate. split; [by constructor|]. by rewrite (H1 Ht).
  - destruct (decide (lit "build_script_" `prefix_of` crate)) as [Hb|Hb].
    + exists BuildScript. split; [by constructor|]. by rewrite (H2 Ht Hb).
    + exists Primary. split; [by constructor|]. by rewrite (H3 Ht Hb).
Qed.

(** Whatever a wrapper does it does for its crate, with its compiler and by the configuration of an attempt. *)
Definition faithful rustc sel (attempts : list attempt) (ev : event) : Prop :=
  match ev with
  | Asked r => request_sel r = sel
  | Ran c =>
      cm_program c = rustc /\ (lit "CACKLE_CRATE_KIND", to_token (cs_kind sel)) ∈ cm_env c /\
      exists a ps version, a ∈ attempts /\ at_config a = Some (ps, version) /\
        (may_use_unsafe ps sel \/ lit "-Funsafe-code" ∈ cm_args c) /\
        (may_use_extern ps version sel \/ lit "-Fmissing-unsafe-on-extern" ∈ cm_args c)
  end.

Lemma faithful_more rustc sel a (rest : list attempt) ev :
  faithful rustc sel rest ev -> faithful rustc sel (a :: rest) ev.
Proof.
  destruct ev as [c|r]; cbn [faithful]; [|done]. intros (H1 & H2 & a' & ps & v & Hin & H). split; [done|].
  split; [done|]. exists a', ps, v. split; [by right|done].
Qed.

Lemma command_faithful rustc exe sel argv a rest ps version :
  at_config a = Some (ps, version) ->
  faithful rustc sel (a :: rest) (Ran (the_command rustc exe sel argv ps version)).
Proof.
  intros H. cbn [faithful]. unfold the_command, get_command. destruct (kept_args _ _) as [kept l]. cbn [cm_program cm_env cm_args].
  split; [done|]. split; [rewrite elem_of_app; right; left|].
  exists a, ps, version. split; [left|]. split; [done|]. rewrite <- unsafe_permitted_spec, <- extern_permitted_spec. split.
  - destruct (unsafe_permitted _ _ _); [by left|right]. rewrite !elem_of_app. right. right. left. left.
  - destruct (extern_permitted _ _ _ _); [by left|right]. rewrite !elem_of_app. right. right. right. left.
Qed.

Lemma attempted_faithful lexer parse rustc exe sel argv a rest evs st ev :
  attempted lexer parse rustc exe sel argv a evs st -> ev ∈ evs -> faithful rustc sel (a :: rest) ev.
Proof.
  intros H Hin. destruct H as [|ps v H1 H2|ps v o H1 H2|ps v o files H1 H2|ps v o files H1 H2 H3|ps v o evs r H1 H2 H3
    |ps v o H1 H2 H3|ps v o files H1 H2 H3 H4 H5 H6 H7].
  1: by apply elem_of_nil in Hin.
  all: apply elem_of_cons in Hin as [->|Hin]; [by apply command_faithful|].
  1,2,6: by apply elem_of_nil in Hin.
  1,2,4: by apply elem_of_list_singleton in Hin as ->.
  apply elem_of_app in Hin as [Hin|Hin].
  - destruct H3; first [by apply elem_of_nil in Hin|by apply elem_of_list_singleton in Hin as ->].
  - apply elem_of_list_singleton in Hin as ->. by destruct H3.
Qed.

Lemma proxy_faithful lexer parse rustc exe sel argv attempts evs e ev :
  lexer_ok lexer -> proxy_rustc lexer parse rustc exe sel argv attempts = (evs, e) -> ev ∈ evs ->
  faithful rustc sel attempts ev.
Proof.
  intros Hok H Hin. apply proxy_rustc_made in H; [|done].
  induction H as [|a rest evs more e Ha H IH|a rest evs Ha|a rest evs o Ha|a rest evs Ha].
  - by apply elem_of_nil in Hin.
  - apply elem_of_app in Hin as [Hin|Hin]; [by eapply attempted_faithful|]. by apply faithful_more, IH.
  - by eapply attempted_faithful.
  - by eapply attempted_faithful.
  - by eapply attempted_faithful.
Qed.

(** An attempt that has a configuration has all variables. *)
Lemma attempt_of_config h sel argv w ps version :
  at_config (attempt_of h sel argv w) = Some (ps, version) ->
  exists path rustc inputs, env_var h (lit "CACKLE_CONFIG_PATH") = Some path /\ env_var h (lit "CACKLE_RUSTC_PATH") = Some rustc /\
    rustc_inputs_from_env h argv (wo_vars w sel) = Some inputs /\ wo_config w path = Some (ps, version) /\
    attempt_of h sel argv w = Attempt (wo_config w path) (wo_rustc w inputs) (wo_read w) (wo_canonicalize w) (wo_answer w).
Proof.
  unfold attempt_of. destruct (env_var h (lit "CACKLE_CONFIG_PATH")) as [path|]; [|done].
  destruct (env_var h (lit "CACKLE_RUSTC_PATH")) as [rustc|]; [|done].
  destruct (rustc_inputs_from_env h argv (wo_vars w sel)) as [inputs|]; [|done]. cbn [at_config]. intros H.
  by exists path, rustc, inputs.
Qed.
