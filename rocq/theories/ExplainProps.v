(** Property C253. *)
From Verif Require Import Base BaseFacts TextModel TextFacts ApiMapModel ConfigModel ProblemModel CheckerModel CheckerSpec CheckerProofs
  CheckerProps ReportModel TitleModel DetailsModel ExplainSpec.

(** ** C253 *)

(** When code that is not in the dependency tree is reported, what the pane says is so: the package that is named first
    is that of the usage, code of the package named second is reached, which is not among the first one's dependencies,
    and the API is that of the usage. *)
Theorem C253_explanation {K : Type} `{EqDecision K} (name_leb : K -> K -> bool) (name_text : K -> str)
    (version_text : list nat -> str) (unique : pkg_id -> bool)
    (env : environment) (ops : list checker_op) (u v : api_usages) (ck' : checker) (ps : list problem) (owner : pkg_id)
    (uses : list (use K)) (a b : str) :
  (forall c, OpLoad c ∈ ops -> made_for (en_index env) c) ->
  api_used env (checker_run env ops) u = (ck', Some ps) -> POffTreeApiUsage v owner ∈ ps ->
  called version_text unique (au_pkg u) a -> called version_text unique owner b ->
  (exists rest, pane name_leb name_text (Some (ROffTree (shown_id version_text unique (au_pkg v)) (au_scope v) (au_api v) uses
       (shown_id version_text unique owner)))
     = lit "Although `" ++ a ++ lit "` doesn't depend on `" ++ b ++ lit "`, we found code that used the `" ++ au_api u
       ++ lit "` API. " ++ rest) /\
  au_usages v <> [] /\
  forall x, x ∈ au_usages v -> reaches_off_tree env (au_pkg u) x owner.
Proof.
  intros Hm Hr Hin Ha Hb.
  destruct (C08_never_dropped env ops u ck' (Some ps) Hm Hr) as [Hg Hn].
  assert (~ granted ops (pi_name (au_pkg u), au_scope u) (au_api u)) as Hng.
  { intros H. specialize (Hg H). injection Hg as ->. by apply elem_of_nil in Hin. }
  destruct (Hn Hng) as (_ & _ & Hp). destruct (Hp _ Hin) as [(l & E & _)|(l & o & E & Hl & Hx)]; [discriminate E|].
  injection E as -> ->. cbn [au_usages au_pkg au_api au_scope]. split; [|by split].
  assert (forall p text, called version_text unique p text -> pkg_display (shown_id version_text unique p) = text) as Hd.
  { intros p text H. unfold pkg_display, sel_display, shown_id. cbn [sp_name sp_unique sp_version app].
    destruct H as [[-> ->]|[-> ->]]; [by rewrite app_nil_r|done]. }
  unfold pane. destruct (str_eqb _ _) eqn:E.
  { exfalso. apply str_eqb_spec in E. cbn [display problem_details] in E. discriminate E. }
  cbn [problem_details]. rewrite (Hd _ _ Ha), (Hd _ _ Hb). unfold quoted. eexists.
  rewrite <- !app_assoc. cbn [lit String.list_ascii_of_string app]. reflexivity.
Qed.
Print Assumptions C253_explanation.

(** The package [foo] (see CheckerProps.v) does not depend on [my-dep]; there are two versions of that. *)
Example C253_ex :
  let unique p := bool_decide (p = foo) in
  let version_text := fun _ : list nat => lit "2.0.0" in
  (forall c, OpLoad c ∈ [OpLoad ex_cfg] -> made_for (en_index ex_env) c) /\
  (exists ck', api_used ex_env (checker_run ex_env [OpLoad ex_cfg]) (ApiUsages foo All (lit "process") [use_off])
     = (ck', Some [POffTreeApiUsage (ApiUsages foo All (lit "process") [use_off]) my_dep])) /\
  called version_text unique foo (lit "foo") /\ called version_text unique my_dep (lit "my-dep[2.0.0]") /\
  exists rest, pane (K := nat) Nat.leb (fun _ => []) (Some (ROffTree (shown_id version_text unique foo) All (lit "process") []
      (shown_id version_text unique my_dep)))
  = lit "Although `foo` doesn't depend on `my-dep[2.0.0]`, we found code that used the `process` API. " ++ rest.
Proof.
  split; [intros c H; apply elem_of_list_singleton in H; by apply (f_equal (fun o => match o with OpLoad x => x | _ => ex_cfg end)) in H as ->|].
  split; [eexists; rewrite (surjective_pairing (api_used _ _ _)); f_equal; by vm_compute|]. split; [left; by vm_compute|]. split; [right; by vm_compute|].
  eexists. by vm_compute.
Qed.
