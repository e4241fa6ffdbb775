(** A wrapper depends on the environment only through the trusted variables. *)
From Verif Require Import Base BaseFacts TextSpec Utf8Proofs TextModel TextFacts ApiMapModel ConfigModel ProblemModel StoreModel
  BuildScriptModel BuildScriptSpec BuildScriptProofs ScannerModel DepsModel IndexModel LaunchModel SandboxModel
  SubprocessModel IdentityModel IdentitySpec.

Definition agree (h g : host) : Prop := forall name, name ∈ trusted_variables -> env_var h name = env_var g name.

Lemma agree_at (h g : host) (name : str) :
  agree h g -> bool_decide (name ∈ trusted_variables) = true -> env_var h name = env_var g name.
Proof. intros H Hb. apply H. by apply bool_decide_eq_true in Hb. Qed.

Ltac trusted H := rewrite (agree_at _ _ _ H) by (vm_compute; reflexivity).

Lemma agree_id {V} (pv : str -> option V) (h g : host) : agree h g -> id_from_env pv (env_var h) = id_from_env pv (env_var g).
Proof. intros H. unfold id_from_env. trusted H. trusted H. trusted H. done. Qed.
Lemma agree_kind (h g : host) : agree h g -> kind_from_env (env_var h) = kind_from_env (env_var g).
Proof. intros H. unfold kind_from_env. trusted H. trusted H. done. Qed.
Lemma agree_role {V} (pv : str -> option V) (h g : host) argv :
  agree h g -> main_role pv (env_var h) argv = main_role pv (env_var g) argv.
Proof.
  intros H. unfold main_role, wrapped_role. trusted H. by rewrite (agree_id pv h g H), (agree_kind h g H).
Qed.
Lemma agree_linker (h g : host) : agree h g -> real_linker (env_var h) = real_linker (env_var g).
Proof. intros H. unfold real_linker. trusted H. done. Qed.
Lemma agree_inputs (h g : host) argv vars :
  agree h g -> rustc_inputs_from_env h argv vars = rustc_inputs_from_env g argv vars.
Proof. intros H. unfold rustc_inputs_from_env. do 4 trusted H. done. Qed.
Lemma agree_attempt (h g : host) sel argv w : agree h g -> attempt_of h sel argv w = attempt_of g sel argv w.
Proof. intros H. unfold attempt_of. do 2 trusted H. by rewrite (agree_inputs h g argv _ H). Qed.
Lemma agree_wrapper pv lexer parse exe (h g : host) direct argv worlds :
  agree h g -> rustc_wrapper pv lexer parse exe h direct argv worlds = rustc_wrapper pv lexer parse exe g direct argv worlds.
Proof.
  intros H. unfold rustc_wrapper. do 2 trusted H. unfold wrapper_sel, rustc_kind.
  rewrite (agree_id pv h g H), (agree_kind h g H).
  destruct (env_var g (lit "CARGO_PKG_NAME")); [|done].
  destruct (id_from_env pv (env_var g)); [|done]. destruct (kind_from_env (env_var g)); [|done].
  f_equal. apply map_ext. intros w. by apply agree_attempt.
Qed.

Lemma sets_directive line name value :
  skip_blanks line = line -> sets line name value -> directive line /\ ~ harmless line.
Proof.
  intros Hb [_ Hs]. rewrite Hb in Hs. rewrite <- always_permitted_spec.
  destruct Hs as [-> | ->]; (split; [by apply starts_with_spec|by vm_compute]).
Qed.

Lemma approved_lines ps pkg rules stdout lines :
  approved ps pkg stdout -> lines_of stdout lines -> rules_in_force ps pkg rules ->
  forall line, line ∈ lines -> ~ rejected rules line.
Proof.
  intros Ha Hl Hr line Hin Hrej. specialize (Ha 0).
  destruct (utf8_valid stdout) eqn:Hu.
  - destruct (bs_build_valid ps pkg rules stdout lines Hu Hl Hr) as (bad & vars & Hb & _ & Hp & _).
    unfold execution_complete in Ha. cbn [Z.eqb cs_kind cs_pkg fst] in Ha. rewrite Hp in Ha.
    destruct bad as [|b bad]; [|done]. clear -Hb Hin Hrej.
    remember [] as bs eqn:E in Hb. induction Hb as [|a b l bs H _ _|a l bs H Hb IH]; [by apply elem_of_nil in Hin|done|].
    apply elem_of_cons in Hin as [->|Hin]; [by destruct (H a)|by apply IH].
  - unfold execution_complete, bs_build in Ha. rewrite Hu in Ha. done.
Qed.

Lemma approved_agree ps pkg rules stdout lines given h :
  approved ps pkg stdout -> lines_of stdout lines -> no_blanks lines -> rules_in_force ps pkg rules ->
  leaves_alone rules trusted_variables -> started given lines h -> agree h given.
Proof.
  intros Ha Hl Hn Hr Ht Hs name Hname. destruct (Hs name) as [Hu _]. apply Hu. intros line value Hin Hset.
  apply (approved_lines ps pkg rules stdout lines Ha Hl Hr line Hin).
  destruct (sets_directive line name value (Hn line Hin) Hset) as [H1 H2].
  split; [done|]. split; [done|]. intros (rule & Hrule & Hp). by apply (Ht rule name line value).
Qed.
