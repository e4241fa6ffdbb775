(** Proofs about the configuration of processes. *)
From Verif Require Import Base BaseFacts ApiMapModel ConfigModel TomlModel FlowModel FlowSpec.

(** ** Codec *)

Lemma j_texts_to (l : list str) : j_texts (to_texts l) = Some l.
Proof. unfold to_texts, j_texts. induction l as [|s l IH]; [done|]. cbn. cbn in IH. by rewrite IH. Qed.

Lemma j_opt_to {A} (enc : A -> json) (dec : json -> option A) (o : option A) :
  (forall a, dec (enc a) = Some a /\ enc a <> JNull) -> j_opt dec (to_option enc o) = Some o.
Proof.
  intros H. destruct o as [a|]; [|done]. cbn. destruct (H a) as [Hd Hn]. unfold j_opt.
  destruct (enc a) eqn:E; [done| | | | |]; by rewrite Hd.
Qed.

Lemma j_kind_to (k : sandbox_kind) : j_kind (kind_json k) = Some k /\ kind_json k <> JNull.
Proof. by destruct k. Qed.

(** The fields of an object that has exactly the given names in the given order. *)
Lemma get_nth {A} (names : list str) (vs : list A) (n : nat) (k : str) (v : A) :
  bool_decide (NoDup names) = true -> names !! n = Some k -> vs !! n = Some v -> length names = length vs ->
  get k (zip names vs) = Some v.
Proof.
  intros Hd. apply bool_decide_eq_true in Hd. revert vs n.
  induction names as [|m names IH]; intros [|w vs] [|n] H1 H2 H3; try done; cbn in *.
  - injection H1 as ->. injection H2 as ->. by rewrite (proj2 (str_eqb_spec k k)).
  - apply NoDup_cons in Hd as [Hm Hd].
    destruct (str_eqb k m) eqn:E.
    + apply str_eqb_spec in E as ->. exfalso. apply Hm. by eapply elem_of_list_lookup_2.
    + eapply IH; [done|exact H1|exact H2|lia].
Qed.

Lemma known_zip {A} (names : list str) (vs : list A) : known names (zip names vs) = true.
Proof.
  unfold known. apply forallb_forall. intros [k v] H. apply elem_of_list_In, elem_of_zip_l in H.
  by apply mem_str_spec.
Qed.

Lemma j_sandbox_to (s : sandbox_config) : j_sandbox (sandbox_json s) = Some s.
Proof.
  destruct s as [k e n b m p]. unfold j_sandbox, sandbox_json. cbn [j_table mbind option_bind].
  cbn [sb_kind sb_extra_args sb_allow_network sb_bind_writable sb_make_writable sb_pass_env].
  pose (vs := [to_option kind_json k; to_texts e; to_option JBool n; to_texts b; to_texts m; to_texts p]).
  match goal with |- context [known _ ?t] => change t with (zip sandbox_fields vs) end.
  assert (D : bool_decide (NoDup sandbox_fields) = true) by (vm_compute; reflexivity).
  rewrite known_zip. unfold j_opt_field, j_field.
  rewrite (get_nth sandbox_fields vs 0 (lit "kind") (to_option kind_json k)) by done.
  rewrite (get_nth sandbox_fields vs 1 (lit "extra_args") (to_texts e)) by done.
  rewrite (get_nth sandbox_fields vs 2 (lit "allow_network") (to_option JBool n)) by done.
  rewrite (get_nth sandbox_fields vs 3 (lit "bind_writable") (to_texts b)) by done.
  rewrite (get_nth sandbox_fields vs 4 (lit "make_writable") (to_texts m)) by done.
  rewrite (get_nth sandbox_fields vs 5 (lit "pass_env") (to_texts p)) by done.
  rewrite (j_opt_to kind_json j_kind) by apply j_kind_to.
  rewrite (j_opt_to JBool j_flag) by done. by rewrite !j_texts_to.
Qed.

Lemma j_common_to (c : common) : j_common (common_json c) = Some c.
Proof.
  destruct c as [v e b i f p]. unfold j_common, common_json. cbn [j_table mbind option_bind].
  cbn [cm_version cm_explicit_build_scripts cm_build_flags cm_import_std cm_features cm_profile].
  pose (vs := [JNumber v; JBool e; to_option to_texts b; to_texts i; to_texts f; to_option JString p]).
  match goal with |- context [known _ ?t] => change t with (zip common_fields vs) end.
  assert (D : bool_decide (NoDup common_fields) = true) by (vm_compute; reflexivity).
  rewrite known_zip. unfold j_opt_field, j_field, j_required.
  rewrite (get_nth common_fields vs 0 (lit "version") (JNumber v)) by done.
  rewrite (get_nth common_fields vs 1 (lit "explicit_build_scripts") (JBool e)) by done.
  rewrite (get_nth common_fields vs 2 (lit "build_flags") (to_option to_texts b)) by done.
  rewrite (get_nth common_fields vs 3 (lit "import_std") (to_texts i)) by done.
  rewrite (get_nth common_fields vs 4 (lit "features") (to_texts f)) by done.
  rewrite (get_nth common_fields vs 5 (lit "profile") (to_option JString p)) by done.
  rewrite (j_opt_to to_texts j_texts) by (intros a; split; [apply j_texts_to|done]).
  rewrite (j_opt_to JString j_text) by done. by rewrite !j_texts_to.
Qed.

Lemma j_scope_to (s : scope) : j_scope (JString (scope_text s)) = Some s.
Proof. by destruct s. Qed.

Lemma package_not_null (p : package_config) : package_json p <> JNull.
Proof. by destruct p. Qed.

Lemma get_map {A B} (f : A -> B) (k : str) (t : list (str * A)) :
  get k (map (fun e => match e with (k, v) => (k, f v) end) t) = f <$> get k t.
Proof. induction t as [|[m v] t IH]; [done|]. cbn. by destruct (str_eqb k m). Qed.

Definition sub_of (j : json) : option (option package_config) :=
  match j with JNull => Some None | _ => Some <$> j_package j end.

Definition from_sub (j : json) : option (option from_config) :=
  match j with
  | JNull => Some None
  | JObject u => Some <$> j_from (map (fun e => match e with (k, v) => (k, sub_of v) end) u)
  | _ => None
  end.

Lemma known_map {A B} (names : list str) (f : A -> B) (t : list (str * A)) :
  known names (map (fun e => match e with (k, v) => (k, f v) end) t) = known names t.
Proof. unfold known. induction t as [|[m v] t IH]; [done|]. cbn. by rewrite IH. Qed.

Lemma sub_of_package (p : package_config) : j_package (package_json p) = Some p ->
  sub_of (package_json p) = Some (Some p).
Proof. intros H. unfold sub_of. rewrite H. by destruct p. Qed.

Fixpoint j_package_to (p : package_config) {struct p} : j_package (package_json p) = Some p.
Proof.
  assert (Hs : forall o : option package_config,
            match o with None => True | Some q => j_package (package_json q) = Some q end ->
            sub_of (match o with None => JNull | Some q => package_json q end) = Some o).
  { intros [q|] H; [by apply sub_of_package|done]. }
  destruct p as [u e i a m b t f s imp].
  assert (Hb : sub_of (match b with None => JNull | Some q => package_json q end) = Some b).
  { apply Hs. destruct b as [q|]; [apply j_package_to|exact I]. }
  assert (Ht : sub_of (match t with None => JNull | Some q => package_json q end) = Some t).
  { apply Hs. destruct t as [q|]; [apply j_package_to|exact I]. }
  assert (Hf : match f with
               | None => True
               | Some (FromConfig fb ft) =>
                   sub_of (match fb with None => JNull | Some q => package_json q end) = Some fb /\
                   sub_of (match ft with None => JNull | Some q => package_json q end) = Some ft
               end).
  { destruct f as [[fb ft]|]; [|exact I]. split; apply Hs.
    - destruct fb as [q|]; [apply j_package_to|exact I].
    - destruct ft as [q|]; [apply j_package_to|exact I]. }
  clear j_package_to Hs.
  cbn [package_json j_package].
  set (jb := match b with None => JNull | Some q => package_json q end) in *.
  set (jt := match t with None => JNull | Some q => package_json q end) in *.
  set (jf := match f with None => JNull | Some _ => _ end).
  assert (Hjf : from_sub jf = Some f).
  { unfold jf. destruct f as [[fb ft]|]; [|reflexivity]. destruct Hf as [H1 H2]. cbn [from_sub].
    set (jfb := match fb with None => JNull | Some q => package_json q end) in *.
    set (jft := match ft with None => JNull | Some q => package_json q end) in *.
    change [(lit "build", jfb); (lit "test", jft)] with (zip [lit "build"; lit "test"] [jfb; jft]).
    unfold j_from, j_sub. rewrite known_map, known_zip.
    assert (D : bool_decide (NoDup [lit "build"; lit "test"]) = true) by (vm_compute; reflexivity).
    rewrite !(get_map sub_of).
    rewrite (get_nth [lit "build"; lit "test"] [jfb; jft] 0 (lit "build") jfb) by done.
    rewrite (get_nth [lit "build"; lit "test"] [jfb; jft] 1 (lit "test") jft) by done.
    cbn [fmap option_fmap option_map]. rewrite H1, H2. reflexivity. }
  clearbody jf jb jt. clear Hf.
  pose (vs := [JBool u; JBool e; to_texts i; to_texts a; JBool m; jb; jt; jf; sandbox_json s;
               to_option to_texts imp]).
  match goal with |- j_package_with ?t _ _ = _ => change t with (zip package_fields vs) end.
  assert (D : bool_decide (NoDup package_fields) = true) by (vm_compute; reflexivity).
  unfold j_package_with, j_opt_field, j_field, j_sub. rewrite known_zip.
  rewrite !(get_map sub_of), (get_map from_sub).
  rewrite (get_nth package_fields vs 0 (lit "allow_unsafe") (JBool u)) by done.
  rewrite (get_nth package_fields vs 1 (lit "allow_extern") (JBool e)) by done.
  rewrite (get_nth package_fields vs 2 (lit "allow_build_instructions") (to_texts i)) by done.
  rewrite (get_nth package_fields vs 3 (lit "allow_apis") (to_texts a)) by done.
  rewrite (get_nth package_fields vs 4 (lit "allow_proc_macro") (JBool m)) by done.
  rewrite (get_nth package_fields vs 5 (lit "build") jb) by done.
  rewrite (get_nth package_fields vs 6 (lit "test") jt) by done.
  rewrite (get_nth package_fields vs 7 (lit "from") jf) by done.
  rewrite (get_nth package_fields vs 8 (lit "sandbox") (sandbox_json s)) by done.
  rewrite (get_nth package_fields vs 9 (lit "import") (to_option to_texts imp)) by done.
  cbn [fmap option_fmap option_map]. rewrite Hb, Ht, Hjf, j_sandbox_to.
  rewrite (j_opt_to to_texts j_texts) by (intros x; split; [apply j_texts_to|done]).
  by rewrite !j_texts_to.
Qed.

Section codec.
  Context (print : json -> str) (parse : str -> option json) (codec : reads_back print parse).

  Lemma text_sel_to (k : perm_sel) : text_sel parse (sel_text print k) = Some k.
  Proof. unfold text_sel, sel_text. rewrite codec. cbn -[j_scope scope_text]. rewrite j_scope_to. by destruct k. Qed.

  Lemma j_permissions_to (ps : permissions) : j_permissions parse (permissions_json print ps) = Some ps.
  Proof.
    unfold j_permissions, permissions_json. cbn [j_table mbind option_bind].
    match goal with |- context [JObject (map ?f ?l)] => set (l' := JObject (map f l)) end.
    change [(lit "packages", l')] with (zip [lit "packages"] [l']).
    rewrite known_zip. unfold j_required.
    rewrite (get_nth [lit "packages"] [l'] 0 (lit "packages") l') by done.
    unfold l'. cbn [mbind option_bind j_table].
    assert (H : forall es : list (perm_sel * package_config),
      mapM (fun e : str * json => k ← text_sel parse e.1; p ← j_package e.2; Some (k, p))
        (map (fun e : perm_sel * package_config => (sel_text print e.1, package_json e.2)) es) = Some es).
    { induction es as [|[k p] es IH]; [done|]. cbn [map mapM]. cbn [fst snd].
      rewrite text_sel_to, j_package_to. cbn [mbind option_bind]. rewrite IH. reflexivity. }
    rewrite H. cbn. f_equal. apply list_to_map_to_list.
  Qed.

  Lemma deserialise_serialise (s : sub_config) : deserialise parse (serialise print s) = Some s.
  Proof.
    destruct s as [c ps r]. unfold deserialise, serialise. rewrite codec. cbn [mbind option_bind j_table].
    cbn [sc_common sc_permissions sc_rustc].
    pose (names := [lit "common"; lit "permissions"; lit "rustc"]).
    pose (vs := [common_json c; permissions_json print ps; JObject [(lit "sandbox", sandbox_json r)]]).
    match goal with |- context [j_required _ _ ?t] => change t with (zip names vs) end.
    assert (D : bool_decide (NoDup names) = true) by (vm_compute; reflexivity).
    unfold j_required.
    rewrite (get_nth names vs 0 (lit "common") (common_json c)) by done.
    rewrite (get_nth names vs 1 (lit "permissions") (permissions_json print ps)) by done.
    rewrite (get_nth names vs 2 (lit "rustc") (JObject [(lit "sandbox", sandbox_json r)])) by done.
    cbn [mbind option_bind]. rewrite j_common_to, j_permissions_to. cbn [mbind option_bind].
    unfold j_rustc. cbn [mbind option_bind j_table].
    change [(lit "sandbox", sandbox_json r)] with (zip [lit "sandbox"] [sandbox_json r]).
    rewrite known_zip. unfold j_field.
    rewrite (get_nth [lit "sandbox"] [sandbox_json r] 0 (lit "sandbox") (sandbox_json r)) by done.
    by rewrite j_sandbox_to.
  Qed.

  (** ** Reloading *)

  Context {doc : Type} (load : doc -> option (config * extra)).
  Notation step := (flow_step print load).
  Notation run := (flow_run print load).

  Definition flat_of (c : config) (o : option str) : Prop := exists x, o = Some (serialise print (from_full_config x c)).

  (** What is written is what the checker has, up to a reload that is in progress. *)
  Definition consistent (s : flow (doc := doc)) : Prop :=
    match fl_lock s with
    | Some (_, Written c) => flat_of c (fl_flat s)
    | _ =>
        match fl_config s with
        | None => fl_flat s = None
        | Some c => flat_of c (fl_flat s)
        end
    end.

  Lemma step_consistent (s s' : flow (doc := doc)) (e : flow_event (doc := doc)) :
    step s e = Some s' -> consistent s -> consistent s'.
  Proof.
    unfold consistent. destruct s as [file lock flat cfg ended].
    destruct e; cbn; intros H Hc.
    - injection H as <-. done.
    - destruct lock; [done|]. injection H as <-. done.
    - destruct lock as [[t' []]|]; try done. destruct file as [|d file]; [done|].
      destruct (Nat.eqb t t'); [|done]. destruct (load d) as [[c x]|]; injection H as <-; done.
    - destruct lock as [[t' []]|]; try done. destruct (Nat.eqb t t'); [|done]. injection H as <-. by eexists.
    - destruct lock as [[t' []]|]; try done. destruct (Nat.eqb t t'); [|done]. injection H as <-. done.
  Qed.

  Lemma run_consistent (es : list (flow_event (doc := doc))) (s s' : flow (doc := doc)) :
    run s es = Some s' -> consistent s -> consistent s'.
  Proof.
    revert s. induction es as [|e es IH]; intros s H Hc; cbn in H; [by injection H as <-|].
    destruct (step s e) as [s1|] eqn:E; [|done]. eapply IH; [exact H|]. by eapply step_consistent.
  Qed.

  Lemma step_file (s s' : flow (doc := doc)) (e : flow_event (doc := doc)) :
    step s e = Some s' -> exists saved, fl_file s' = saved ++ fl_file s.
  Proof.
    destruct s as [file lock flat cfg ended]. destruct e; cbn; intros H.
    - injection H as <-. by exists [d].
    - destruct lock; [done|]. injection H as <-. by exists [].
    - destruct lock as [[t' []]|]; try done. destruct file as [|d file]; [done|].
      destruct (Nat.eqb t t'); [|done]. destruct (load d) as [[c x]|]; injection H as <-; by exists [].
    - destruct lock as [[t' []]|]; try done. destruct (Nat.eqb t t'); [|done]. injection H as <-. by exists [].
    - destruct lock as [[t' []]|]; try done. destruct (Nat.eqb t t'); [|done]. injection H as <-. by exists [].
  Qed.

  Lemma run_file (es : list (flow_event (doc := doc))) (s s' : flow (doc := doc)) :
    run s es = Some s' -> exists saved, fl_file s' = saved ++ fl_file s.
  Proof.
    revert s. induction es as [|e es IH]; intros s H; cbn in H; [injection H as <-; by exists []|].
    destruct (step s e) as [s1|] eqn:E; [|done]. apply IH in H as [a Ha]. apply step_file in E as [b Hb].
    exists (a ++ b). by rewrite Ha, Hb, app_assoc.
  Qed.

  (** The configuration comes from a content of the file since [s0]. *)
  Definition since (s0 s : flow (doc := doc)) (c : config) (x : extra) : Prop :=
    exists d, contents_since s0 s d /\ load d = Some (c, x).

  Lemma since_step (s0 s s' : flow (doc := doc)) (e : flow_event (doc := doc)) (c : config) (x : extra) :
    step s e = Some s' -> since s0 s c x -> since s0 s' c x.
  Proof.
    intros H (d & (saved & Hf & Hd) & Hl). apply step_file in H as [b Hb].
    exists d. split; [|done]. exists (b ++ saved). split; [by rewrite Hb, Hf, app_assoc|].
    destruct Hd as [Hd|Hd]; [left; apply elem_of_app; by right|by right].
  Qed.

  (** From when a thread has the lock, what it writes is from then on; once it has ended, what is written
      stays so. [done]: the thread has ended successfully since. *)
  Definition fresh (s0 : flow (doc := doc)) (done : bool) (s : flow (doc := doc)) : Prop :=
    (exists saved, fl_file s = saved ++ fl_file s0) /\
    match fl_lock s with
    | Some (_, Parsed c x) => since s0 s c x
    | Some (_, Written c) => exists x, since s0 s c x /\ fl_flat s = Some (serialise print (from_full_config x c))
    | _ => True
    end /\
    (done = true -> exists c x, since s0 s c x /\ fl_flat s = Some (serialise print (from_full_config x c))).

  Lemma step_fresh (s0 s s' : flow (doc := doc)) (b : bool) (e : flow_event (doc := doc)) :
    fl_file s0 <> [] -> step s e = Some s' -> fresh s0 b s ->
    fresh s0 (b || match e with FUpdate _ => true | _ => false end) s'.
  Proof.
    intros Hne H (Hf & Hl & Hb).
    pose proof H as Hstep.
    assert (Hf' : exists saved, fl_file s' = saved ++ fl_file s0).
    { destruct Hf as [a Ha]. apply step_file in H as [c Hc]. exists (c ++ a). by rewrite Hc, Ha, app_assoc. }
    split; [exact Hf'|]. destruct s as [file lock flat cfg ended].
    destruct e; cbn in H, Hl, Hb |- *; rewrite ?orb_false_r, ?orb_true_r.
    - injection H as <-. cbn. split.
      + destruct lock as [[t []]|]; try done.
        * by eapply since_step.
        * destruct Hl as (x & Hx & ?). exists x. split; [by eapply since_step|done].
      + intros Hd. destruct (Hb Hd) as (c & x & Hx & ?). exists c, x. split; [by eapply since_step|done].
    - destruct lock; [done|]. injection H as <-. cbn. split; [done|]. exact Hb.
    - destruct lock as [[t' []]|]; try done. destruct file as [|d file]; [done|].
      destruct (Nat.eqb t t'); [|done].
      assert (Hd : contents_since s0 (Flow (d :: file) (Some (t', Locked)) flat cfg ended) d).
      { destruct Hf as [a Ha]. cbn in Ha. exists a. split; [done|]. destruct a as [|d' a].
        - right. cbn in Ha. by rewrite <- Ha.
        - left. cbn in Ha. injection Ha as <- _. left. }
      destruct (load d) as [[c x]|] eqn:E; injection H as <-; cbn; (split; [|exact Hb]); [|done].
      by exists d.
    - destruct lock as [[t' []]|]; try done. destruct (Nat.eqb t t'); [|done]. injection H as <-. cbn.
      split; [by exists x|]. intros _. by exists c, x.
    - destruct lock as [[t' []]|]; try done. destruct (Nat.eqb t t'); [|done]. injection H as <-. cbn.
      split; [done|]. intros _. destruct Hl as (x & Hx & ?). by exists c, x.
  Qed.

  Lemma run_fresh (es : list (flow_event (doc := doc))) (s0 s s' : flow (doc := doc)) (b : bool) :
    fl_file s0 <> [] -> run s es = Some s' -> fresh s0 b s ->
    fresh s0 (b || existsb (fun e => match e with FUpdate _ => true | _ => false end) es) s'.
  Proof.
    intros Hne. revert s b. induction es as [|e es IH]; intros s b H Hf; cbn in H.
    - injection H as <-. cbn. by rewrite orb_false_r.
    - destruct (step s e) as [s1|] eqn:E; [|done]. cbn [existsb]. rewrite orb_assoc.
      eapply IH; [exact H|]. by eapply step_fresh.
  Qed.

  Lemma step_failed (s0 s s' : flow (doc := doc)) (e : flow_event (doc := doc)) (P : Prop) :
    fl_file s0 <> [] -> step s e = Some s' ->
    (forall d', contents_since s0 s' d' -> load d' = None) ->
    (exists saved, fl_file s = saved ++ fl_file s0) ->
    match fl_lock s with None | Some (_, Locked) => True | _ => False end ->
    match fl_lock s' with None | Some (_, Locked) => True | _ => False end /\
    fl_flat s' = fl_flat s /\ fl_config s' = fl_config s /\
    (forall t, (t, true) ∈ fl_ended s' -> (t, true) ∈ fl_ended s).
  Proof.
    intros Hne H Hno [a Ha] Hl. destruct s as [file lock flat cfg ended]. cbn in Ha.
    destruct e; cbn in H, Hl.
    - injection H as <-. done.
    - destruct lock; [done|]. injection H as <-. done.
    - destruct lock as [[t' []]|]; try done. destruct file as [|d file]; [done|].
      destruct (Nat.eqb t t'); [|done].
      destruct (load d) as [[c x]|] eqn:E; injection H as <-; cbn.
      + rewrite (Hno d) in E; [done|]. exists a. cbn. split; [done|]. destruct a as [|d' a].
        * right. cbn in Ha. by rewrite <- Ha.
        * left. cbn in Ha. injection Ha as <- _. left.
      + split_and!; try done. intros t0 [[=]|Ht]%elem_of_cons. done.
    - destruct lock as [[t' []]|]; done.
    - destruct lock as [[t' []]|]; done.
  Qed.

  Definition idle (s0 s : flow (doc := doc)) : Prop :=
    (exists saved, fl_file s = saved ++ fl_file s0) /\
    match fl_lock s with None | Some (_, Locked) => True | _ => False end /\
    fl_flat s = fl_flat s0 /\ fl_config s = fl_config s0 /\
    (forall t, (t, true) ∈ fl_ended s -> (t, true) ∈ fl_ended s0).

  Lemma contents_later (s0 s s' : flow (doc := doc)) (es : list (flow_event (doc := doc))) (d : doc) :
    run s es = Some s' -> contents_since s0 s d -> contents_since s0 s' d.
  Proof.
    intros H (saved & Hf & Hd). apply run_file in H as [b Hb].
    exists (b ++ saved). split; [by rewrite Hb, Hf, app_assoc|].
    destruct Hd as [Hd|Hd]; [left; apply elem_of_app; by right|by right].
  Qed.

  Lemma run_idle (es : list (flow_event (doc := doc))) (s0 s s' : flow (doc := doc)) :
    fl_file s0 <> [] -> run s es = Some s' -> idle s0 s ->
    (forall d', contents_since s0 s' d' -> load d' = None) -> idle s0 s'.
  Proof.
    intros Hne. revert s. induction es as [|e es IH]; intros s H Hi Hno; cbn in H; [by injection H as <-|].
    destruct (step s e) as [s1|] eqn:E; [|done]. eapply IH; [exact H| |exact Hno].
    destruct Hi as (Hf & Hl & H1 & H2 & H3).
    destruct (step_failed s0 s s1 e True Hne E) as (G0 & G1 & G2 & G3); [|done|done|].
    { intros d' Hd'. apply Hno. by eapply contents_later. }
    split_and!.
    - destruct Hf as [a Ha]. apply step_file in E as [b Hb]. exists (b ++ a). by rewrite Hb, Ha, app_assoc.
    - exact G0.
    - by rewrite G1.
    - by rewrite G2.
    - auto.
  Qed.

  Lemma run_no_save (es : list (flow_event (doc := doc))) (s s' : flow (doc := doc)) :
    no_save es -> run s es = Some s' -> fl_file s' = fl_file s.
  Proof.
    revert s. induction es as [|e es IH]; intros s Hn H; cbn in H; [by injection H as <-|].
    destruct (step s e) as [s1|] eqn:E; [|done].
    rewrite (IH s1); [|intros d Hd; apply (Hn d); by right|exact H].
    destruct s as [file lock flat cfg ended]. destruct e; cbn in E.
    - exfalso. apply (Hn d). left.
    - destruct lock; [done|]. by injection E as <-.
    - destruct lock as [[t' []]|]; try done. destruct file as [|d file]; [done|].
      destruct (Nat.eqb t t'); [|done]. destruct (load d) as [[c x]|]; by injection E as <-.
    - destruct lock as [[t' []]|]; try done. destruct (Nat.eqb t t'); [|done]. by injection E as <-.
    - destruct lock as [[t' []]|]; try done. destruct (Nat.eqb t t'); [|done]. by injection E as <-.
  Qed.

  Lemma run_ends (s : flow (doc := doc)) :
    fl_file s <> [] ->
    exists rest s', run s rest = Some s' /\ no_save rest /\ (length rest <= 3)%nat /\ fl_lock s' = None.
  Proof.
    clear parse codec. intros Hne. destruct s as [file lock flat cfg ended]. cbn in Hne.
    destruct lock as [[t []]|].
    - destruct file as [|d file]; [done|]. destruct (load d) as [[c x]|] eqn:E.
      + exists [FParse t; FWrite t; FUpdate t]. eexists. cbn. rewrite !Nat.eqb_refl, E. cbn. rewrite !Nat.eqb_refl.
        cbn. rewrite Nat.eqb_refl. cbn. split; [done|]. split_and!; [|lia|done]. intros d' H. set_solver.
      + exists [FParse t]. eexists. cbn. rewrite !Nat.eqb_refl, E. cbn.
        split; [done|]. split_and!; [|lia|done]. intros d' H. set_solver.
    - exists [FWrite t; FUpdate t]. eexists. cbn. rewrite !Nat.eqb_refl. cbn. rewrite !Nat.eqb_refl. cbn.
      split; [done|]. split_and!; [|lia|done]. intros d' H. set_solver.
    - exists [FUpdate t]. eexists. cbn. rewrite !Nat.eqb_refl. cbn.
      split; [done|]. split_and!; [|lia|done]. intros d' H. set_solver.
    - exists []. eexists. split; [done|]. split_and!; [|cbn; lia|done]. intros d' H. set_solver.
  Qed.

  Lemma run_app (a b : list (flow_event (doc := doc))) (s : flow (doc := doc)) : run s (a ++ b) = run s a ≫= fun s' => run s' b.
  Proof. revert s. induction a as [|e a IH]; intros s; cbn; [done|]. destruct (step s e); cbn; [apply IH|done]. Qed.

  Lemma nonempty_run (d : doc) (es : list (flow_event (doc := doc))) (s : flow (doc := doc)) : run (flow_init d) es = Some s -> fl_file s <> [].
  Proof. intros H. apply run_file in H as [a ->]. cbn. by destruct a. Qed.
End codec.

(** ** There are such printers and parsers *)

Fixpoint json_tree (j : json) : gen_tree (bool + Z + string) :=
  match j with
  | JNull => GenNode 0 []
  | JBool b => GenLeaf (inl (inl b))
  | JNumber z => GenLeaf (inl (inr z))
  | JString s => GenLeaf (inr (string_of_list_ascii s))
  | JArray l => GenNode 1 (map json_tree l)
  | JObject t =>
      GenNode 2 (map (fun e => match e with (k, v) => GenNode 3 [GenLeaf (inr (string_of_list_ascii k)); json_tree v] end) t)
  end.
Fixpoint tree_json (g : gen_tree (bool + Z + string)) : json :=
  match g with
  | GenLeaf (inl (inl b)) => JBool b
  | GenLeaf (inl (inr z)) => JNumber z
  | GenLeaf (inr s) => JString (list_ascii_of_string s)
  | GenNode 1 l => JArray (map tree_json l)
  | GenNode 2 l =>
      JObject (map (fun g => match g with
                             | GenNode _ [GenLeaf (inr k); v] => (list_ascii_of_string k, tree_json v)
                             | _ => ([], JNull)
                             end) l)
  | GenNode _ _ => JNull
  end.

Lemma tree_json_tree : forall j : json, tree_json (json_tree j) = j.
Proof.
  fix IH 1. intros [|b|z|s|l|t]; cbn; try done.
  - by rewrite list_ascii_of_string_of_list_ascii.
  - f_equal. induction l as [|j l IHl]; [done|]. cbn. f_equal; [apply IH|exact IHl].
  - f_equal. induction t as [|[k v] t IHt]; [done|]. cbn. f_equal; [|exact IHt].
    f_equal; [apply list_ascii_of_string_of_list_ascii|apply IH].
Qed.

Fixpoint pos_text (p : positive) : str :=
  match p with xH => [] | xO p => "0"%char :: pos_text p | xI p => "1"%char :: pos_text p end.
Fixpoint text_pos (s : str) : positive :=
  match s with
  | [] => xH
  | c :: s => if Ascii.eqb c "1"%char then xI (text_pos s) else xO (text_pos s)
  end.
Lemma text_pos_text (p : positive) : text_pos (pos_text p) = p.
Proof. induction p as [p IH|p IH|]; cbn; by rewrite ?IH. Qed.

Definition a_printer (j : json) : str := pos_text (encode (json_tree j)).
Definition a_parser (s : str) : option json := tree_json <$> countable.decode (text_pos s).
Lemma a_codec : reads_back a_printer a_parser.
Proof.
  intros j. unfold a_parser, a_printer. rewrite text_pos_text, decode_encode. cbn. by rewrite tree_json_tree.
Qed.
