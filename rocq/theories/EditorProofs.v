(** Proofs about edits: from the document to the sections of the configuration, and from there to
    what is loaded. *)
From Verif Require Import Base BaseFacts TextModel ApiMapModel ConfigModel ConfigSpec ConfigProofs
  ConfigLoadProofs ProblemModel BuildScriptModel TomlModel TomlProofs EditorModel
  ReloadProofs EditorSpec.

(** * Documents *)

Lemma in_table_app (p q : list str) (f : table -> option table) (t : table) :
  in_table (p ++ q) f t = in_table p (in_table q f) t.
Proof.
  revert t. induction p as [|k p IH]; intros t; [done|]. cbn [app in_table].
  destruct (get k t) as [[]|]; try done; by rewrite IH.
Qed.

(** ** Updates of the fields of a section *)
Record update := Update {
  u_unsafe : bool -> bool; u_extern : bool -> bool; u_proc_macro : bool -> bool;
  u_instructions : list str -> list str; u_apis : list str -> list str;
  u_kind : option sandbox_kind -> option sandbox_kind; u_network : option bool -> option bool }.

Definition no_update : update :=
  Update (fun x => x) (fun x => x) (fun x => x) (fun x => x) (fun x => x) (fun x => x) (fun x => x).

Definition then_update (u v : update) : update :=
  Update (fun x => u_unsafe v (u_unsafe u x)) (fun x => u_extern v (u_extern u x))
    (fun x => u_proc_macro v (u_proc_macro u x)) (fun x => u_instructions v (u_instructions u x))
    (fun x => u_apis v (u_apis u x)) (fun x => u_kind v (u_kind u x))
    (fun x => u_network v (u_network u x)).

Definition update_sandbox (u : update) (sb : sandbox_config) : sandbox_config :=
  SandboxConfig (u_kind u (sb_kind sb)) (sb_extra_args sb) (u_network u (sb_allow_network sb))
    (sb_bind_writable sb) (sb_make_writable sb) (sb_pass_env sb).

Definition update_section (u : update) (pc : package_config) : package_config :=
  PackageConfig (u_unsafe u (pc_allow_unsafe pc)) (u_extern u (pc_allow_extern pc))
    (u_instructions u (pc_allow_build_instructions pc)) (u_apis u (pc_allow_apis pc))
    (u_proc_macro u (pc_allow_proc_macro pc)) (pc_build pc) (pc_test pc) (pc_from pc)
    (update_sandbox u (pc_sandbox pc)) (pc_import pc).

Lemma update_section_no (pc : package_config) : update_section no_update pc = pc.
Proof. destruct pc as [? ? ? ? ? ? ? ? [] ?]. done. Qed.

Lemma update_section_then (u v : update) (pc : package_config) :
  update_section v (update_section u pc) = update_section (then_update u v) pc.
Proof. by destruct pc as [? ? ? ? ? ? ? ? [] ?]. Qed.

(** ** Changing one of the sections of a package *)
Definition from_default : from_config := FromConfig None None.
Definition set_build (pc : package_config) (x : option package_config) : package_config :=
  PackageConfig (pc_allow_unsafe pc) (pc_allow_extern pc) (pc_allow_build_instructions pc)
    (pc_allow_apis pc) (pc_allow_proc_macro pc) x (pc_test pc) (pc_from pc) (pc_sandbox pc) (pc_import pc).
Definition set_test (pc : package_config) (x : option package_config) : package_config :=
  PackageConfig (pc_allow_unsafe pc) (pc_allow_extern pc) (pc_allow_build_instructions pc)
    (pc_allow_apis pc) (pc_allow_proc_macro pc) (pc_build pc) x (pc_from pc) (pc_sandbox pc) (pc_import pc).
Definition set_from (pc : package_config) (x : option from_config) : package_config :=
  PackageConfig (pc_allow_unsafe pc) (pc_allow_extern pc) (pc_allow_build_instructions pc)
    (pc_allow_apis pc) (pc_allow_proc_macro pc) (pc_build pc) (pc_test pc) x (pc_sandbox pc) (pc_import pc).

Definition at_scope (s : scope) (g : package_config -> package_config) (pc : package_config)
    : package_config :=
  let new o := Some (g (default package_default o)) in
  let fr := default from_default (pc_from pc) in
  match s with
  | All => g pc
  | Build => set_build pc (new (pc_build pc))
  | Test => set_test pc (new (pc_test pc))
  | FromBuild => set_from pc (Some (FromConfig (new (fc_build fr)) (fc_test fr)))
  | FromTest => set_from pc (Some (FromConfig (fc_build fr) (new (fc_test fr))))
  end.

(** [f] does to the table of a section what [g] does to the section. *)
Definition implements (f : table -> option table) (g : package_config -> package_config) : Prop :=
  forall t t' pc, section_is t pc -> f t = Some t' -> section_is t' (g pc).

Lemma in_table_one (k : str) (f : table -> option table) (t t' : table) :
  in_table [k] f t = Some t' ->
  exists u u', (get k t = None /\ u = [] \/ get k t = Some (Table u)) /\ f u = Some u' /\
    t' = put k (Table u') t.
Proof.
  cbn [in_table]. destruct (get k t) as [[]|] eqn:E; try done.
  - destruct (f t0) as [u'|] eqn:Ef; [|done]. intros [= <-]. eauto 10.
  - destruct (f []) as [u'|] eqn:Ef; [|done]. intros [= <-]. eauto 10.
Qed.

(** Reading the fields of a section in which one key was set. *)
Ltac read_put :=
  rewrite ?known_put by (vm_compute; reflexivity); rewrite ?field_put, ?opt_field_put; lits.

Lemma implements_at_scope (s : scope) (f : table -> option table) (g : package_config -> package_config) :
  implements f g -> implements (in_table (selector_path s) f) (at_scope s g).
Proof.
  intros Hf t t' pc Ht.
  assert (Hsub : forall k o u u', opt_field k package_of t = Some o ->
            (get k t = None /\ u = [] \/ get k t = Some (Table u)) -> f u = Some u' ->
            package_of (Table u') = Some (g (default package_default o))).
  { intros k o u u' Ho Hu Hfu. apply section_is_iff. apply (Hf u u'); [|done].
    unfold opt_field in Ho. destruct Hu as [[E ->]|E]; rewrite E in Ho.
    - injection Ho as <-. apply section_is_nil.
    - destruct (package_of (Table u)) as [pc0|] eqn:Ep; [|done]. injection Ho as <-.
      by apply section_is_iff. }
  assert (Hfrom : forall u, (get (lit "from") t = None /\ u = [] \/ get (lit "from") t = Some (Table u)) ->
            from_is u (default from_default (pc_from pc))).
  { intros u Hu. destruct Ht as (_ & _ & _ & _ & _ & _ & _ & _ & H & _). unfold opt_field in H.
    destruct Hu as [[E ->]|E]; rewrite E in H.
    - assert (pc_from pc = None) as -> by congruence. done.
    - destruct (from_item (Table u)) as [fc|] eqn:Ef; [|done].
      assert (pc_from pc = Some fc) as -> by (cbn in H; congruence). by apply from_is_iff. }
  destruct s; cbn [selector_path].
  - by apply Hf.
  - intros (u & u' & Hu & Hfu & ->)%in_table_one.
    destruct Ht as (H1 & H2 & H3 & H4 & H5 & H6 & H7 & H8 & H9 & H10 & H11).
    unfold section_is. read_put. split_and!; try done.
    rewrite (Hsub (lit "build") (pc_build pc) u u') by done. done.
  - intros (u & u' & Hu & Hfu & ->)%in_table_one.
    destruct Ht as (H1 & H2 & H3 & H4 & H5 & H6 & H7 & H8 & H9 & H10 & H11).
    unfold section_is. read_put. split_and!; try done.
    rewrite (Hsub (lit "test") (pc_test pc) u u') by done. done.
  - change [lit "from"; lit "build"] with ([lit "from"] ++ [lit "build"]). rewrite in_table_app.
    intros (u & u' & Hu & Hfu & ->)%in_table_one.
    apply in_table_one in Hfu as (w & w' & Hw & Hfw & ->).
    specialize (Hfrom u Hu) as (F1 & F2 & F3).
    destruct Ht as (H1 & H2 & H3 & H4 & H5 & H6 & H7 & H8 & H9 & H10 & H11).
    unfold section_is. read_put. split_and!; try done.
    erewrite (proj2 (from_is_iff _ (FromConfig
      (Some (g (default package_default (fc_build (default from_default (pc_from pc))))))
      (fc_test (default from_default (pc_from pc)))))); [done|].
    unfold from_is. read_put. split_and!; try done.
    assert (package_of (Table w') = Some (g (default package_default (fc_build (default from_default (pc_from pc)))))) as ->; [|done].
    apply section_is_iff. apply (Hf w w'); [|done].
    unfold opt_field in F2. destruct Hw as [[E ->]|E]; rewrite E in F2.
    + assert (fc_build (default from_default (pc_from pc)) = None) as -> by congruence. apply section_is_nil.
    + destruct (package_of (Table w)) as [pc0|] eqn:Ep; [|done].
      assert (fc_build (default from_default (pc_from pc)) = Some pc0) as -> by (cbn in F2; congruence).
      by apply section_is_iff.
  - change [lit "from"; lit "test"] with ([lit "from"] ++ [lit "test"]). rewrite in_table_app.
    intros (u & u' & Hu & Hfu & ->)%in_table_one.
    apply in_table_one in Hfu as (w & w' & Hw & Hfw & ->).
    specialize (Hfrom u Hu) as (F1 & F2 & F3).
    destruct Ht as (H1 & H2 & H3 & H4 & H5 & H6 & H7 & H8 & H9 & H10 & H11).
    unfold section_is. read_put. split_and!; try done.
    erewrite (proj2 (from_is_iff _ (FromConfig
      (fc_build (default from_default (pc_from pc)))
      (Some (g (default package_default (fc_test (default from_default (pc_from pc))))))))); [done|].
    unfold from_is. read_put. split_and!; try done.
    assert (package_of (Table w') = Some (g (default package_default (fc_test (default from_default (pc_from pc)))))) as ->; [|done].
    apply section_is_iff. apply (Hf w w'); [|done].
    unfold opt_field in F3. destruct Hw as [[E ->]|E]; rewrite E in F3.
    + assert (fc_test (default from_default (pc_from pc)) = None) as -> by congruence. apply section_is_nil.
    + destruct (package_of (Table w)) as [pc0|] eqn:Ep; [|done].
      assert (fc_test (default from_default (pc_from pc)) = Some pc0) as -> by (cbn in F3; congruence).
      by apply section_is_iff.
Qed.

(** ** A package of a document *)
Lemma common_put (k : str) (i : item) (d : table) :
  str_eqb (lit "common") k = false -> get (lit "common") (put k i d) = get (lit "common") d.
Proof. intros H. by rewrite get_put, H. Qed.

Lemma decode_in_package (name : str) (path : list str) (f : table -> option table)
    (g : package_config -> package_config) (d d' : table) (rc : raw_config) :
  implements (in_table path f) g ->
  decode d = Some rc -> in_table (lit "pkg" :: name :: path) f d = Some d' ->
  decode d' = Some (set_packages rc
    (<[name := g (default package_default (rc_packages rc !! name))]> (rc_packages rc))).
Proof.
  intros Hf Hd. change (lit "pkg" :: name :: path) with ([lit "pkg"] ++ [name] ++ path).
  rewrite !in_table_app. intros (u & u' & Hu & Hfu & ->)%in_table_one.
  rewrite in_table_app in Hfu. apply in_table_one in Hfu as (w & w' & Hw & Hfw & ->).
  apply document_is_iff in Hd as (H1 & H2 & H3 & H4 & H5 & H6).
  assert (Hm : map_of package_of (Table u) = Some (rc_packages rc)).
  { unfold field in H4. destruct Hu as [[E ->]|E]; rewrite E in H4.
    - by rewrite <- H4.
    - done. }
  apply document_is_iff. unfold document_is. read_put. rewrite common_put by (vm_compute; reflexivity).
  split_and!; try done. cbn [rc_packages set_packages].
  apply map_of_put; [done|]. apply section_is_iff. apply (Hf w w'); [|done].
  apply map_of_iff in Hm as [_ Hm]. rewrite Hm.
  destruct Hw as [[E ->]|E]; rewrite E; cbn [mbind option_bind].
  - apply section_is_nil.
  - destruct (package_of (Table w)) as [pc0|] eqn:Ep.
    + by apply section_is_iff.
    + specialize (Hm name). rewrite E in Hm. cbn [mbind option_bind] in Hm. rewrite Ep in Hm.
      unfold field in H4. destruct Hu as [[E2 ->]|E2]; [done|]. rewrite E2 in H4.
      apply map_of_iff in H4 as [H4 _]. apply get_in in E. destruct (H4 _ E) as [? H]. cbn [snd] in H.
      by rewrite Ep in H.
Qed.

(** ** Tables that may be absent *)
Lemma opt_step (k : str) (path : list str) (f : table -> option table) (t t' : table) :
  in_opt_table (k :: path) f t = Some t' ->
  (get k t = None /\ t' = t) \/
  exists u u', get k t = Some (Table u) /\ in_opt_table path f u = Some u' /\ t' = put k (Table u') t.
Proof.
  cbn [in_opt_table]. destruct (get k t) as [[]|] eqn:E; try done.
  - destruct (in_opt_table path f t0) as [u'|] eqn:Ef; [|done]. intros [= <-]. eauto 10.
  - intros [= <-]. by left.
Qed.

Lemma in_step (k : str) (path : list str) (f : table -> option table) (t u u' : table) :
  get k t = Some (Table u) -> in_table path f u = Some u' ->
  in_table (k :: path) f t = Some (put k (Table u') t).
Proof. intros E H. cbn [in_table]. by rewrite E, H. Qed.

(** What a document says about a package. *)
Lemma document_package (d u : table) (rc : raw_config) (name : str) :
  decode d = Some rc -> get (lit "pkg") d = Some (Table u) ->
  match get name u with
  | None => rc_packages rc !! name = None
  | Some i => exists pc, package_of i = Some pc /\ rc_packages rc !! name = Some pc
  end.
Proof.
  intros (_ & _ & _ & H & _)%document_is_iff E. unfold field in H. rewrite E in H.
  apply map_of_iff in H as [H1 H2]. specialize (H2 name). destruct (get name u) as [i|] eqn:Ei; [|done].
  destruct (H1 (name, i)) as [pc Hpc]; [by apply get_in|]. cbn [snd] in Hpc. exists pc. split; [done|].
  rewrite H2. done.
Qed.

Lemma document_no_packages (d : table) (rc : raw_config) :
  decode d = Some rc -> get (lit "pkg") d = None -> rc_packages rc = ∅.
Proof.
  intros (_ & _ & _ & H & _)%document_is_iff E. unfold field in H. rewrite E in H. congruence.
Qed.

Lemma opt_sub_section (k : str) (f : table -> option table) (t t' : table) (o : option package_config) :
  opt_field k package_of t = Some o -> in_opt_table [k] f t = Some t' ->
  match o with Some _ => in_table [k] f t = Some t' | None => t' = t end.
Proof.
  intros Ho [[E ->]|(u & u' & E & Hu & ->)]%opt_step; unfold opt_field in Ho; rewrite E in Ho.
  - by injection Ho as <-.
  - destruct (package_of (Table u)); [|done]. injection Ho as <-. by apply (in_step k [] f t u).
Qed.

Lemma opt_section (d d' : table) (rc : raw_config) (name : str) (s : scope) (f : table -> option table) :
  decode d = Some rc -> in_opt_table (pkg_path (name, s)) f d = Some d' ->
  match section rc name s with
  | Some _ => in_table (pkg_path (name, s)) f d = Some d'
  | None => d' = d
  end.
Proof.
  intros Hd. unfold pkg_path, section. cbn [fst snd].
  intros [[E ->]|(u & u' & E & Hu & ->)]%opt_step.
  { rewrite (document_no_packages d rc), lookup_empty by done. done. }
  pose proof (document_package d u rc name Hd E) as Hp.
  apply opt_step in Hu as [[E2 ->]|(w & w' & E2 & Hw & ->)]; rewrite E2 in Hp.
  { rewrite Hp. by apply put_same. }
  destruct Hp as (pc & Hpc & ->). apply section_is_iff in Hpc.
  assert (Hlift : forall x : option package_config,
    match x with Some _ => in_table (selector_path s) f w = Some w' | None => w' = w end ->
    match x with
    | Some _ => in_table (lit "pkg" :: name :: selector_path s) f d = Some (put (lit "pkg") (Table (put name (Table w') u)) d)
    | None => put (lit "pkg") (Table (put name (Table w') u)) d = d
    end).
  { intros [x|] Hx.
    - apply (in_step _ _ _ _ u); [done|]. by apply (in_step _ _ _ _ w).
    - subst. rewrite (put_same name) by done. by apply put_same. }
  destruct Hpc as (H1 & H2 & H3 & H4 & H5 & H6 & H7 & H8 & H9 & H10 & H11).
  assert (Hfrom : forall k (o : option package_config),
    s = FromBuild /\ k = lit "build" /\ o = match pc_from pc with Some x => fc_build x | None => None end \/
    s = FromTest /\ k = lit "test" /\ o = match pc_from pc with Some x => fc_test x | None => None end ->
    in_opt_table [lit "from"; k] f w = Some w' ->
    match o with Some _ => in_table [lit "from"; k] f w = Some w' | None => w' = w end).
  { intros k o Hk [[E3 ->]|(v & v' & E3 & Hv & ->)]%opt_step; unfold opt_field in H9; rewrite E3 in H9.
    - assert (pc_from pc = None) as Hn by congruence. rewrite Hn in Hk. by destruct Hk as [(_ & _ & ->)|(_ & _ & ->)].
    - destruct (from_item (Table v)) as [fc|] eqn:Ef; [|done].
      assert (pc_from pc = Some fc) as Hn by (cbn in H9; congruence). rewrite Hn in Hk.
      apply from_is_iff in Ef as (F1 & F2 & F3).
      assert (Ho : opt_field k package_of v = Some o).
      { by destruct Hk as [(_ & -> & ->)|(_ & -> & ->)]. }
      apply (opt_sub_section k f v v' o Ho) in Hv. destruct o.
      + by apply (in_step _ _ _ _ v).
      + subst. by apply put_same. }
  destruct s; cbn [selector_path] in *.
  - apply (Hlift (Some pc)). by destruct w.
  - apply Hlift. by apply opt_sub_section.
  - apply Hlift. by apply opt_sub_section.
  - apply Hlift. apply Hfrom; auto.
  - apply Hlift. apply Hfrom; auto.
Qed.

(** ** Changes of a section *)

(** Insertion and removal on lists of texts. *)
Fixpoint insert_text (v : str) (l : list str) : list str :=
  match l with
  | [] => [v]
  | e :: l' =>
      if str_leb v e then (if str_eqb e v then l else v :: l) else e :: insert_text v l'
  end.
Fixpoint remove_text (v : str) (l : list str) : list str :=
  match l with
  | [] => []
  | e :: l' => if str_eqb e v then l' else e :: remove_text v l'
  end.

Lemma mapM_insert (v : str) (l : list item) (ls : list str) :
  mapM text_of l = Some ls -> mapM text_of (insert_value v l) = Some (insert_text v ls).
Proof.
  revert ls. induction l as [|i l IH]; intros ls; cbn.
  - by intros [= <-].
  - destruct i as [e| | | | | |]; cbn; try done.
    destruct (mapM text_of l) as [ls'|] eqn:E; cbn; [|done]. intros [= <-]. cbn.
    destruct (str_leb v e); [destruct (str_eqb e v)|]; cbn.
    + by rewrite E.
    + by rewrite E.
    + by rewrite (IH ls').
Qed.

Lemma mapM_remove (v : str) (l : list item) (ls : list str) :
  mapM text_of l = Some ls -> mapM text_of (remove_value v l) = Some (remove_text v ls).
Proof.
  revert ls. induction l as [|i l IH]; intros ls; cbn.
  - by intros [= <-].
  - destruct i as [e| | | | | |]; cbn; try done.
    destruct (mapM text_of l) as [ls'|] eqn:E; cbn; [|done]. intros [= <-]. cbn.
    destruct (str_eqb e v); cbn; [done|]. by rewrite (IH ls').
Qed.

Lemma mapM_inserts (vs : list str) (l : list item) (ls : list str) :
  mapM text_of l = Some ls ->
  mapM text_of (foldl (fun l v => insert_value v l) l vs) = Some (foldl (fun l v => insert_text v l) ls vs).
Proof. revert l ls. induction vs as [|v vs IH]; intros l ls H; cbn; [done|]. by apply IH, mapM_insert. Qed.

Lemma mapM_removes (vs : list str) (l : list item) (ls : list str) :
  mapM text_of l = Some ls ->
  mapM text_of (foldl (fun l v => remove_value v l) l vs) = Some (foldl (fun l v => remove_text v l) ls vs).
Proof. revert l ls. induction vs as [|v vs IH]; intros l ls H; cbn; [done|]. by apply IH, mapM_remove. Qed.

(** An array of texts after values were added. *)
Lemma add_to_array_inv (k : str) (vs : list str) (t t' : table) (ls : list str) :
  field k [] texts_of t = Some ls -> add_to_array k vs t = Some t' ->
  (vs = [] /\ t' = t) \/
  exists l, t' = put k (Array l) t /\ mapM text_of l = Some (foldl (fun l v => insert_text v l) ls vs).
Proof.
  unfold field, add_to_array. intros H. destruct vs as [|v vs]; [intros [= <-]; by left|].
  right. destruct (get k t) as [[| | | |l| |]|]; try done.
  - injection H0 as <-. eexists. split; [done|]. by apply (mapM_inserts (v :: vs)).
  - injection H0 as <-. injection H as <-. eexists. split; [done|]. by apply (mapM_inserts (v :: vs) [] []).
Qed.

Definition update_apis (f : list str -> list str) : update :=
  Update (fun x => x) (fun x => x) (fun x => x) (fun x => x) f (fun x => x) (fun x => x).
Definition update_instructions (f : list str -> list str) : update :=
  Update (fun x => x) (fun x => x) (fun x => x) f (fun x => x) (fun x => x) (fun x => x).
Definition set_unsafe : update :=
  Update (fun _ => true) (fun x => x) (fun x => x) (fun x => x) (fun x => x) (fun x => x) (fun x => x).
Definition set_extern : update :=
  Update (fun x => x) (fun _ => true) (fun x => x) (fun x => x) (fun x => x) (fun x => x) (fun x => x).
Definition set_proc_macro : update :=
  Update (fun x => x) (fun x => x) (fun _ => true) (fun x => x) (fun x => x) (fun x => x) (fun x => x).
Definition set_kind (k : sandbox_kind) : update :=
  Update (fun x => x) (fun x => x) (fun x => x) (fun x => x) (fun x => x) (fun _ => Some k) (fun x => x).
Definition set_network (b : bool) : update :=
  Update (fun x => x) (fun x => x) (fun x => x) (fun x => x) (fun x => x) (fun x => x) (fun _ => Some b).

Lemma sandbox_eta (sb : sandbox_config) : update_sandbox no_update sb = sb.
Proof. by destruct sb. Qed.

Lemma implements_apis (vs : list str) :
  implements (add_to_array (lit "allow_apis") vs)
    (update_section (update_apis (fun l => foldl (fun l v => insert_text v l) l vs))).
Proof.
  intros t t' pc (H1 & H2 & H3 & H4 & H5 & H6 & H7 & H8 & H9 & H10 & H11) H.
  destruct (add_to_array_inv _ _ _ _ _ H5 H) as [[-> ->]|(l & -> & Hl)].
  - cbn [foldl]. change (update_apis (fun l => l)) with no_update. rewrite update_section_no. done.
  - unfold section_is. read_put. split_and!; try done. rewrite H10; cbn [pc_sandbox update_section]; by destruct (pc_sandbox pc).
Qed.

Lemma implements_instructions (vs : list str) :
  implements (add_to_array (lit "allow_build_instructions") vs)
    (update_section (update_instructions (fun l => foldl (fun l v => insert_text v l) l vs))).
Proof.
  intros t t' pc (H1 & H2 & H3 & H4 & H5 & H6 & H7 & H8 & H9 & H10 & H11) H.
  destruct (add_to_array_inv _ _ _ _ _ H4 H) as [[-> ->]|(l & -> & Hl)].
  - cbn [foldl]. change (update_instructions (fun l => l)) with no_update. rewrite update_section_no. done.
  - unfold section_is. read_put. split_and!; try done. rewrite H10; cbn [pc_sandbox update_section]; by destruct (pc_sandbox pc).
Qed.

Lemma implements_unsafe : implements (fun t => Some (put (lit "allow_unsafe") (Flag true) t)) (update_section set_unsafe).
Proof.
  intros t t' pc (H1 & H2 & H3 & H4 & H5 & H6 & H7 & H8 & H9 & H10 & H11) [= <-].
  unfold section_is. read_put. split_and!; try done. rewrite H10; cbn [pc_sandbox update_section]; by destruct (pc_sandbox pc).
Qed.

Lemma implements_extern : implements (fun t => Some (put (lit "allow_extern") (Flag true) t)) (update_section set_extern).
Proof.
  intros t t' pc (H1 & H2 & H3 & H4 & H5 & H6 & H7 & H8 & H9 & H10 & H11) [= <-].
  unfold section_is. read_put. split_and!; try done. rewrite H10; cbn [pc_sandbox update_section]; by destruct (pc_sandbox pc).
Qed.

Lemma implements_proc_macro :
  implements (fun t => Some (put (lit "allow_proc_macro") (Flag true) t)) (update_section set_proc_macro).
Proof.
  intros t t' pc (H1 & H2 & H3 & H4 & H5 & H6 & H7 & H8 & H9 & H10 & H11) [= <-].
  unfold section_is. read_put. split_and!; try done. rewrite H10; cbn [pc_sandbox update_section]; by destruct (pc_sandbox pc).
Qed.

(** The table of a sandbox. *)
Lemma implements_sandbox (f : table -> option table) (u : update) :
  (forall pc, update_section u pc =
     PackageConfig (pc_allow_unsafe pc) (pc_allow_extern pc) (pc_allow_build_instructions pc)
       (pc_allow_apis pc) (pc_allow_proc_macro pc) (pc_build pc) (pc_test pc) (pc_from pc)
       (update_sandbox u (pc_sandbox pc)) (pc_import pc)) ->
  (forall t t' sb, sandbox_is t sb -> f t = Some t' -> sandbox_is t' (update_sandbox u sb)) ->
  implements (in_table [lit "sandbox"] f) (update_section u).
Proof.
  intros Hu Hf t t' pc (H1 & H2 & H3 & H4 & H5 & H6 & H7 & H8 & H9 & H10 & H11).
  intros (v & v' & Hv & Hfv & ->)%in_table_one. rewrite Hu.
  unfold section_is. read_put. split_and!; try done. cbn [pc_sandbox].
  apply sandbox_is_iff. apply (Hf v v'); [|done].
  unfold field in H10. destruct Hv as [[E ->]|E]; rewrite E in H10.
  - assert (pc_sandbox pc = sandbox_default) as -> by congruence. done.
  - by apply sandbox_is_iff.
Qed.

Lemma implements_network :
  implements (in_table [lit "sandbox"] (fun t => Some (put (lit "allow_network") (Flag true) t)))
    (update_section (set_network true)).
Proof.
  apply implements_sandbox; [done|].
  intros t t' sb (H1 & H2 & H3 & H4 & H5 & H6 & H7) [= <-].
  unfold sandbox_is. read_put. split_and!; done.
Qed.

Lemma implements_disabled :
  implements (in_table [lit "sandbox"] (fun t => Some (put (lit "kind") (Text (lit "Disabled")) t)))
    (update_section (set_kind Disabled)).
Proof.
  apply implements_sandbox; [done|].
  intros t t' sb (H1 & H2 & H3 & H4 & H5 & H6 & H7) [= <-].
  unfold sandbox_is. read_put. split_and!; done.
Qed.

Lemma implements_remove (vs : list str) :
  implements (remove_allowed vs)
    (update_section (update_apis (fun l => foldl (fun l v => remove_text v l) l vs))).
Proof.
  intros t t' pc (H1 & H2 & H3 & H4 & H5 & H6 & H7 & H8 & H9 & H10 & H11).
  unfold remove_allowed.
  destruct (get (lit "allow_apis") t) as [[| | | |l| |]|] eqn:E; try done.
  - assert (Hl : mapM text_of l = Some (pc_allow_apis pc)).
    { unfold field in H5. by rewrite E in H5. }
    apply (mapM_removes vs) in Hl.
    set (l' := foldl (fun l v => remove_value v l) l vs) in *.
    destruct l' as [|i l'].
    + intros [= <-]. unfold section_is.
      rewrite known_del by done. rewrite ?field_del, ?opt_field_del. lits.
      split_and!; try done.
      rewrite H10; cbn [pc_sandbox update_section]; by destruct (pc_sandbox pc).
    + intros [= <-]. unfold section_is. read_put. split_and!; try done. rewrite H10; cbn [pc_sandbox update_section]; by destruct (pc_sandbox pc).
  - intros [= <-].
    assert (Hn : pc_allow_apis pc = []) by (unfold field in H5; rewrite E in H5; congruence).
    unfold section_is. split_and!; try done.
    + cbn [pc_allow_apis update_section update_apis u_apis]. rewrite H5, Hn. f_equal.
      induction vs; [done|]. done.
    + rewrite H10; cbn [pc_sandbox update_section]; by destruct (pc_sandbox pc).
Qed.

(** * What is loaded *)

Definition fin (root : str) (s : scope) (c : package_config) : package_config :=
  match s with
  | All => finished root c
  | Build | Test => abs_package root c
  | FromBuild | FromTest => c
  end.

Lemma finished_section (root : str) (pc : package_config) (s : scope) :
  pc_section (finished root pc) s = fin root s <$> pc_section pc s.
Proof.
  destruct pc as [a b c d e f g h i j]. unfold finished. rewrite abs_package_unfold.
  destruct s; unfold pc_section, fin; cbn [pc_build pc_test pc_from clear_import set_import].
  - cbn. by destruct j.
  - done.
  - done.
  - destruct h as [[x y]|]; [|done]. by destruct x.
  - destruct h as [[x y]|]; [|done]. by destruct y.
Qed.

Lemma abs_package_update (root : str) (u : update) (c : package_config) :
  abs_package root (update_section u c) = update_section u (abs_package root c).
Proof. rewrite !abs_package_unfold. by destruct c. Qed.

Lemma fin_update (root : str) (s : scope) (u : update) (c : package_config) :
  fin root s (update_section u c) = update_section u (fin root s c).
Proof.
  destruct s; cbn [fin]; try done; apply abs_package_update.
Qed.

Lemma fin_default (root : str) (s : scope) : fin root s package_default = package_default.
Proof. by destruct s. Qed.

Lemma stripped_section (rc : raw_config) (pkg : str) (s : scope) :
  stripped rc pkg s = rc_packages rc !! pkg ≫= fun pc => pc_section pc s.
Proof. unfold stripped, section. destruct (rc_packages rc !! pkg); by destruct s. Qed.

Lemma default_section (o : option package_config) (s : scope) :
  default package_default (o ≫= fun pc => pc_section pc s) =
  default package_default (pc_section (default package_default o) s).
Proof. destruct o; [done|]. by destruct s. Qed.

Lemma sec0_finished (root : str) (rc : raw_config) (m : gmap str package_config) (pkg : str) (s : scope) :
  rc_packages rc = finished root <$> m ->
  sec0 rc pkg s = fin root s (default package_default (pc_section (default package_default (m !! pkg)) s)).
Proof.
  intros H. unfold sec0. rewrite stripped_section, H, lookup_fmap, default_section.
  destruct (m !! pkg) as [pc|]; cbn [fmap option_fmap option_map default from_option id].
  - rewrite finished_section. destruct (pc_section pc s); cbn; [done|]. by rewrite fin_default.
  - destruct s; done.
Qed.

Lemma section_finished (root : str) (rc : raw_config) (m : gmap str package_config) (pkg : str) (s : scope) :
  rc_packages rc = finished root <$> m ->
  is_Some (section rc pkg s) <-> is_Some (m !! pkg ≫= fun pc => pc_section pc s).
Proof.
  intros H. unfold section. rewrite H, lookup_fmap.
  destruct (m !! pkg) as [pc|]; cbn [fmap option_fmap option_map mbind option_bind]; [|done].
  assert (Hs : forall o o' : option package_config, o = fin root s <$> o' -> is_Some o <-> is_Some o').
  { intros o o' ->. apply fmap_is_Some. }
  pose proof (finished_section root pc s) as F.
  destruct s; unfold pc_section in F |- *; cbn [fin] in *; try (by apply Hs).
  split; eauto.
Qed.

(** The sections of a package before and after. *)
Definition edited (U : scope -> update) (new : scope -> Prop) (pc pc' : package_config) : Prop :=
  (forall s, default package_default (pc_section pc' s) =
     update_section (U s) (default package_default (pc_section pc s))) /\
  (forall s, is_Some (pc_section pc' s) <-> is_Some (pc_section pc s) \/ new s).

Lemma edited_import (U : scope -> update) (new : scope -> Prop) (pc pc' : package_config) :
  edited U new pc pc' -> pc_import pc' = pc_import pc.
Proof. intros [H _]. specialize (H All). cbn in H. by apply (f_equal pc_import) in H. Qed.

Lemma edited_then (U V : scope -> update) (n n' : scope -> Prop) (a b c : package_config) :
  edited U n a b -> edited V n' b c ->
  edited (fun s => then_update (U s) (V s)) (fun s => n s \/ n' s) a c.
Proof.
  intros [A1 A2] [B1 B2]. split.
  - intros s. by rewrite B1, A1, update_section_then.
  - intros s. rewrite B2, A2. tauto.
Qed.

Lemma edited_refl (pc : package_config) : edited (fun _ => no_update) (fun _ => False) pc pc.
Proof. split; [intros s; by rewrite update_section_no|]. intros s. tauto. Qed.

Lemma update_without (u : update) (pc : package_config) :
  without_subsections (update_section u pc) = update_section u (without_subsections pc).
Proof. done. Qed.

Lemma at_scope_edited (s : scope) (u : update) (pc : package_config) :
  edited (fun s' => if decide (s' = s) then u else no_update) (fun s' => s' = s) pc
    (at_scope s (update_section u) pc).
Proof.
  assert (Hno : forall o : option package_config,
    default package_default o = update_section no_update (default package_default o)).
  { intros o. by rewrite update_section_no. }
  split.
  - intros s'. destruct (decide (s' = s)) as [->|Hne].
    + destruct s; cbn [at_scope pc_section set_build set_test set_from pc_build pc_test pc_from fc_build fc_test
        default from_option id]; try done.
      * by destruct (pc_from pc) as [[]|].
      * by destruct (pc_from pc) as [[]|].
    + rewrite <- Hno. destruct s, s'; try done; cbn; by destruct (pc_from pc) as [[]|].
  - intros s'. destruct s, s'; cbn; try destruct (pc_from pc) as [[x y]|]; cbn;
      (split; [intros; auto|intros [?|?]; first [done|eauto]]).
Qed.

Lemma section_sec0 (rc : raw_config) (pkg : str) (s : scope) (sec : package_config) :
  section rc pkg s = Some sec ->
  sec0 rc pkg s = match s with All => without_subsections sec | _ => sec end.
Proof. intros H. unfold sec0, stripped. destruct s; rewrite H; done. Qed.

Lemma sec0_absent (rc : raw_config) (pkg : str) (s : scope) :
  section rc pkg s = None -> sec0 rc pkg s = package_default.
Proof. intros H. unfold sec0, stripped. destruct s; rewrite H; done. Qed.

Lemma sec0_apis (rc : raw_config) (pkg : str) (s : scope) (sec : package_config) :
  section rc pkg s = Some sec -> pc_allow_apis (sec0 rc pkg s) = pc_allow_apis sec.
Proof. intros H. rewrite (section_sec0 _ _ _ _ H). by destruct s. Qed.

Lemma edited_well_formed (rc rc' : raw_config) (name : str) (U : scope -> update) :
  well_formed rc ->
  rc_version rc' = rc_version rc -> rc_apis rc' = rc_apis rc ->
  (forall pkg, pkg <> name -> rc_packages rc' !! pkg = rc_packages rc !! pkg) ->
  (forall s, sec0 rc' name s = update_section (U s) (sec0 rc name s)) ->
  (forall s, (forall a, a ∈ u_apis (U s) (pc_allow_apis (sec0 rc name s)) -> is_Some (rc_apis rc !! a)) /\
     NoDup (u_apis (U s) (pc_allow_apis (sec0 rc name s)))) ->
  well_formed rc'.
Proof.
  intros [W1 W2] Hv Ha Ho Hs Hu. split; [by rewrite Hv|].
  intros pkg s sec Hsec. destruct (decide (pkg = name)) as [->|Hne].
  - rewrite Ha. destruct (Hu s) as [U1 U2].
    assert (Happ : pc_allow_apis sec = u_apis (U s) (pc_allow_apis (sec0 rc name s))).
    { rewrite <- (sec0_apis rc' name s sec Hsec), Hs. done. }
    rewrite Happ. split_and!; [done|done|].
    intros Hall. pose proof (section_sec0 _ _ _ _ Hsec) as E. rewrite Hs in E.
    assert (sec = update_section (U s) (sec0 rc name s)) as -> by (by destruct s).
    assert (subsections_absent (sec0 rc name s)) as (S1 & S2 & S3).
    { destruct (section rc name s) as [sec0'|] eqn:E2.
      - rewrite (section_sec0 _ _ _ _ E2). destruct (W2 name s sec0' E2) as (_ & _ & W). by destruct s; auto.
      - rewrite (sec0_absent _ _ _ E2). done. }
    done.
  - rewrite Ha. apply (W2 pkg s). unfold section in *. by rewrite Ho in Hsec.
Qed.

Section reloaded.
  Context (b : gmap str api_config) (ex : str -> list nat -> option (gmap str api_config))
    (idx : crate_index) (root : str).

  Lemma edited_reload (rc : raw_config) (c : config) (name : str) (U : scope -> update)
      (new : scope -> Prop) (pc' : package_config) :
    load_config b ex idx (Some root) rc = Loaded c ->
    (exists p, p ∈ idx /\ pk_name p = name) ->
    edited U new (default package_default (rc_packages rc !! name)) pc' ->
    (forall s, new s -> index_selector idx name s) ->
    (forall s, (forall a, a ∈ u_apis (U s) (pc_allow_apis (sec0 (cf_raw c) name s)) -> is_Some (rc_apis (cf_raw c) !! a)) /\
       NoDup (u_apis (U s) (pc_allow_apis (sec0 (cf_raw c) name s)))) ->
    exists c',
      load_config b ex idx (Some root) (set_packages rc (<[name := pc']> (rc_packages rc))) = Loaded c' /\
      same_settings c c' /\
      (forall sel, sel.1 <> name -> cf_permissions c' !! sel = cf_permissions c !! sel) /\
      (forall s, sec0 (cf_raw c') name s = update_section (U s) (sec0 (cf_raw c) name s)) /\
      (forall s, match cf_permissions c !! (name, s), cf_permissions c' !! (name, s) with
                 | None, None => True
                 | Some e, Some e' => e = eff (cf_raw c) name s /\ e' = eff (cf_raw c') name s
                 | _, _ => False
                 end).
  Proof.
    intros Hl (p & Hp & Hname) He Hnew Hok.
    pose proof (loaded_packages _ _ _ _ _ _ Hl) as Hpk.
    destruct (load_config_inv _ _ _ _ _ _ Hl) as (_ & _ & _ & _ & _ & Hval & Hc).
    apply validate_spec in Hval.
    set (m := <[name := pc']> (rc_packages rc)).
    set (R := cf_raw c) in *. set (R' := set_packages R (finished root <$> m)).
    assert (HR' : rc_packages R' = finished root <$> m) by done.
    assert (Hs : forall s, sec0 R' name s = update_section (U s) (sec0 R name s)).
    { intros s. rewrite (sec0_finished root R' m), (sec0_finished root R (rc_packages rc)) by done.
      unfold m. rewrite lookup_insert. cbn [default from_option id].
      rewrite (proj1 He s). by rewrite fin_update. }
    assert (Ho : forall pkg, pkg <> name -> rc_packages R' !! pkg = rc_packages R !! pkg).
    { intros pkg Hne. rewrite HR', Hpk, !lookup_fmap. unfold m. by rewrite lookup_insert_ne by congruence. }
    exists (with_permissions idx R'). split_and!.
    - rewrite (reload b ex idx root rc c m Hl).
      + fold R R'. assert (validate R' = []) as ->; [|done]. apply validate_spec.
        by apply (edited_well_formed R R' name U).
      + apply imports_of_same. intros k. unfold m. destruct (decide (k = name)) as [->|Hne].
        * rewrite lookup_insert. cbn [mbind option_bind]. rewrite (edited_import _ _ _ _ He).
          by destruct (rc_packages rc !! name).
        * by rewrite lookup_insert_ne by congruence.
    - done.
    - intros [k s] Hne. cbn [fst] in Hne. rewrite Hc. cbn [cf_permissions with_permissions].
      apply isolation; [by apply Ho|done].
    - exact Hs.
    - intros s. rewrite Hc. cbn [cf_permissions with_permissions cf_raw].
      assert (Hx : is_Some (section R' name s) \/ index_selector idx name s <->
                   is_Some (section R name s) \/ index_selector idx name s).
      { rewrite (section_finished root R' m), (section_finished root R (rc_packages rc)) by done.
        unfold m. rewrite lookup_insert. cbn [mbind option_bind]. rewrite (proj2 He s).
        assert (Hi : s = All -> index_selector idx name s).
        { intros ->. exists p. done. }
        destruct (rc_packages rc !! name) as [pc|]; cbn [default from_option id mbind option_bind].
        - split; [|tauto]. intros [[?|?]|?]; auto.
        - split; [|intros [?|?]; [by destruct H|auto]]. intros [[?|?]|?]; auto.
          destruct s; cbn in H; try (by destruct H). auto. }
      rewrite <- Hname in *. rewrite !(effective_lookup _ idx p) by done.
      destruct (decide (is_Some (section R' (pk_name p) s) \/ index_selector idx (pk_name p) s)) as [D|D];
      destruct (decide (is_Some (section R (pk_name p) s) \/ index_selector idx (pk_name p) s)) as [D'|D']; try tauto.
  Qed.
End reloaded.

(** * The edits *)

Lemma edited_ext (U V : scope -> update) (n n' : scope -> Prop) (a b : package_config) :
  edited U n a b -> (forall s c, update_section (U s) c = update_section (V s) c) ->
  (forall s, n s <-> n' s) -> edited V n' a b.
Proof.
  intros [H1 H2] HU Hn. split.
  - intros s. by rewrite <- HU.
  - intros s. by rewrite H2, Hn.
Qed.

(** A change of the table of one section. *)
Lemma decode_section (sel : perm_sel) (f : table -> option table) (u : update) (d d' : table) (rc : raw_config) :
  implements f (update_section u) ->
  decode d = Some rc -> in_table (pkg_path sel) f d = Some d' ->
  exists pc', decode d' = Some (set_packages rc (<[sel.1 := pc']> (rc_packages rc))) /\
    edited (fun s => if decide (s = sel.2) then u else no_update) (fun s => s = sel.2)
      (default package_default (rc_packages rc !! sel.1)) pc'.
Proof.
  intros Hf Hd H. destruct sel as [name s]. eexists. split.
  - apply (decode_in_package name (selector_path s) f _ d d' rc (implements_at_scope s f _ Hf) Hd H).
  - apply at_scope_edited.
Qed.

Lemma removes_nil (vs : list str) : foldl (fun l v => remove_text v l) [] vs = [].
Proof. by induction vs. Qed.

Lemma section_pc_section (rc : raw_config) (name : str) (s : scope) (pc : package_config) :
  rc_packages rc !! name = Some pc -> is_Some (section rc name s) <-> is_Some (pc_section pc s).
Proof. intros H. unfold section. rewrite H. by destruct s. Qed.

Lemma decode_remove (name : str) (s : scope) (vs : list str) (d d' : table) (rc : raw_config) (pc : package_config) :
  decode d = Some rc -> remove_apis (name, s) vs d = Some d' -> rc_packages rc !! name = Some pc ->
  exists pc', decode d' = Some (set_packages rc (<[name := pc']> (rc_packages rc))) /\
    edited (fun s' => if decide (s' = s) then update_apis (fun l => foldl (fun l v => remove_text v l) l vs)
                      else no_update) (fun _ => False) pc pc'.
Proof.
  intros Hd H Hpc. pose proof (opt_section d d' rc name s (remove_allowed vs) Hd H) as Ho.
  pose proof (section_pc_section rc name s pc Hpc) as Hsec.
  destruct (section rc name s) as [sec|] eqn:E.
  - destruct (decode_section (name, s) _ _ d d' rc (implements_remove vs) Hd Ho) as (pc' & H1 & H2).
    exists pc'. split; [done|]. cbn [fst snd] in H2. rewrite Hpc in H2. cbn [default from_option id] in H2.
    destruct H2 as [H2 H3]. split; [done|].
    intros s'. rewrite H3. split; [|tauto]. intros [?| ->]; [auto|]. left. apply Hsec. eauto.
  - subst d'. exists pc. split.
    + rewrite insert_id by done. destruct rc; done.
    + split; [|intros; tauto]. intros s'. destruct (decide (s' = s)) as [->|Hne].
      * destruct (pc_section pc s) as [x|] eqn:Ex.
        -- exfalso. destruct (proj2 Hsec) as [? ?]; [eauto|done].
        -- cbn [default from_option id]. unfold update_section. cbn. by rewrite removes_nil.
      * by rewrite update_section_no.
Qed.

Definition allow_update (s : scope) (api : str) (s' : scope) : update :=
  update_apis (fun l =>
    if decide (s' = s) then insert_text api l
    else if decide (s ∈ chain s') then remove_text api l else l).

Lemma update_no_apis (c : package_config) : update_section (update_apis (fun l => l)) c = c.
Proof. apply update_section_no. Qed.

Lemma decode_allow_api (usable : sandbox_kind -> bool) (b : gmap str api_config) (name : str) (s : scope)
    (api : str) (d d' : table) (rc : raw_config) :
  decode d = Some rc -> apply_edit usable b (AllowApiUsage (name, s) api) d = Some d' ->
  exists pc', decode d' = Some (set_packages rc (<[name := pc']> (rc_packages rc))) /\
    edited (allow_update s api) (fun s' => s' = s) (default package_default (rc_packages rc !! name)) pc'.
Proof.
  intros Hd H. cbn [apply_edit] in H.
  destruct (in_table (pkg_path (name, s)) (add_to_array (lit "allow_apis") [api]) d) as [d1|] eqn:E1; [|done].
  cbn [mbind option_bind] in H.
  destruct (decode_section (name, s) _ _ d d1 rc (implements_apis [api]) Hd E1) as (pc1 & Hd1 & He1).
  cbn [fst snd] in *. change (foldl (fun l v => insert_text v l) ?l [api]) with (insert_text api l) in He1.
  set (pc0 := default package_default (rc_packages rc !! name)) in *.
  assert (Hstep : forall dd sd dd' pcx (U : scope -> update) (n : scope -> Prop),
    decode dd = Some (set_packages rc (<[name := pcx]> (rc_packages rc))) ->
    edited U n pc0 pcx ->
    remove_apis (name, sd) [api] dd = Some dd' ->
    exists pcy, decode dd' = Some (set_packages rc (<[name := pcy]> (rc_packages rc))) /\
      edited (fun s' => then_update (U s') (if decide (s' = sd) then update_apis (remove_text api) else no_update))
        n pc0 pcy).
  { intros dd sd dd' pcx U n Hdd Hex Hr.
    destruct (decode_remove name sd [api] dd dd' _ pcx Hdd Hr) as (pcy & G1 & G2).
    { cbn. apply lookup_insert. }
    exists pcy. split.
    - rewrite G1. cbn [rc_packages set_packages]. by rewrite insert_insert.
    - eapply edited_ext; [apply (edited_then _ _ _ _ _ _ _ Hex G2)|done|]. intros s'. tauto. }
  destruct s; cbn [descendants child_scopes map app concat fst snd foldl mbind option_bind] in H.
  - (* All *)
    destruct (remove_apis (name, FromBuild) [api] d1) as [d2|] eqn:E2; [|done].
    cbn [mbind option_bind] in H.
    destruct (remove_apis (name, FromTest) [api] d2) as [d3|] eqn:E3; [|done].
    cbn [mbind option_bind] in H.
    destruct (remove_apis (name, Build) [api] d3) as [d4|] eqn:E4; [|done].
    cbn [mbind option_bind] in H.
    destruct (Hstep _ _ _ _ _ _ Hd1 He1 E2) as (pc2 & Hd2 & He2).
    destruct (Hstep _ _ _ _ _ _ Hd2 He2 E3) as (pc3 & Hd3 & He3).
    destruct (Hstep _ _ _ _ _ _ Hd3 He3 E4) as (pc4 & Hd4 & He4).
    destruct (Hstep _ _ _ _ _ _ Hd4 He4 H) as (pc5 & Hd5 & He5).
    exists pc5. split; [done|]. eapply edited_ext; [apply He5| |done].
    intros s' c. by destruct s'.
  - injection H as <-. exists pc1. split; [done|]. eapply edited_ext; [apply He1| |done].
    intros s' c. destruct s'; try done; by rewrite update_section_no, update_no_apis.
  - injection H as <-. exists pc1. split; [done|]. eapply edited_ext; [apply He1| |done].
    intros s' c. destruct s'; try done; by rewrite update_section_no, update_no_apis.
  - destruct (Hstep _ _ _ _ _ _ Hd1 He1 H) as (pc2 & Hd2 & He2).
    exists pc2. split; [done|]. eapply edited_ext; [apply He2| |done].
    intros s' c. by destruct s'.
  - destruct (Hstep _ _ _ _ _ _ Hd1 He1 H) as (pc2 & Hd2 & He2).
    exists pc2. split; [done|]. eapply edited_ext; [apply He2| |done].
    intros s' c. by destruct s'.
Qed.

Lemma eff_agree (a : aspect) (rc rc' : raw_config) (name : str) (s : scope) :
  rc_sandbox rc' = rc_sandbox rc ->
  (forall s', s' ∈ chain s -> agree a (sec0 rc name s') (sec0 rc' name s')) ->
  agree a (eff rc name s) (eff rc' name s).
Proof.
  intros Hsb H. rewrite <- Forall_forall in H.
  assert (G : forall x x' y y', agree a x x' -> agree a y y' -> agree a (package_inherit x y) (package_inherit x' y')).
  { intros x x' y y'. destruct a; cbn [agree package_inherit pc_allow_unsafe pc_allow_extern pc_allow_proc_macro
      pc_allow_build_instructions pc_allow_apis pc_sandbox]; intros -> ->; done. }
  assert (GG : agree a (global_of (rc_sandbox rc)) (global_of (rc_sandbox rc'))).
  { rewrite Hsb. by destruct a. }
  destruct s; cbn [chain] in H; unfold eff, eff_local, eff_from, eff_all, local_parent_scope;
    repeat match goal with H : Forall _ (_ :: _) |- _ => apply Forall_cons in H as [? H] end; auto 10.
Qed.

Lemma insert_text_elem (v y : str) (l : list str) : y ∈ insert_text v l <-> y = v \/ y ∈ l.
Proof.
  induction l as [|e l IH]; cbn [insert_text].
  - rewrite elem_of_list_singleton. split; [auto|]. intros [?|?%elem_of_nil]; done.
  - destruct (str_leb v e).
    + destruct (str_eqb e v) eqn:E; rewrite !elem_of_cons; [|tauto].
      apply str_eqb_spec in E as ->. tauto.
    + rewrite !elem_of_cons, IH. tauto.
Qed.

Lemma insert_text_NoDup (v : str) (l : list str) : v ∉ l -> NoDup l -> NoDup (insert_text v l).
Proof.
  induction l as [|e l IH]; cbn [insert_text]; intros Hv Hnd.
  - apply NoDup_singleton.
  - rewrite not_elem_of_cons in Hv. destruct Hv as [Hne Hv].
    destruct (str_leb v e); [destruct (str_eqb e v); [done|]|].
    + apply NoDup_cons. split; [|done]. rewrite not_elem_of_cons. done.
    + apply NoDup_cons in Hnd as [He Hnd]. apply NoDup_cons. split; [|auto].
      rewrite insert_text_elem. intros [?|?]; [congruence|done].
Qed.

Lemma remove_text_elem (v y : str) (l : list str) :
  NoDup l -> y ∈ remove_text v l <-> y <> v /\ y ∈ l.
Proof.
  induction l as [|e l IH]; cbn [remove_text]; intros Hnd.
  - rewrite elem_of_nil. tauto.
  - apply NoDup_cons in Hnd as [He Hnd]. destruct (str_eqb e v) eqn:E.
    + apply str_eqb_spec in E as ->. rewrite elem_of_cons. split.
      * intros Hy. split; [congruence|auto].
      * intros [? [?|?]]; [done|done].
    + rewrite !elem_of_cons, IH by done. split; [|tauto].
      intros [->|[? ?]]; [|auto]. split; [|auto]. intros ->. by rewrite str_eqb_refl in E.
Qed.

Lemma remove_text_subset (v y : str) (l : list str) : y ∈ remove_text v l -> y ∈ l.
Proof.
  induction l as [|e l IH]; cbn [remove_text]; [done|].
  destruct (str_eqb e v); [by right|]. intros [->|?]%elem_of_cons; [left|right; auto].
Qed.

Lemma remove_text_NoDup (v : str) (l : list str) : NoDup l -> NoDup (remove_text v l).
Proof.
  induction l as [|e l IH]; cbn [remove_text]; [done|]. intros [He Hnd]%NoDup_cons.
  destruct (str_eqb e v); [done|]. apply NoDup_cons. split; [|auto]. by intros ?%remove_text_subset.
Qed.

(** The lists of APIs of a valid configuration. *)
Lemma well_formed_sec0 (rc : raw_config) (name : str) (s : scope) :
  well_formed rc ->
  (forall a, a ∈ pc_allow_apis (sec0 rc name s) -> is_Some (rc_apis rc !! a)) /\
  NoDup (pc_allow_apis (sec0 rc name s)).
Proof.
  intros [_ W]. destruct (section rc name s) as [sec|] eqn:E.
  - rewrite (sec0_apis _ _ _ _ E). destruct (W name s sec E) as (W1 & W2 & _). done.
  - rewrite (sec0_absent _ _ _ E). split; [by intros a ?%elem_of_nil|constructor].
Qed.

Lemma eff_apis_sec0 (rc : raw_config) (name : str) (s : scope) (x : str) :
  x ∈ pc_allow_apis (eff rc name s) <-> exists s', s' ∈ chain s /\ x ∈ pc_allow_apis (sec0 rc name s').
Proof.
  rewrite (eff_list pc_allow_apis) by done. unfold on_chain. split.
  - intros (s' & sec & H1 & H2 & H3). exists s'. split; [done|]. by rewrite (sec0_apis _ _ _ _ H2).
  - intros (s' & H1 & H2). apply (sec0_list pc_allow_apis) in H2 as (sec & H2 & H3); [|done|done]. eauto.
Qed.

Lemma chain_self (s : scope) : s ∈ chain s.
Proof. destruct s; left. Qed.

Section effects.
  Context (b : gmap str api_config) (ex : str -> list nat -> option (gmap str api_config))
    (idx : crate_index) (root : str) (usable : sandbox_kind -> bool).

  Lemma load_document_inv (d : table) (c : config) :
    load_document b ex idx root d = Some (Loaded c) ->
    exists rc, decode d = Some rc /\ load_config b ex idx (Some root) rc = Loaded c.
  Proof.
    unfold load_document. destruct (decode d) as [rc|]; [|done]. intros H. exists rc. split; [done|].
    cbn in H. congruence.
  Qed.

  Lemma index_package (name : str) (s : scope) :
    index_selector idx name s -> exists p, p ∈ idx /\ pk_name p = name.
  Proof. intros (p & H1 & H2 & _). eauto. Qed.

  (** What the selectors of a package are granted. *)
  Lemma loaded_eff (rc : raw_config) (c : config) (name : str) (s : scope) (e : package_config) :
    load_config b ex idx (Some root) rc = Loaded c -> (exists p, p ∈ idx /\ pk_name p = name) ->
    cf_permissions c !! (name, s) = Some e -> e = eff (cf_raw c) name s.
  Proof.
    intros Hl (p & Hp & <-). destruct (load_config_inv _ _ _ _ _ _ Hl) as (_ & _ & _ & _ & _ & _ & ->).
    cbn [cf_permissions cf_raw]. rewrite (effective_lookup _ idx p) by done. destruct (decide _); [|done]. congruence.
  Qed.

  Lemma allow_api_effect (name : str) (s : scope) (api : str) (d d' : table) (c : config) :
    load_document b ex idx root d = Some (Loaded c) ->
    index_selector idx name s ->
    is_Some (rc_apis (cf_raw c) !! api) ->
    (forall e, cf_permissions c !! (name, s) = Some e -> api ∉ pc_allow_apis e) ->
    apply_edit usable b (AllowApiUsage (name, s) api) d = Some d' ->
    exists c', load_document b ex idx root d' = Some (Loaded c') /\
      changes_only c c' name s AApis (fun e e' => adds api (pc_allow_apis e) (pc_allow_apis e')).
  Proof.
    intros (rc & Hd & Hl)%load_document_inv Hidx Hknown Hnot He.
    destruct (decode_allow_api usable b name s api d d' rc Hd He) as (pc' & Hd' & Hed).
    destruct (load_config_inv _ _ _ _ _ _ Hl) as (_ & _ & _ & _ & _ & Hval & Hc).
    apply validate_spec in Hval.
    assert (Hperm : cf_permissions c !! (name, s) = Some (eff (cf_raw c) name s)).
    { rewrite Hc. cbn [cf_permissions cf_raw]. destruct (index_package _ _ Hidx) as (p & Hp & <-).
      rewrite (effective_lookup _ idx p) by done. by rewrite decide_True by auto. }
    specialize (Hnot _ Hperm). rewrite eff_apis_sec0 in Hnot.
    assert (Hnot2 : forall s', s' ∈ chain s -> api ∉ pc_allow_apis (sec0 (cf_raw c) name s')).
    { intros s' H1 H2. eauto. }
    destruct (edited_reload b ex idx root rc c name _ _ pc' Hl (index_package _ _ Hidx) Hed) as
      (c' & Hl' & Hset & Hother & Hsec & Hpair).
    - intros s' ->. done.
    - intros s'. destruct (well_formed_sec0 (cf_raw c) name s' Hval) as [W1 W2]. cbn [allow_update update_apis u_apis].
      destruct (decide (s' = s)) as [->|Hne].
      + split; [|apply insert_text_NoDup; [apply Hnot2, chain_self|done]].
        intros a [->|Ha]%insert_text_elem; auto.
      + destruct (decide (s ∈ chain s')); [|done].
        split; [|by apply remove_text_NoDup]. intros a Ha%remove_text_subset. auto.
    - exists c'. split; [unfold load_document; rewrite Hd'; cbn; congruence|].
      split; [done|]. intros [k s']. destruct (decide (k = name)) as [->|Hne].
      2: { rewrite Hother by done. cbn [fst snd]. destruct (cf_permissions c !! (k, s')); [|done].
           split_and!; [intros []; done|tauto|done]. }
      specialize (Hpair s').
      destruct (cf_permissions c !! (name, s')) as [e|], (cf_permissions c' !! (name, s')) as [e'|]; try done.
      destruct Hpair as [-> ->]. destruct Hset as (_ & _ & _ & Hsb & _). split_and!.
      + intros a Ha. apply eff_agree; [done|]. intros s'' _. rewrite Hsec.
        destruct a; try done. cbn [agree update_section pc_sandbox]. by destruct (pc_sandbox _).
      + intros [_ Hin]. cbn [snd] in Hin. intros y. rewrite !eff_apis_sec0.
        setoid_rewrite Hsec. cbn [update_section pc_allow_apis allow_update update_apis u_apis].
        split.
        * intros (s'' & Hc1 & Hy). destruct (decide (s'' = s)) as [->|Hne].
          -- apply insert_text_elem in Hy as [->|Hy]; eauto.
          -- destruct (decide (s ∈ chain s'')); [apply remove_text_subset in Hy|]; eauto.
        * intros [->|(s'' & Hc1 & Hy)].
          -- exists s. split; [done|]. rewrite decide_True by done. apply insert_text_elem. auto.
          -- destruct (decide (y = api)) as [->|Hya].
             ++ exists s. split; [done|]. rewrite decide_True by done. apply insert_text_elem. auto.
             ++ exists s''. split; [done|]. destruct (decide (s'' = s)); [apply insert_text_elem; auto|].
                destruct (decide (s ∈ chain s'')); [|done].
                apply remove_text_elem; [|done]. by apply well_formed_sec0.
      + intros Hno. apply eff_agree; [done|]. intros s'' Hc1. rewrite Hsec.
        cbn [agree update_section pc_allow_apis allow_update update_apis u_apis].
        assert (Hn : s ∉ chain s'').
        { intros Hx. apply Hno. split; [done|]. cbn [snd]. clear -Hc1 Hx.
          destruct s'; cbn [chain] in *; repeat (apply elem_of_cons in Hc1 as [->|Hc1]; [|]);
            try (by apply elem_of_nil in Hc1); cbn [chain] in Hx; rewrite ?elem_of_cons in *; tauto. }
        rewrite decide_False by (intros ->; apply Hn, chain_self). by rewrite decide_False by done.
  Qed.

  Lemma section_effect (name : str) (s : scope) (f : table -> option table) (u : update) (a : aspect)
      (P : package_config -> package_config -> Prop) (d d' : table) (c : config) :
    load_document b ex idx root d = Some (Loaded c) ->
    index_selector idx name s ->
    implements f (update_section u) ->
    (forall l, u_apis u l = l) ->
    (forall x a', a' <> a -> agree a' x (update_section u x)) ->
    (forall rc rc' s', s ∈ chain s' -> rc_sandbox rc' = rc_sandbox rc ->
       (forall s'', sec0 rc' name s'' =
          if decide (s'' = s) then update_section u (sec0 rc name s'') else sec0 rc name s'') ->
       P (eff rc name s') (eff rc' name s')) ->
    in_table (pkg_path (name, s)) f d = Some d' ->
    exists c', load_document b ex idx root d' = Some (Loaded c') /\ changes_only c c' name s a P.
  Proof.
    intros (rc & Hd & Hl)%load_document_inv Hidx Hf Hapis Hagree HP He.
    destruct (decode_section (name, s) f u d d' rc Hf Hd He) as (pc' & Hd' & Hed). cbn [fst snd] in *.
    destruct (load_config_inv _ _ _ _ _ _ Hl) as (_ & _ & _ & _ & _ & Hval & Hc).
    apply validate_spec in Hval.
    destruct (edited_reload b ex idx root rc c name _ _ pc' Hl (index_package _ _ Hidx) Hed) as
      (c' & Hl' & Hset & Hother & Hsec & Hpair).
    - intros s' ->. done.
    - intros s'. destruct (well_formed_sec0 (cf_raw c) name s' Hval) as [W1 W2].
      destruct (decide (s' = s)); [by rewrite Hapis|done].
    - exists c'. split; [unfold load_document; rewrite Hd'; cbn; congruence|].
      split; [done|]. intros [k s']. destruct (decide (k = name)) as [->|Hne].
      2: { rewrite Hother by done. cbn [fst snd]. destruct (cf_permissions c !! (k, s')); [|done].
           split_and!; [intros []; done|tauto|by destruct a]. }
      specialize (Hpair s').
      destruct (cf_permissions c !! (name, s')) as [e|], (cf_permissions c' !! (name, s')) as [e'|]; try done.
      destruct Hpair as [-> ->]. destruct Hset as (_ & _ & _ & Hsb & _).
      assert (Hsec2 : forall s'', sec0 (cf_raw c') name s'' =
          if decide (s'' = s) then update_section u (sec0 (cf_raw c) name s'') else sec0 (cf_raw c) name s'').
      { intros s''. rewrite Hsec. destruct (decide (s'' = s)); [done|]. apply update_section_no. }
      split_and!.
      + intros a' Ha. apply eff_agree; [done|]. intros s'' _. rewrite Hsec2.
        destruct (decide (s'' = s)); [auto|by destruct a'].
      + intros [_ Hin]. by apply HP.
      + intros Hno. apply eff_agree; [done|]. intros s'' Hc1. rewrite Hsec2.
        rewrite decide_False; [by destruct a|]. intros ->. apply Hno. done.
  Qed.
End effects.

Lemma eff_flag_sec0 (f : package_config -> bool) (rc : raw_config) (name : str) (s : scope) :
  (forall pc, f (without_subsections pc) = f pc) -> f package_default = false ->
  (forall a b, f (package_inherit a b) = f a || f b) -> f (global_of (rc_sandbox rc)) = false ->
  f (eff rc name s) = true <-> exists s', s' ∈ chain s /\ f (sec0 rc name s') = true.
Proof.
  intros H1 H2 H3 H4. rewrite (eff_flag f) by done. unfold on_chain. split.
  - intros (s' & sec & G1 & G2 & G3). exists s'. split; [done|]. apply (sec0_flag f); eauto.
  - intros (s' & G1 & G2). apply (sec0_flag f) in G2 as (sec & G2 & G3); [|done|done]. eauto.
Qed.

Lemma eff_list_sec0 (f : package_config -> list str) (rc : raw_config) (name : str) (s : scope) (x : str) :
  (forall pc, f (without_subsections pc) = f pc) -> f package_default = [] ->
  (forall a b, f (package_inherit a b) = merge_string_vec (f a) (f b)) -> f (global_of (rc_sandbox rc)) = [] ->
  x ∈ f (eff rc name s) <-> exists s', s' ∈ chain s /\ x ∈ f (sec0 rc name s').
Proof.
  intros H1 H2 H3 H4. rewrite (eff_list f) by done. unfold on_chain. split.
  - intros (s' & sec & G1 & G2 & G3). exists s'. split; [done|]. apply (sec0_list f); eauto.
  - intros (s' & G1 & G2). apply (sec0_list f) in G2 as (sec & G2 & G3); [|done|done]. eauto.
Qed.

Section fixes_effects.
  Context (b : gmap str api_config) (ex : str -> list nat -> option (gmap str api_config))
    (idx : crate_index) (root : str) (usable : sandbox_kind -> bool).

  Ltac agree_cases := intros x a' Ha; destruct a'; try done;
    cbn [agree update_section pc_sandbox]; by destruct (pc_sandbox x).

  Lemma unsafe_effect (name : str) (s : scope) (d d' : table) (c : config) :
    load_document b ex idx root d = Some (Loaded c) -> index_selector idx name s ->
    apply_edit usable b (AllowUnsafe (name, s)) d = Some d' ->
    exists c', load_document b ex idx root d' = Some (Loaded c') /\
      changes_only c c' name s AUnsafe (fun _ e' => pc_allow_unsafe e' = true).
  Proof.
    intros Hl Hi He. apply (section_effect b ex idx root name s (fun t => Some (put (lit "allow_unsafe") (Flag true) t)) set_unsafe) with (d := d); try done.
    - apply implements_unsafe.
    - agree_cases.
    - intros rc rc' s' Hs' _ Hsec. apply (eff_flag_sec0 pc_allow_unsafe); try done.
      exists s. split; [done|]. by rewrite Hsec, decide_True.
  Qed.

  Lemma extern_effect (name : str) (s : scope) (d d' : table) (c : config) :
    load_document b ex idx root d = Some (Loaded c) -> index_selector idx name s ->
    apply_edit usable b (AllowExtern (name, s)) d = Some d' ->
    exists c', load_document b ex idx root d' = Some (Loaded c') /\
      changes_only c c' name s AExtern (fun _ e' => pc_allow_extern e' = true).
  Proof.
    intros Hl Hi He. apply (section_effect b ex idx root name s (fun t => Some (put (lit "allow_extern") (Flag true) t)) set_extern) with (d := d); try done.
    - apply implements_extern.
    - agree_cases.
    - intros rc rc' s' Hs' _ Hsec. apply (eff_flag_sec0 pc_allow_extern); try done.
      exists s. split; [done|]. by rewrite Hsec, decide_True.
  Qed.

  Lemma proc_macro_effect (name : str) (s : scope) (d d' : table) (c : config) :
    load_document b ex idx root d = Some (Loaded c) -> index_selector idx name s ->
    apply_edit usable b (AllowProcMacro (name, s)) d = Some d' ->
    exists c', load_document b ex idx root d' = Some (Loaded c') /\
      changes_only c c' name s AProcMacro (fun _ e' => pc_allow_proc_macro e' = true).
  Proof.
    intros Hl Hi He. apply (section_effect b ex idx root name s (fun t => Some (put (lit "allow_proc_macro") (Flag true) t)) set_proc_macro) with (d := d); try done.
    - apply implements_proc_macro.
    - agree_cases.
    - intros rc rc' s' Hs' _ Hsec. apply (eff_flag_sec0 pc_allow_proc_macro); try done.
      exists s. split; [done|]. by rewrite Hsec, decide_True.
  Qed.

  Lemma instruction_effect (name : str) (s : scope) (i : str) (d d' : table) (c : config) :
    load_document b ex idx root d = Some (Loaded c) -> index_selector idx name s ->
    apply_edit usable b (AllowBuildInstruction (name, s) i) d = Some d' ->
    exists c', load_document b ex idx root d' = Some (Loaded c') /\
      changes_only c c' name s AInstructions
        (fun e e' => adds i (pc_allow_build_instructions e) (pc_allow_build_instructions e')).
  Proof.
    intros Hl Hi He. apply (section_effect b ex idx root name s
      (add_to_array (lit "allow_build_instructions") [i])
      (update_instructions (fun l => foldl (fun l v => insert_text v l) l [i]))) with (d := d); try done.
    - apply implements_instructions.
    - agree_cases.
    - intros rc rc' s' Hs' _ Hsec x. rewrite !(eff_list_sec0 pc_allow_build_instructions) by done. split.
      + intros (s'' & Hin & Hx). rewrite Hsec in Hx. destruct (decide (s'' = s)) as [->|].
        * cbn in Hx. apply insert_text_elem in Hx as [->|Hx]; eauto.
        * eauto.
      + intros [->|(s'' & Hin & Hx)].
        * exists s. split; [done|]. rewrite Hsec, decide_True by done. cbn. apply insert_text_elem. auto.
        * exists s''. split; [done|]. rewrite Hsec. destruct (decide (s'' = s)); [|done].
          cbn. apply insert_text_elem. auto.
  Qed.

  Lemma chain_build (s : scope) : Build ∈ chain s -> s = Build.
  Proof. destruct s; cbn [chain]; rewrite ?elem_of_cons, elem_of_nil; intros; intuition congruence. Qed.

  Lemma network_effect (name : str) (d d' : table) (c : config) :
    load_document b ex idx root d = Some (Loaded c) -> index_selector idx name Build ->
    apply_edit usable b (SandboxAllowNetwork (name, Build)) d = Some d' ->
    exists c', load_document b ex idx root d' = Some (Loaded c') /\
      changes_only c c' name Build ASandbox (fun e e' =>
        pc_sandbox e' = SandboxConfig (sb_kind (pc_sandbox e)) (sb_extra_args (pc_sandbox e)) (Some true)
          (sb_bind_writable (pc_sandbox e)) (sb_make_writable (pc_sandbox e)) (sb_pass_env (pc_sandbox e))).
  Proof.
    intros Hl Hi He. cbn [apply_edit] in He. unfold set_in_sandbox in He. rewrite in_table_app in He.
    apply (section_effect b ex idx root name Build
      (in_table [lit "sandbox"] (fun t => Some (put (lit "allow_network") (Flag true) t)))
      (set_network true)) with (d := d); try done.
    - apply implements_network.
    - agree_cases.
    - intros rc rc' s' ->%chain_build Hsb Hsec. unfold eff, eff_local, eff_from, eff_all.
      cbn [local_parent_scope]. rewrite !Hsec. by rewrite Hsb.
  Qed.

  Lemma disable_effect (name : str) (d d' : table) (c : config) :
    load_document b ex idx root d = Some (Loaded c) -> index_selector idx name Build ->
    apply_edit usable b (DisableSandbox (name, Build)) d = Some d' ->
    exists c', load_document b ex idx root d' = Some (Loaded c') /\
      changes_only c c' name Build ASandbox (fun e e' =>
        pc_sandbox e' = SandboxConfig (Some Disabled) (sb_extra_args (pc_sandbox e)) (sb_allow_network (pc_sandbox e))
          (sb_bind_writable (pc_sandbox e)) (sb_make_writable (pc_sandbox e)) (sb_pass_env (pc_sandbox e))).
  Proof.
    intros Hl Hi He. cbn [apply_edit] in He. unfold set_in_sandbox in He. rewrite in_table_app in He.
    apply (section_effect b ex idx root name Build
      (in_table [lit "sandbox"] (fun t => Some (put (lit "kind") (Text (lit "Disabled")) t)))
      (set_kind Disabled)) with (d := d); try done.
    - apply implements_disabled.
    - agree_cases.
    - intros rc rc' s' ->%chain_build Hsb Hsec. unfold eff, eff_local, eff_from, eff_all.
      cbn [local_parent_scope]. rewrite !Hsec. by rewrite Hsb.
  Qed.
End fixes_effects.
