(** Proofs about the format of the configuration file. *)
From Verif Require Import Base BaseFacts ApiMapModel ConfigModel ConfigSpec ConfigProofs ConfigLoadProofs
  TomlModel TomlProofs EditorSpec DocumentSpec ReloadProofs.

(** ** Paths *)
Fixpoint sub (p : list str) (t : table) : option table :=
  match p with
  | [] => Some t
  | k :: p => i ← get k t; u ← table_of i; sub p u
  end.

Lemma at_path_sub (p : list str) (k : str) (t : table) : at_path (p ++ [k]) t = sub p t ≫= get k.
Proof.
  revert t. induction p as [|k' p IH]; intros t; [done|].
  assert (Hs : at_path ((k' :: p) ++ [k]) t =
    match get k' t with Some (Table u) | Some (Inline u) => at_path (p ++ [k]) u | _ => None end)
    by by destruct p.
  rewrite Hs. cbn [sub]. destruct (get k' t) as [i|]; [|done]. cbn [mbind option_bind].
  destruct i; cbn [table_of mbind option_bind]; try done; apply IH.
Qed.

Lemma sub_app (p q : list str) (t : table) : sub (p ++ q) t = sub p t ≫= sub q.
Proof.
  revert t. induction p as [|k p IH]; intros t; [done|]. cbn [app sub].
  destruct (get k t) as [i|]; [|done]. cbn [mbind option_bind].
  destruct (table_of i) as [u|]; [|done]. cbn [mbind option_bind]. apply IH.
Qed.

Lemma sub_at (p : list str) (k : str) (t : table) :
  sub (p ++ [k]) t = at_path (p ++ [k]) t ≫= table_of.
Proof.
  rewrite sub_app, at_path_sub. destruct (sub p t) as [u|]; [|done]. cbn [mbind option_bind sub].
  destruct (get k u) as [i|]; [|done]. cbn [mbind option_bind]. by destruct (table_of i).
Qed.

Lemma at_path_cons (k : str) (p : list str) (t : table) (x : item) :
  at_path (k :: p) t = Some x ->
  exists i, get k t = Some i /\
    ((p = [] /\ x = i) \/ exists u, table_of i = Some u /\ p <> [] /\ at_path p u = Some x).
Proof.
  destruct p as [|k2 p]; cbn [at_path].
  - intros H. exists x. auto.
  - destruct (get k t) as [i|]; [|done]. intros H. exists i. split; [done|]. right.
    by destruct i as [| | | | |u|u]; try done; exists u.
Qed.

Lemma known_get {A} (names : list str) (t : list (str * A)) (k : str) (a : A) :
  known names t = true -> get k t = Some a -> k ∈ names.
Proof.
  unfold known. rewrite forallb_forall. intros H Hg. apply get_in in Hg. apply elem_of_list_In in Hg.
  specialize (H _ Hg). by apply mem_str_spec in H.
Qed.

(** ** Settings *)
Lemma texts_of_inv (i : item) (l : list str) : texts_of i = Some l -> i = Array (map Text l).
Proof.
  destruct i as [| | | |is| |]; try done. cbn [texts_of]. intros H. f_equal. revert l H.
  induction is as [|i is IH]; intros l; cbn [mapM].
  - by intros [= <-].
  - destruct i as [s| | | | | |]; try done. cbn [text_of mbind option_bind].
    destruct (mapM text_of is) as [l'|]; [|done]. cbn [mbind option_bind]. intros [= <-]. cbn [map]. by rewrite (IH l').
Qed.

Lemma flag_of_inv (i : item) (b : bool) : flag_of i = Some b -> i = Flag b.
Proof. destruct i; try done. by intros [= ->]. Qed.

Lemma kind_of_inv (i : item) (k : sandbox_kind) :
  kind_of i = Some k -> i = Text (match k with Disabled => lit "Disabled" | Bubblewrap => lit "Bubblewrap" end).
Proof.
  destruct i as [s| | | | | |]; try done. cbn [kind_of].
  destruct (str_eqb s (lit "Disabled")) eqn:E; [apply str_eqb_spec in E as ->; by intros [= <-]|].
  destruct (str_eqb s (lit "Bubblewrap")) eqn:E2; [apply str_eqb_spec in E2 as ->; by intros [= <-]|done].
Qed.

Section settings.
  Context (p : list str) (d t : table) (Hp : sub p d = Some t).

  Lemma at_setting (k : str) : at_path (p ++ [k]) d = get k t.
  Proof using Hp. by rewrite at_path_sub, Hp. Qed.

  Lemma flag_setting (k : str) (b : bool) : field k false flag_of t = Some b -> flag_at (p ++ [k]) d b.
  Proof using Hp.
    unfold field, flag_at. rewrite at_setting. destruct (get k t) as [i|]; [|intros [= <-]; auto].
    intros ->%flag_of_inv. auto.
  Qed.

  Lemma opt_flag_setting (k : str) (b : option bool) :
    opt_field k flag_of t = Some b -> opt_flag_at (p ++ [k]) d b.
  Proof using Hp.
    unfold opt_field, opt_flag_at. rewrite at_setting. destruct (get k t) as [i|]; [|by intros [= <-]].
    destruct (flag_of i) as [x|] eqn:E; [|done]. intros [= <-]. by apply flag_of_inv in E as ->.
  Qed.

  Lemma texts_setting (k : str) (l : list str) : field k [] texts_of t = Some l -> texts_at (p ++ [k]) d l.
  Proof using Hp.
    unfold field, texts_at. rewrite at_setting. destruct (get k t) as [i|]; [|intros [= <-]; auto].
    intros ->%texts_of_inv. auto.
  Qed.

  Lemma opt_texts_setting (k : str) (l : option (list str)) :
    opt_field k texts_of t = Some l -> at_path (p ++ [k]) d = (fun l => Array (map Text l)) <$> l.
  Proof using Hp.
    unfold opt_field. rewrite at_setting. destruct (get k t) as [i|]; [|by intros [= <-]].
    destruct (texts_of i) as [x|] eqn:E; [|done]. intros [= <-]. by apply texts_of_inv in E as ->.
  Qed.

  Lemma kind_setting (k : str) (x : option sandbox_kind) :
    opt_field k kind_of t = Some x -> kind_at (p ++ [k]) d x.
  Proof using Hp.
    unfold opt_field, kind_at. rewrite at_setting. destruct (get k t) as [i|]; [|by intros [= <-]].
    destruct (kind_of i) as [y|] eqn:E; [|done]. intros [= <-]. by apply kind_of_inv in E as ->.
  Qed.

  Lemma sub_table (k : str) (i : item) (u : table) :
    get k t = Some i -> table_of i = Some u -> sub (p ++ [k]) d = Some u /\ table_at (p ++ [k]) d.
  Proof using Hp.
    intros H1 H2. split.
    - rewrite sub_app, Hp. cbn [sub mbind option_bind]. by rewrite H1; cbn; rewrite H2.
    - unfold table_at. rewrite at_setting, H1. destruct i as [| | | | |x|x]; try done; eauto.
  Qed.
End settings.

Lemma absent_setting (p : list str) (k : str) (d : table) : sub p d = None -> at_path (p ++ [k]) d = None.
Proof. intros H. by rewrite at_path_sub, H. Qed.

Lemma of_table {A} (f : item -> option A) (i : item) (a : A) :
  (forall i a, f i = Some a -> is_Some (table_of i)) ->
  (forall t, f (Inline t) = f (Table t)) ->
  f i = Some a -> exists t, table_of i = Some t /\ f (Table t) = Some a.
Proof.
  intros H1 H2 Hi. destruct (H1 _ _ Hi) as [t Ht]. exists t. split; [done|].
  destruct i; try done; injection Ht as ->; [by rewrite H2 in Hi|done].
Qed.

Lemma sandbox_of_table (i : item) (sb : sandbox_config) :
  sandbox_of i = Some sb -> exists t, table_of i = Some t /\ sandbox_is t sb.
Proof.
  intros H. apply of_table in H as (t & H1 & H2); [|by intros [] ? ?|done].
  exists t. by rewrite <- sandbox_is_iff.
Qed.
Lemma api_of_table (i : item) (ac : api_config) :
  api_of i = Some ac -> exists t, table_of i = Some t /\ api_is t ac.
Proof.
  intros H. apply of_table in H as (t & H1 & H2); [|by intros [] ? ?|done].
  exists t. by rewrite <- api_is_iff.
Qed.
Lemma package_of_table (i : item) (pc : package_config) :
  package_of i = Some pc -> exists t, table_of i = Some t /\ section_is t pc.
Proof.
  intros H. apply of_table in H as (t & H1 & H2); [|by intros [] ? ?|done].
  exists t. by rewrite <- section_is_iff.
Qed.
Lemma from_item_table (i : item) (fc : from_config) :
  from_item i = Some fc -> exists t, table_of i = Some t /\ from_is t fc.
Proof.
  intros H. apply of_table in H as (t & H1 & H2); [|by intros [] ? ?|done].
  exists t. by rewrite <- from_is_iff.
Qed.
Lemma map_of_table {A} (f : item -> option A) (i : item) (m : gmap str A) :
  map_of f i = Some m -> exists t, table_of i = Some t /\
    (forall e, e ∈ t -> is_Some (f e.2)) /\ (forall k, m !! k = get k t ≫= f).
Proof.
  intros H. apply of_table in H as (t & H1 & H2); [|by intros [] ? ?|done].
  exists t. by rewrite <- map_of_iff.
Qed.

(** ** What the settings say *)
Lemma sandbox_reads (p : list str) (k : str) (d t : table) (sb : sandbox_config) :
  sub p d = Some t -> field k sandbox_default sandbox_of t = Some sb -> sandbox_at (p ++ [k]) d sb.
Proof.
  intros Hp. unfold field. destruct (get k t) as [i|] eqn:E.
  - intros (u & Hu & H)%sandbox_of_table. destruct (sub_table p d t Hp k i u E Hu) as [Hs _].
    destruct H as (_ & H1 & H2 & H3 & H4 & H5 & H6). split_and!.
    + by eapply kind_setting.
    + by eapply texts_setting.
    + by eapply opt_flag_setting.
    + by eapply texts_setting.
    + by eapply texts_setting.
    + by eapply texts_setting.
  - intros [= <-]. assert (Hn : sub (p ++ [k]) d = None).
    { rewrite sub_app, Hp. cbn [sub mbind option_bind]. by rewrite E. }
    unfold sandbox_at, kind_at, texts_at, opt_flag_at. rewrite !absent_setting by done. cbn. auto 10.
Qed.

Lemma section_reads (p : list str) (k : str) (i : item) (d t : table) (pc : package_config) :
  sub p d = Some t -> get k t = Some i -> package_of i = Some pc -> section_at (p ++ [k]) d pc.
Proof.
  intros Hp E (u & Hu & H)%package_of_table. destruct (sub_table p d t Hp k i u E Hu) as [Hs Ht].
  destruct H as (_ & H1 & H2 & H3 & H4 & H5 & _ & _ & _ & H9 & H10). split_and!; [done|..].
  - by eapply flag_setting.
  - by eapply flag_setting.
  - by eapply texts_setting.
  - by eapply texts_setting.
  - by eapply flag_setting.
  - by eapply opt_texts_setting.
  - by eapply sandbox_reads.
Qed.

Lemma api_reads (p : list str) (k : str) (i : item) (d t : table) (ac : api_config) :
  sub p d = Some t -> get k t = Some i -> api_of i = Some ac -> api_at (p ++ [k]) d ac.
Proof.
  intros Hp E (u & Hu & H)%api_of_table. destruct (sub_table p d t Hp k i u E Hu) as [Hs Ht].
  destruct H as (_ & H1 & H2 & H3). split_and!; [done|..]; by eapply texts_setting.
Qed.

Lemma not_table (p : list str) (k : str) (d t : table) :
  sub p d = Some t -> get k t = None -> ~ table_at (p ++ [k]) d.
Proof. intros Hp E [u Hu]. rewrite at_path_sub, Hp in Hu. cbn in Hu. rewrite E in Hu. by destruct Hu. Qed.

Lemma not_table_below (p : list str) (k : str) (d : table) : sub p d = None -> ~ table_at (p ++ [k]) d.
Proof. intros Hp [u Hu]. rewrite absent_setting in Hu by done. by destruct Hu. Qed.

(** A package as it is written. *)
Lemma package_reads (d : table) (rc : raw_config) (pkg : str) (s : scope) :
  decode d = Some rc ->
  match section rc pkg s with
  | Some sec => section_at (section_path pkg s) d sec
  | None => ~ table_at (section_path pkg s) d
  end.
Proof.
  intros (_ & _ & _ & Hpkg & _ & _)%document_is_iff. unfold section, field in *.
  destruct (get (lit "pkg") d) as [i|] eqn:E.
  2:{ assert (rc_packages rc = ∅) as -> by congruence. rewrite lookup_empty.
      assert (Hn : sub [lit "pkg"] d = None) by (cbn [sub]; by rewrite E).
      destruct s; unfold section_path; cbn [scope_path app].
      - by apply (not_table_below [lit "pkg"] pkg).
      - apply (not_table_below [lit "pkg"; pkg] (lit "build")). cbn [sub]. by rewrite E.
      - apply (not_table_below [lit "pkg"; pkg] (lit "test")). cbn [sub]. by rewrite E.
      - apply (not_table_below [lit "pkg"; pkg; lit "from"] (lit "build")). cbn [sub]. by rewrite E.
      - apply (not_table_below [lit "pkg"; pkg; lit "from"] (lit "test")). cbn [sub]. by rewrite E. }
  apply map_of_table in Hpkg as (t & Ht & Hall & Hm).
  assert (Hs : sub [lit "pkg"] d = Some t) by (cbn [sub]; by rewrite E; cbn; rewrite Ht).
  rewrite (Hm pkg). destruct (get pkg t) as [j|] eqn:Ej; cbn [mbind option_bind].
  2:{ assert (Hn : sub [lit "pkg"; pkg] d = None).
      { rewrite (sub_app [lit "pkg"] [pkg]), Hs. cbn [sub mbind option_bind]. by rewrite Ej. }
      destruct s; unfold section_path; cbn [scope_path app].
      - by apply (not_table [lit "pkg"] pkg d t).
      - by apply (not_table_below [lit "pkg"; pkg] (lit "build")).
      - by apply (not_table_below [lit "pkg"; pkg] (lit "test")).
      - apply (not_table_below [lit "pkg"; pkg; lit "from"] (lit "build")).
        by rewrite (sub_app [lit "pkg"; pkg] [lit "from"]), Hn.
      - apply (not_table_below [lit "pkg"; pkg; lit "from"] (lit "test")).
        by rewrite (sub_app [lit "pkg"; pkg] [lit "from"]), Hn. }
  destruct (Hall (pkg, j)) as [pc Hpc]; [by apply get_in|]. cbn [snd] in Hpc. rewrite Hpc.
  destruct (package_of_table _ _ Hpc) as (u & Hu & Hsec).
  destruct (sub_table [lit "pkg"] d t Hs pkg j u Ej Hu) as [Hs2 _]. cbn [app] in Hs2.
  destruct Hsec as (_ & _ & _ & _ & _ & _ & H6 & H7 & H8 & _ & _).
  assert (Hsub : forall k o, opt_field k package_of u = Some o ->
    match o with
    | Some sec => section_at ([lit "pkg"; pkg] ++ [k]) d sec
    | None => ~ table_at ([lit "pkg"; pkg] ++ [k]) d
    end).
  { intros k o. unfold opt_field. destruct (get k u) as [x|] eqn:Ex.
    - destruct (package_of x) as [sec|] eqn:Esec; [|done]. intros [= <-]. by eapply section_reads.
    - intros [= <-]. by eapply not_table. }
  destruct s; unfold section_path; cbn [scope_path app].
  - by apply (section_reads [lit "pkg"] pkg j d t pc).
  - by apply (Hsub (lit "build")).
  - by apply (Hsub (lit "test")).
  - unfold opt_field in H8. destruct (get (lit "from") u) as [x|] eqn:Ex.
    + destruct (from_item x) as [fc|] eqn:Ef; [|done]. assert (pc_from pc = Some fc) as -> by (cbn [fmap option_fmap option_map] in *; congruence).
      destruct (from_item_table _ _ Ef) as (w & Hw & (_ & Hb & _)).
      destruct (sub_table _ d u Hs2 (lit "from") x w Ex Hw) as [Hs3 _]. cbn [app] in Hs3.
      unfold opt_field in Hb. destruct (get (lit "build") w) as [y|] eqn:Ey.
      * destruct (package_of y) as [sec|] eqn:Esec; [|done]. assert (fc_build fc = Some sec) as -> by (cbn [fmap option_fmap option_map] in *; congruence).
        by apply (section_reads [lit "pkg"; pkg; lit "from"] (lit "build") y d w sec).
      * assert (fc_build fc = None) as -> by congruence.
        by apply (not_table [lit "pkg"; pkg; lit "from"] (lit "build") d w).
    + assert (pc_from pc = None) as -> by congruence.
      apply (not_table_below [lit "pkg"; pkg; lit "from"] (lit "build")).
      rewrite (sub_app [lit "pkg"; pkg] [lit "from"]), Hs2. cbn [sub mbind option_bind]. by rewrite Ex.
  - unfold opt_field in H8. destruct (get (lit "from") u) as [x|] eqn:Ex.
    + destruct (from_item x) as [fc|] eqn:Ef; [|done]. assert (pc_from pc = Some fc) as -> by (cbn [fmap option_fmap option_map] in *; congruence).
      destruct (from_item_table _ _ Ef) as (w & Hw & (_ & _ & Hb)).
      destruct (sub_table _ d u Hs2 (lit "from") x w Ex Hw) as [Hs3 _]. cbn [app] in Hs3.
      unfold opt_field in Hb. destruct (get (lit "test") w) as [y|] eqn:Ey.
      * destruct (package_of y) as [sec|] eqn:Esec; [|done]. assert (fc_test fc = Some sec) as -> by (cbn [fmap option_fmap option_map] in *; congruence).
        by apply (section_reads [lit "pkg"; pkg; lit "from"] (lit "test") y d w sec).
      * assert (fc_test fc = None) as -> by congruence.
        by apply (not_table [lit "pkg"; pkg; lit "from"] (lit "test") d w).
    + assert (pc_from pc = None) as -> by congruence.
      apply (not_table_below [lit "pkg"; pkg; lit "from"] (lit "test")).
      rewrite (sub_app [lit "pkg"; pkg] [lit "from"]), Hs2. cbn [sub mbind option_bind]. by rewrite Ex.
Qed.

Lemma api_definitions (d : table) (rc : raw_config) (api : str) :
  decode d = Some rc ->
  match rc_apis rc !! api with
  | Some ac => api_at [lit "api"; api] d ac
  | None => ~ table_at [lit "api"; api] d
  end.
Proof.
  intros (_ & _ & Hapi & _ & _ & _)%document_is_iff. unfold field in *.
  destruct (get (lit "api") d) as [i|] eqn:E.
  2:{ assert (rc_apis rc = ∅) as -> by congruence. rewrite lookup_empty.
      apply (not_table_below [lit "api"] api). cbn [sub]. by rewrite E. }
  apply map_of_table in Hapi as (t & Ht & Hall & Hm).
  assert (Hs : sub [lit "api"] d = Some t) by (cbn [sub]; by rewrite E; cbn; rewrite Ht).
  rewrite (Hm api). destruct (get api t) as [j|] eqn:Ej; cbn [mbind option_bind].
  2:{ by apply (not_table [lit "api"] api d t). }
  destruct (Hall (api, j)) as [ac Hac]; [by apply get_in|]. cbn [snd] in Hac. rewrite Hac.
  by apply (api_reads [lit "api"] api j d t ac).
Qed.

Lemma sandboxes (d : table) (rc : raw_config) :
  decode d = Some rc ->
  sandbox_at [lit "sandbox"] d (rc_sandbox rc) /\
  sandbox_at [lit "rustc"; lit "sandbox"] d (rc_rustc_sandbox rc).
Proof.
  intros (_ & _ & _ & _ & Hsb & Hr)%document_is_iff. split.
  - by apply (sandbox_reads [] (lit "sandbox") d d).
  - unfold field in Hr. destruct (get (lit "rustc") d) as [i|] eqn:E.
    + unfold rustc_of in Hr. destruct (table_of i) as [t|] eqn:Ht; [|done]. cbn [mbind option_bind] in Hr.
      destruct (known _ t); [|done].
      apply (sandbox_reads [lit "rustc"] (lit "sandbox") d t); [|done]. cbn [sub]. rewrite E. cbn. by rewrite Ht.
    + assert (rc_rustc_sandbox rc = sandbox_default) as -> by congruence.
      assert (Hn : sub [lit "rustc"; lit "sandbox"] d = None) by (cbn [sub]; by rewrite E).
      unfold sandbox_at, kind_at, texts_at, opt_flag_at. rewrite !absent_setting by done. cbn. auto 10.
Qed.

Lemma common_reads (d : table) (rc : raw_config) :
  decode d = Some rc ->
  at_path [lit "common"; lit "version"] d = Some (Integer (rc_version rc)) /\
  flag_at [lit "common"; lit "explicit_build_scripts"] d (rc_explicit_build_scripts rc) /\
  texts_at [lit "common"; lit "import_std"] d (rc_import_std rc).
Proof.
  intros (_ & Hc & _)%document_is_iff.
  destruct (get (lit "common") d) as [i|] eqn:E; [|done]. cbn [mbind option_bind] in Hc.
  unfold common_of in Hc. destruct (table_of i) as [t|] eqn:Ht; [|done]. cbn [mbind option_bind] in Hc.
  destruct (known _ t); [|done].
  assert (Hs : sub [lit "common"] d = Some t) by (cbn [sub]; rewrite E; cbn; by rewrite Ht).
  destruct (get (lit "version") t) as [v|] eqn:Ev; [|done]. cbn [mbind option_bind] in Hc.
  destruct (integer_of v) as [z|] eqn:Ez; [|done]. cbn [mbind option_bind] in Hc.
  destruct (field (lit "explicit_build_scripts") false flag_of t) as [b|] eqn:Eb; [|done]. cbn [mbind option_bind] in Hc.
  destruct (opt_field (lit "build_flags") texts_of t) as [bf|]; [|done]. cbn [mbind option_bind] in Hc.
  destruct (field (lit "import_std") [] texts_of t) as [l|] eqn:El; [|done]. cbn [mbind option_bind] in Hc.
  destruct (field (lit "features") [] texts_of t) as [fs|]; [|done]. cbn [mbind option_bind] in Hc.
  destruct (opt_field (lit "profile") text_of t) as [pr|]; [|done]. cbn [mbind option_bind] in Hc.
  assert (z = rc_version rc) as -> by congruence.
  assert (b = rc_explicit_build_scripts rc) as -> by congruence.
  assert (l = rc_import_std rc) as -> by congruence.
  split; [|split].
  - change [lit "common"; lit "version"] with ([lit "common"] ++ [lit "version"]).
    rewrite (at_setting [lit "common"] d t Hs), Ev. destruct v; try done. cbn in Ez. by injection Ez as ->.
  - by apply (flag_setting [lit "common"] d t Hs).
  - by apply (texts_setting [lit "common"] d t Hs).
Qed.

(** ** No other keys *)
Lemma leaf_path {A} (f : item -> option A) (k : str) (p : list str) (t : table) (x : item) :
  (forall i, is_Some (f i) -> table_of i = None) ->
  (forall i, get k t = Some i -> is_Some (f i)) ->
  at_path (k :: p) t = Some x -> p = [].
Proof.
  intros Hf Hk (i & Hi & [[-> _]|(u & Hu & _)])%at_path_cons; [done|].
  rewrite (Hf i) in Hu by auto. done.
Qed.

Lemma field_some {A} (k : str) (d : A) (f : item -> option A) (t : table) (a : A) :
  field k d f t = Some a -> forall i, get k t = Some i -> is_Some (f i).
Proof. unfold field. intros H i Hi. rewrite Hi in H. by eexists. Qed.
Lemma opt_field_some {A} (k : str) (f : item -> option A) (t : table) (a : option A) :
  opt_field k f t = Some a -> forall i, get k t = Some i -> is_Some (f i).
Proof. unfold opt_field. intros H i Hi. rewrite Hi in H. destruct (f i); [by eexists|done]. Qed.

Lemma texts_leaf (i : item) : is_Some (texts_of i) -> table_of i = None.
Proof. intros [? H]. by destruct i. Qed.
Lemma flag_leaf (i : item) : is_Some (flag_of i) -> table_of i = None.
Proof. intros [? H]. by destruct i. Qed.
Lemma kind_leaf (i : item) : is_Some (kind_of i) -> table_of i = None.
Proof. intros [? H]. by destruct i. Qed.
Lemma text_leaf (i : item) : is_Some (text_of i) -> table_of i = None.
Proof. intros [? H]. by destruct i. Qed.
Lemma integer_leaf (i : item) : is_Some (integer_of i) -> table_of i = None.
Proof. intros [? H]. by destruct i. Qed.

(** One of the settings, and nothing below it. *)
Definition one_of (settings : list str) (p : list str) : Prop := exists k, k ∈ settings /\ p = [k].

Lemma sandbox_paths (t : table) (sb : sandbox_config) (p : list str) (x : item) :
  sandbox_is t sb -> at_path p t = Some x -> one_of sandbox_settings p.
Proof.
  intros (Hk & H1 & H2 & H3 & H4 & H5 & H6) Hp. destruct p as [|k p]; [done|].
  destruct (at_path_cons _ _ _ _ Hp) as (i & Hi & _).
  pose proof (known_get _ _ _ _ Hk Hi) as Hin. exists k. split; [exact Hin|]. f_equal.
  unfold sandbox_fields in Hin. rewrite !elem_of_cons, elem_of_nil in Hin.
  destruct Hin as [->|[->|[->|[->|[->|[->|[]]]]]]].
  - apply (leaf_path _ _ _ _ _ kind_leaf (opt_field_some _ _ _ _ H1) Hp).
  - apply (leaf_path _ _ _ _ _ texts_leaf (field_some _ _ _ _ _ H2) Hp).
  - apply (leaf_path _ _ _ _ _ flag_leaf (opt_field_some _ _ _ _ H3) Hp).
  - apply (leaf_path _ _ _ _ _ texts_leaf (field_some _ _ _ _ _ H4) Hp).
  - apply (leaf_path _ _ _ _ _ texts_leaf (field_some _ _ _ _ _ H5) Hp).
  - apply (leaf_path _ _ _ _ _ texts_leaf (field_some _ _ _ _ _ H6) Hp).
Qed.

Lemma api_paths (t : table) (ac : api_config) (p : list str) (x : item) :
  api_is t ac -> at_path p t = Some x -> one_of api_settings p.
Proof.
  intros (Hk & H1 & H2 & H3) Hp. destruct p as [|k p]; [done|].
  destruct (at_path_cons _ _ _ _ Hp) as (i & Hi & _).
  pose proof (known_get _ _ _ _ Hk Hi) as Hin. exists k. split; [exact Hin|]. f_equal.
  rewrite !elem_of_cons, elem_of_nil in Hin.
  destruct Hin as [->|[->|[->|[]]]].
  - apply (leaf_path _ _ _ _ _ texts_leaf (field_some _ _ _ _ _ H1) Hp).
  - apply (leaf_path _ _ _ _ _ texts_leaf (field_some _ _ _ _ _ H2) Hp).
  - apply (leaf_path _ _ _ _ _ texts_leaf (field_some _ _ _ _ _ H3) Hp).
Qed.

(** A table below which [Q] holds of the paths. *)
Definition below (k : str) (Q : list str -> Prop) (p : list str) : Prop :=
  p = [k] \/ exists q, p = k :: q /\ Q q.

Lemma below_path (k : str) (p : list str) (t : table) (x : item) (Q : list str -> Prop) :
  at_path (k :: p) t = Some x ->
  (forall i u q, get k t = Some i -> table_of i = Some u -> at_path q u = Some x -> Q q) ->
  below k Q (k :: p).
Proof.
  intros (i & Hi & [[-> _]|(u & Hu & _ & Hp)])%at_path_cons HQ; [by left|].
  right. exists p. split; [done|]. by eapply HQ.
Qed.

Definition plain_section (p : list str) : Prop :=
  one_of package_settings p \/ below (lit "sandbox") (one_of sandbox_settings) p.

Lemma section_paths (t : table) (pc : package_config) (p : list str) (x : item) :
  section_is t pc -> at_path p t = Some x ->
  plain_section p \/
  (exists k o, (k = lit "build" /\ o = pc_build pc \/ k = lit "test" /\ o = pc_test pc) /\
     below k (fun q => exists i u sec, o = Some sec /\ package_of i = Some sec /\ table_of i = Some u /\
                         at_path q u = Some x) p /\ is_Some o) \/
  (below (lit "from") (fun q => exists i u fc, pc_from pc = Some fc /\ from_item i = Some fc /\
     table_of i = Some u /\ at_path q u = Some x) p /\ is_Some (pc_from pc)).
Proof.
  intros (Hk & H1 & H2 & H3 & H4 & H5 & H6 & H7 & H8 & H9 & H10) Hp. destruct p as [|k p]; [done|].
  destruct (at_path_cons _ _ _ _ Hp) as (i & Hi & _).
  pose proof (known_get _ _ _ _ Hk Hi) as Hin.
  unfold package_fields in Hin. rewrite !elem_of_cons, elem_of_nil in Hin.
  assert (Hset : k ∈ package_settings -> p = [] -> plain_section (k :: p)).
  { intros Hin' ->. left. by exists k. }
  assert (Hfield : forall o, opt_field k package_of t = Some o -> is_Some o /\
    below k (fun q => exists i u sec, o = Some sec /\ package_of i = Some sec /\ table_of i = Some u /\
                         at_path q u = Some x) (k :: p)).
  { intros o. unfold opt_field. rewrite Hi. destruct (package_of i) as [sec|] eqn:Es; [|done].
    cbn [fmap option_fmap option_map]. intros [= <-]. split; [by eexists|].
    apply (below_path k p t x _ Hp). intros i0 u q Hi0 Hu Hq. assert (i0 = i) as -> by congruence. eauto 10. }
  destruct Hin as [->|[->|[->|[->|[->|[->|[->|[->|[->|[->|[]]]]]]]]]]].
  - left. apply Hset; [by repeat constructor|]. apply (leaf_path _ _ _ _ _ flag_leaf (field_some _ _ _ _ _ H1) Hp).
  - left. apply Hset; [by repeat constructor|]. apply (leaf_path _ _ _ _ _ flag_leaf (field_some _ _ _ _ _ H2) Hp).
  - left. apply Hset; [by repeat constructor|]. apply (leaf_path _ _ _ _ _ texts_leaf (field_some _ _ _ _ _ H3) Hp).
  - left. apply Hset; [by repeat constructor|]. apply (leaf_path _ _ _ _ _ texts_leaf (field_some _ _ _ _ _ H4) Hp).
  - left. apply Hset; [by repeat constructor|]. apply (leaf_path _ _ _ _ _ flag_leaf (field_some _ _ _ _ _ H5) Hp).
  - right. left. destruct (Hfield _ H6) as [Ho Hb]. exists (lit "build"), (pc_build pc). auto.
  - right. left. destruct (Hfield _ H7) as [Ho Hb]. exists (lit "test"), (pc_test pc). auto.
  - right. right. unfold opt_field in H8. rewrite Hi in H8.
    destruct (from_item i) as [fc|] eqn:Ef; [|done]. cbn [fmap option_fmap option_map] in H8.
    assert (pc_from pc = Some fc) as -> by congruence. split; [|by eexists].
    apply (below_path _ p t x _ Hp). intros i0 u q Hi0 Hu Hq. assert (i0 = i) as -> by congruence. eauto 10.
  - left. right. apply (below_path _ p t x _ Hp). intros i0 u q Hi0 Hu Hq.
    destruct (field_some _ _ _ _ _ H9 _ Hi0) as [sb Hsb]. destruct (sandbox_of_table _ _ Hsb) as (u' & Hu' & Hs).
    assert (u' = u) as -> by congruence. by eapply sandbox_paths.
  - left. apply Hset; [by repeat constructor|]. apply (leaf_path _ _ _ _ _ texts_leaf (opt_field_some _ _ _ _ H10) Hp).
Qed.

Lemma plain_section_paths (i : item) (t : table) (pc : package_config) (p : list str) (x : item) :
  package_of i = Some pc -> table_of i = Some t -> subsections_absent pc -> at_path p t = Some x ->
  plain_section p.
Proof.
  intros (t' & Ht' & Hs)%package_of_table Ht (A1 & A2 & A3) Hp. assert (t' = t) as -> by congruence.
  destruct (section_paths t pc p x Hs Hp) as [?|[(k & o & Hk & _ & [y Hy])|[_ [y Hy]]]]; [done| |].
  - destruct Hk as [[-> ->]|[-> ->]]; congruence.
  - congruence.
Qed.

(** The subsections of a loaded configuration have no subsections. *)
Lemma loaded_subsections (b : gmap str api_config) (ex : str -> list nat -> option (gmap str api_config))
    (idx : crate_index) (root : str) (rc : raw_config) (c : config) (pkg : str) (pc : package_config) :
  load_config b ex idx (Some root) rc = Loaded c -> rc_packages rc !! pkg = Some pc ->
  (forall sec, pc_build pc = Some sec -> subsections_absent sec) /\
  (forall sec, pc_test pc = Some sec -> subsections_absent sec) /\
  (forall fc sec, pc_from pc = Some fc -> fc_build fc = Some sec \/ fc_test fc = Some sec -> subsections_absent sec).
Proof.
  intros Hl Hpc. pose proof (loaded_packages _ _ _ _ _ _ Hl) as Hp.
  destruct (load_config_inv _ _ _ _ _ _ Hl) as (_ & _ & _ & _ & _ & Hv & _). apply validate_spec in Hv as [_ Hv].
  assert (Hf : rc_packages (cf_raw c) !! pkg = Some (finished root pc)) by (rewrite Hp, lookup_fmap, Hpc; done).
  assert (Hs : forall s sec, s <> All -> section (cf_raw c) pkg s = Some sec -> subsections_absent sec).
  { intros s sec Hne Hsec. by apply (Hv pkg s sec). }
  unfold section in Hs. rewrite Hf in Hs. unfold finished in Hs. rewrite abs_package_unfold in Hs.
  destruct pc as [a0 b0 c0 d0 e0 f g h i j].
  cbn [pc_build pc_test pc_from clear_import set_import] in Hs |- *.
  assert (Habs : forall sec, subsections_absent (abs_package root sec) -> subsections_absent sec).
  { intros [a1 b1 c1 d1 e1 f1 g1 h1 i1 j1]. rewrite abs_package_unfold. unfold subsections_absent.
    cbn [pc_build pc_test pc_from]. intros (H1 & H2 & H3).
    repeat split; [by destruct f1|by destruct g1|by destruct h1]. }
  split; [|split].
  - intros sec ->. apply Habs. by apply (Hs Build).
  - intros sec ->. apply Habs. by apply (Hs Test).
  - intros fc sec -> [H|H]; [by apply (Hs FromBuild)|by apply (Hs FromTest)].
Qed.

Lemma setting_one_of (path settings p : list str) :
  p = [] \/ one_of settings p -> setting_of path settings (path ++ p).
Proof. intros [->|(k & Hk & ->)]; [left; by rewrite app_nil_r|right; eauto]. Qed.

Lemma section_documented (pkg : str) (s : scope) (p : list str) :
  p = [] \/ plain_section p -> documented (section_path pkg s ++ p).
Proof.
  intros H. unfold documented. do 7 right. left. exists pkg, s.
  destruct H as [->|[H|[->|(q & -> & H)]]].
  - left. apply setting_one_of. auto.
  - left. apply setting_one_of. auto.
  - right. left. done.
  - right. change (lit "sandbox" :: q) with ([lit "sandbox"] ++ q). rewrite app_assoc.
    apply setting_one_of. auto.
Qed.

Lemma only_documented (b : gmap str api_config) (ex : str -> list nat -> option (gmap str api_config))
    (idx : crate_index) (root : str) (d : table) (c : config) (p : list str) (x : item) :
  load_document b ex idx root d = Some (Loaded c) -> at_path p d = Some x -> documented p.
Proof.
  unfold load_document. destruct (decode d) as [rc|] eqn:Hd; [|done].
  cbn [fmap option_fmap option_map]. intros Hl Hp.
  assert (Hl' : load_config b ex idx (Some root) rc = Loaded c) by congruence. clear Hl.
  apply document_is_iff in Hd as (Hk & Hc & Ha & Hpk & Hs & Hr).
  destruct p as [|k p]; [done|]. destruct (at_path_cons _ _ _ _ Hp) as (i & Hi & _).
  pose proof (known_get _ _ _ _ Hk Hi) as Hin. unfold config_fields in Hin.
  rewrite !elem_of_cons, elem_of_nil in Hin. destruct Hin as [->|[->|[->|[->|[->|[]]]]]].
  - (* common *)
    rewrite Hi in Hc. cbn [mbind option_bind] in Hc. unfold common_of in Hc.
    destruct (table_of i) as [t|] eqn:Ht; [|done]. cbn [mbind option_bind] in Hc.
    destruct (known _ t) eqn:Hkt; [|done].
    destruct (get (lit "version") t ≫= integer_of) as [z|] eqn:E1; [|done]. cbn [mbind option_bind] in Hc.
    destruct (field (lit "explicit_build_scripts") false flag_of t) as [?|] eqn:E2; [|done]. cbn [mbind option_bind] in Hc.
    destruct (opt_field (lit "build_flags") texts_of t) as [?|] eqn:E3; [|done]. cbn [mbind option_bind] in Hc.
    destruct (field (lit "import_std") [] texts_of t) as [?|] eqn:E4; [|done]. cbn [mbind option_bind] in Hc.
    destruct (field (lit "features") [] texts_of t) as [?|] eqn:E5; [|done]. cbn [mbind option_bind] in Hc.
    destruct (opt_field (lit "profile") text_of t) as [?|] eqn:E6; [|done].
    left. destruct (below_path _ p d x (one_of common_settings) Hp) as [Hb|(q & Hb & Hq)].
    + intros i0 u q Hi0 Hu Hq. assert (i0 = i) as -> by congruence. assert (u = t) as -> by congruence.
      destruct q as [|k q]; [done|]. destruct (at_path_cons _ _ _ _ Hq) as (j & Hj & _).
      pose proof (known_get _ _ _ _ Hkt Hj) as Hin. exists k. split; [exact Hin|]. f_equal.
      unfold common_fields in Hin. rewrite !elem_of_cons, elem_of_nil in Hin.
      destruct Hin as [->|[->|[->|[->|[->|[->|[]]]]]]].
      * apply (leaf_path _ _ _ _ _ integer_leaf) in Hq; [done|]. intros j0 Hj0. rewrite Hj0 in E1. by eexists.
      * apply (leaf_path _ _ _ _ _ flag_leaf (field_some _ _ _ _ _ E2) Hq).
      * apply (leaf_path _ _ _ _ _ texts_leaf (opt_field_some _ _ _ _ E3) Hq).
      * apply (leaf_path _ _ _ _ _ texts_leaf (field_some _ _ _ _ _ E4) Hq).
      * apply (leaf_path _ _ _ _ _ texts_leaf (field_some _ _ _ _ _ E5) Hq).
      * apply (leaf_path _ _ _ _ _ text_leaf (opt_field_some _ _ _ _ E6) Hq).
    + left. done.
    + rewrite Hb. apply (setting_one_of [lit "common"]). auto.
  - (* api *)
    pose proof (field_some _ _ _ _ _ Ha i Hi) as [m Hm]. apply map_of_table in Hm as (t & Ht & Hall & _).
    destruct (at_path_cons _ _ _ _ Hp) as (i' & Hi' & [[-> _]|(u & Hu & _ & Hq)]); [do 4 right; by left|].
    assert (i' = i) as -> by congruence. assert (u = t) as -> by congruence.
    destruct p as [|api p]; [done|]. destruct (at_path_cons _ _ _ _ Hq) as (j & Hj & Hrest).
    do 5 right. left. exists api. change (lit "api" :: api :: p) with ([lit "api"; api] ++ p).
    apply setting_one_of. destruct Hrest as [[-> _]|(u & Hu2 & _ & Hp2)]; [by left|]. right.
    destruct (Hall (api, j)) as [ac Hac]; [by apply get_in|]. cbn [snd] in Hac.
    destruct (api_of_table _ _ Hac) as (u' & Hu' & His). assert (u' = u) as -> by congruence.
    by eapply api_paths.
  - (* pkg *)
    pose proof (field_some _ _ _ _ _ Hpk i Hi) as [m Hm].
    assert (m = rc_packages rc) as -> by (unfold field in Hpk; rewrite Hi in Hpk; congruence).
    apply map_of_table in Hm as (t & Ht & Hall & Hm).
    destruct (at_path_cons _ _ _ _ Hp) as (i' & Hi' & [[-> _]|(u & Hu & _ & Hq)]); [do 6 right; by left|].
    assert (i' = i) as -> by congruence. assert (u = t) as -> by congruence.
    destruct p as [|pkg p]; [done|]. destruct (at_path_cons _ _ _ _ Hq) as (j & Hj & Hrest).
    destruct Hrest as [[-> _]|(u & Hu2 & _ & Hp2)].
    { apply (section_documented pkg All []). auto. }
    destruct (Hall (pkg, j)) as [pc Hpc]; [by apply get_in|]. cbn [snd] in Hpc.
    assert (Hlk : rc_packages rc !! pkg = Some pc) by (rewrite Hm, Hj; done).
    destruct (loaded_subsections _ _ _ _ _ _ _ _ Hl' Hlk) as (S1 & S2 & S3).
    destruct (package_of_table _ _ Hpc) as (u' & Hu' & His). assert (u' = u) as -> by congruence.
    destruct (section_paths u pc p x His Hp2) as [Hpl|[(k & o & Hko & Hb & _)|[Hb _]]].
    + apply (section_documented pkg All p). auto.
    + assert (Hdone : forall q, (exists i u sec, o = Some sec /\ package_of i = Some sec /\ table_of i = Some u /\
          at_path q u = Some x) -> (forall sec, o = Some sec -> subsections_absent sec) -> plain_section q).
      { intros q (i1 & u1 & sec & Ho & H1 & H2 & H3) Habs. eapply plain_section_paths; eauto. }
      destruct Hko as [[-> ->]|[-> ->]], Hb as [->|(q & -> & HQ)].
      * apply (section_documented pkg Build []). auto.
      * apply (section_documented pkg Build q). auto.
      * apply (section_documented pkg Test []). auto.
      * apply (section_documented pkg Test q). auto.
    + destruct Hb as [->|(q & -> & HQ)]; [do 8 right; by exists pkg|].
      destruct HQ as (i1 & u1 & fc & Hfc & H1 & H2 & H3).
      destruct (from_item_table _ _ H1) as (u2 & Hu2' & Hkf & Hfb & Hft). assert (u2 = u1) as -> by congruence.
      destruct q as [|k q]; [done|]. destruct (at_path_cons _ _ _ _ H3) as (j1 & Hj1 & Hrest).
      pose proof (known_get _ _ _ _ Hkf Hj1) as Hin. rewrite !elem_of_cons, elem_of_nil in Hin.
      assert (Hdone : forall o, opt_field k package_of u1 = Some o ->
        (forall sec, o = Some sec -> subsections_absent sec) -> q = [] \/ plain_section q).
      { intros o Ho Habs. destruct Hrest as [[-> _]|(u3 & Hu3 & _ & Hq3)]; [by left|]. right.
        destruct (opt_field_some _ _ _ _ Ho _ Hj1) as [sec Hsec].
        eapply plain_section_paths; [exact Hsec|exact Hu3| |exact Hq3]. apply Habs.
        unfold opt_field in Ho. rewrite Hj1, Hsec in Ho. cbn in Ho. congruence. }
      destruct Hin as [->|[->|[]]].
      * apply (section_documented pkg FromBuild q). apply (Hdone _ Hfb). eauto.
      * apply (section_documented pkg FromTest q). apply (Hdone _ Hft). eauto.
  - (* sandbox *)
    right. left. destruct (below_path _ p d x (one_of sandbox_settings) Hp) as [Hb|(q & Hb & Hq)].
    + intros i0 u q Hi0 Hu Hq. destruct (field_some _ _ _ _ _ Hs _ Hi0) as [sb Hsb].
      destruct (sandbox_of_table _ _ Hsb) as (u' & Hu' & His). assert (u' = u) as -> by congruence.
      by eapply sandbox_paths.
    + left. done.
    + rewrite Hb. apply (setting_one_of [lit "sandbox"]). auto.
  - (* rustc *)
    destruct (field_some _ _ _ _ _ Hr _ Hi) as [sb Hsb]. unfold rustc_of in Hsb.
    destruct (table_of i) as [t|] eqn:Ht; [|done]. cbn [mbind option_bind] in Hsb.
    destruct (known _ t) eqn:Hkt; [|done].
    destruct (at_path_cons _ _ _ _ Hp) as (i' & Hi' & [[-> _]|(u & Hu & _ & Hq)]); [do 2 right; by left|].
    assert (i' = i) as -> by congruence. assert (u = t) as -> by congruence.
    destruct p as [|k p]; [done|]. destruct (at_path_cons _ _ _ _ Hq) as (j & Hj & Hrest).
    pose proof (known_get _ _ _ _ Hkt Hj) as Hin. apply elem_of_list_singleton in Hin as ->.
    do 3 right. left. apply (setting_one_of [lit "rustc"; lit "sandbox"]).
    destruct Hrest as [[-> _]|(u & Hu2 & _ & Hp2)]; [by left|]. right.
    destruct (field_some _ _ _ _ _ Hsb _ Hj) as [sb' Hsb'].
    destruct (sandbox_of_table _ _ Hsb') as (u' & Hu' & His). assert (u' = u) as -> by congruence.
    by eapply sandbox_paths.
Qed.
