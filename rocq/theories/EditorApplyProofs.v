(** When edits can be applied. *)
From stdpp Require Import gmap.
From Verif Require Import Base BaseFacts TextModel TextFacts ApiMapModel ConfigModel ConfigSpec ConfigProofs
  ConfigLoadProofs ProblemModel BuildScriptModel TomlModel TomlProofs EditorModel ReloadProofs EditorSpec
  EditorProofs EditorMoreProofs EditorApiProofs.

(** ** Documents without inline tables *)
Lemma at_path_step (k : str) (path : list str) (t : table) :
  at_path (k :: path) t =
    match path with
    | [] => get k t
    | _ => match get k t with Some (Table u) | Some (Inline u) => at_path path u | _ => None end
    end.
Proof. by destruct path. Qed.

Lemma no_inline_get (t : table) (k : str) (u : table) : no_inline_tables t -> get k t <> Some (Inline u).
Proof. intros H. apply (H [k]). Qed.

Lemma no_inline_sub (t : table) (k : str) (u : table) :
  no_inline_tables t -> get k t = Some (Table u) -> no_inline_tables u.
Proof.
  intros H E path w Hp. apply (H (k :: path) w). rewrite at_path_step, E. by destruct path.
Qed.

Definition good_item (i : item) : Prop :=
  match i with Inline _ => False | Table u => no_inline_tables u | _ => True end.

Lemma no_inline_put (t : table) (k : str) (i : item) :
  no_inline_tables t -> good_item i -> no_inline_tables (put k i t).
Proof.
  intros H Hi [|k' path] w; [done|]. rewrite at_path_step, get_put. destruct (str_eqb k' k).
  - destruct path as [|k2 path].
    + by destruct i.
    + by destruct i.
  - rewrite <- at_path_step. apply H.
Qed.

Lemma no_inline_del (t : table) (k : str) : no_inline_tables t -> no_inline_tables (del k t).
Proof.
  intros H [|k' path] w; [done|]. rewrite at_path_step, get_del. destruct (str_eqb k' k).
  - by destruct path.
  - rewrite <- at_path_step. apply H.
Qed.

Lemma no_inline_nil : no_inline_tables [].
Proof. intros [|k path] w; [done|]. by destruct path. Qed.

Definition preserves (f : table -> option table) : Prop :=
  forall t t', no_inline_tables t -> f t = Some t' -> no_inline_tables t'.

Lemma in_table_preserves (path : list str) (f : table -> option table) :
  preserves f -> preserves (in_table path f).
Proof.
  intros Hf. induction path as [|k path IH]; [done|]. intros t t' Ht. cbn [in_table].
  destruct (get k t) as [[| | | | | |u]|] eqn:E; try done.
  - destruct (in_table path f u) as [u'|] eqn:Eu; [|done]. intros [= <-].
    apply no_inline_put; [done|]. cbn. apply (IH u); [by apply (no_inline_sub t k)|done].
  - destruct (in_table path f []) as [u'|] eqn:Eu; [|done]. intros [= <-].
    apply no_inline_put; [done|]. cbn. apply (IH []); [apply no_inline_nil|done].
Qed.

Lemma in_opt_table_preserves (path : list str) (f : table -> option table) :
  preserves f -> preserves (in_opt_table path f).
Proof.
  intros Hf. induction path as [|k path IH]; [done|]. intros t t' Ht. cbn [in_opt_table].
  destruct (get k t) as [[| | | | | |u]|] eqn:E; try done.
  - destruct (in_opt_table path f u) as [u'|] eqn:Eu; [|done]. intros [= <-].
    apply no_inline_put; [done|]. cbn. apply (IH u); [by apply (no_inline_sub t k)|done].
  - by intros [= <-].
Qed.

Lemma add_to_array_preserves (k : str) (vs : list str) : preserves (add_to_array k vs).
Proof.
  intros t t' Ht. unfold add_to_array. destruct vs as [|v vs]; [by intros [= <-]|].
  destruct (get k t) as [[]|]; try done; intros [= <-]; by apply no_inline_put.
Qed.

Lemma remove_allowed_preserves (apis : list str) : preserves (remove_allowed apis).
Proof.
  intros t t' Ht. unfold remove_allowed. destruct (get (lit "allow_apis") t) as [[]|]; try done.
  - destruct (foldl _ _ _); intros H.
    + assert (t' = del (lit "allow_apis") t) as -> by congruence. by apply no_inline_del.
    + match type of H with Some ?x = _ => assert (t' = x) as -> by congruence end. by apply no_inline_put.
  - by intros [= <-].
Qed.

(** ** Paths *)
Fixpoint tables (path : list str) (t : table) : Prop :=
  match path with
  | [] => True
  | k :: path =>
      match get k t with None => True | Some (Table u) => tables path u | _ => False end
  end.

Fixpoint reached (path : list str) (t : table) : table :=
  match path with
  | [] => t
  | k :: path => match get k t with Some (Table u) => reached path u | _ => [] end
  end.

Lemma tables_nil (path : list str) : tables path [].
Proof. by destruct path. Qed.
Lemma reached_nil (path : list str) : reached path [] = [].
Proof. by destruct path. Qed.

Lemma in_table_total (path : list str) (f : table -> option table) (t : table) :
  tables path t -> is_Some (f (reached path t)) -> is_Some (in_table path f t).
Proof.
  revert t. induction path as [|k path IH]; intros t; [done|]. cbn [tables reached in_table].
  destruct (get k t) as [[| | | | | |u]|]; try done; intros H1 H2.
  - destruct (IH u H1 H2) as [u' ->]. by eexists.
  - destruct (IH [] (tables_nil _)) as [u' ->]; [by rewrite reached_nil|]. by eexists.
Qed.

Lemma in_opt_table_total (path : list str) (f : table -> option table) (t : table) :
  tables path t -> is_Some (f (reached path t)) -> is_Some (in_opt_table path f t).
Proof.
  revert t. induction path as [|k path IH]; intros t; [done|]. cbn [tables reached in_opt_table].
  destruct (get k t) as [[| | | | | |u]|]; try done; intros H1 H2.
  - destruct (IH u H1 H2) as [u' ->]. by eexists.
Qed.

Lemma tables_app (p q : list str) (t : table) : tables (p ++ q) t <-> tables p t /\ tables q (reached p t).
Proof.
  revert t. induction p as [|k p IH]; intros t; [cbn; tauto|]. cbn [app tables reached].
  destruct (get k t) as [[| | | | | |u]|]; try tauto; [apply IH|].
  split; [|done]. intros _. split; [done|apply tables_nil].
Qed.

Lemma reached_app (p q : list str) (t : table) : reached (p ++ q) t = reached q (reached p t).
Proof.
  revert t. induction p as [|k p IH]; intros t; [done|]. cbn [app reached].
  destruct (get k t) as [[| | | | | |u]|]; try (by rewrite reached_nil). apply IH.
Qed.

(** ** Sections *)
Lemma table_of_item (i : item) (t : table) : table_of i = Some t -> i = Table t \/ i = Inline t.
Proof. destruct i; try done; intros [= ->]; auto. Qed.

Lemma package_item (i : item) (pc : package_config) :
  package_of i = Some pc -> exists u, (i = Table u \/ i = Inline u) /\ section_is u pc.
Proof.
  intros H. destruct i as [| | | | |u|u]; try done.
  - exists u. split; [auto|]. apply section_is_iff. exact H.
  - exists u. split; [auto|]. by apply section_is_iff.
Qed.

Lemma optional_section (t : table) (k : str) (o : option package_config) :
  no_inline_tables t -> opt_field k package_of t = Some o ->
  tables [k] t /\ exists pc, section_is (reached [k] t) pc.
Proof.
  intros Ht H. unfold opt_field in H. cbn [tables reached]. destruct (get k t) as [i|] eqn:E.
  - destruct (package_of i) as [pc|] eqn:Ep; [|done].
    destruct (package_item _ _ Ep) as (u & [->| ->] & Hu).
    + split; [done|]. by exists pc.
    + by destruct (no_inline_get t k u Ht).
  - split; [done|]. exists package_default. apply section_is_nil.
Qed.

Lemma from_section (t : table) (o : option from_config) (k : str) :
  no_inline_tables t -> opt_field (lit "from") from_item t = Some o -> k = lit "build" \/ k = lit "test" ->
  tables [lit "from"; k] t /\ exists pc, section_is (reached [lit "from"; k] t) pc.
Proof.
  intros Ht H Hk. unfold opt_field in H. change [lit "from"; k] with ([lit "from"] ++ [k]).
  rewrite tables_app, reached_app. cbn [tables reached].
  destruct (get (lit "from") t) as [i|] eqn:E.
  - destruct (from_item i) as [fc|] eqn:Ef; [|done].
    destruct i as [| | | | |u|u]; try done; [by destruct (no_inline_get t (lit "from") u Ht)|].
    apply from_is_iff in Ef as (F1 & F2 & F3).
    assert (Hu : no_inline_tables u) by (by apply (no_inline_sub t (lit "from"))).
    destruct Hk as [->| ->].
    + destruct (optional_section u (lit "build") _ Hu F2) as [? ?]. done.
    + destruct (optional_section u (lit "test") _ Hu F3) as [? ?]. done.
  - cbn. split; [done|]. exists package_default. apply section_is_nil.
Qed.

Lemma scope_section (s : scope) (t : table) (pc : package_config) :
  no_inline_tables t -> section_is t pc ->
  tables (selector_path s) t /\ exists pc', section_is (reached (selector_path s) t) pc'.
Proof.
  intros Ht Hs. pose proof Hs as (H1 & H2 & H3 & H4 & H5 & H6 & H7 & H8 & H9 & H10 & H11). destruct s.
  - split; [done|]. by exists pc.
  - by apply (optional_section t (lit "build") _ Ht H7).
  - by apply (optional_section t (lit "test") _ Ht H8).
  - apply (from_section t _ (lit "build") Ht H9); by left.
  - apply (from_section t _ (lit "test") Ht H9); by right.
Qed.

Lemma map_section {A} (f : item -> option A) (k name : str) (d : table) (m : gmap str A) :
  (forall i, is_Some (f i) -> exists u, i = Table u \/ i = Inline u) ->
  no_inline_tables d -> field k ∅ (map_of f) d = Some m ->
  tables [k; name] d /\
  (get name (reached [k] d) = None \/
   exists x, get name (reached [k] d) = Some (Table (reached [k; name] d)) /\ f (Table (reached [k; name] d)) = Some x).
Proof.
  intros Hf Hd H. unfold field in H. cbn [tables reached]. destruct (get k d) as [i|] eqn:E.
  2: { split; [done|]. by left. }
  destruct i as [| | | | |u|u]; try done; [by destruct (no_inline_get d k u Hd)|].
  assert (Hu : no_inline_tables u) by (by apply (no_inline_sub d k)).
  apply map_of_iff in H as [Hall _]. destruct (get name u) as [j|] eqn:Ej.
  2: { split; [done|]. by left. }
  assert (Hj : is_Some (f j)) by (apply get_in in Ej; exact (Hall _ Ej)).
  destruct (Hf j Hj) as (w & [->| ->]).
  - split; [done|]. right. destruct Hj as [x Hx]. by exists x.
  - by destruct (no_inline_get u name w Hu).
Qed.

Lemma no_inline_reached (path : list str) (t : table) : no_inline_tables t -> no_inline_tables (reached path t).
Proof.
  revert t. induction path as [|k path IH]; intros t H; [done|]. cbn [reached].
  destruct (get k t) as [[| | | | | |u]|] eqn:E; try apply no_inline_nil.
  apply IH. by apply (no_inline_sub t k).
Qed.

Lemma package_section (sel : perm_sel) (d : table) (rc : raw_config) :
  no_inline_tables d -> decode d = Some rc ->
  tables (pkg_path sel) d /\ exists pc, section_is (reached (pkg_path sel) d) pc.
Proof.
  intros Hd Hdec. apply document_is_iff in Hdec as (H1 & H2 & H3 & H4 & H5 & H6). destruct sel as [name s].
  destruct (map_section package_of (lit "pkg") name d (rc_packages rc)) as [Ht Hm]; [|done|done|].
  { intros i [pc Hpc]. destruct (package_item _ _ Hpc) as (u & ? & _). by exists u. }
  assert (Hs : exists pc, section_is (reached [lit "pkg"; name] d) pc).
  { destruct Hm as [E|(x & _ & Hx)].
    - exists package_default. change [lit "pkg"; name] with ([lit "pkg"] ++ [name]). rewrite reached_app.
      cbn [reached] in *. rewrite E. apply section_is_nil.
    - exists x. by apply section_is_iff. }
  destruct Hs as [pc Hs].
  unfold pkg_path. cbn [fst snd]. change (lit "pkg" :: name :: selector_path s) with ([lit "pkg"; name] ++ selector_path s).
  rewrite tables_app, reached_app.
  destruct (scope_section s (reached [lit "pkg"; name] d) pc) as [? ?]; [|exact Hs|split; [split|]; done].
  by apply no_inline_reached.
Qed.

Lemma api_section (api : str) (d : table) (rc : raw_config) :
  no_inline_tables d -> decode d = Some rc ->
  tables [lit "api"; api] d /\ exists ac, api_is (reached [lit "api"; api] d) ac.
Proof.
  intros Hd Hdec. apply document_is_iff in Hdec as (H1 & H2 & H3 & H4 & H5 & H6).
  destruct (map_section api_of (lit "api") api d (rc_apis rc)) as [Ht Hm]; [|done|done|].
  { intros i [ac Hac]. destruct i as [| | | | |u|u]; try done; exists u; auto. }
  split; [done|]. destruct Hm as [E|(x & _ & Hx)].
  - exists api_config_default. change [lit "api"; api] with ([lit "api"] ++ [api]). rewrite reached_app.
    cbn [reached] in *. rewrite E. apply api_is_nil.
  - exists x. by apply api_is_iff.
Qed.

Lemma common_section (d : table) (rc : raw_config) :
  no_inline_tables d -> decode d = Some rc ->
  tables [lit "common"] d /\
  common_is (reached [lit "common"] d) (rc_version rc) (rc_explicit_build_scripts rc) (rc_import_std rc).
Proof.
  intros Hd Hdec. apply document_is_iff in Hdec as (H1 & H2 & H3 & H4 & H5 & H6). cbn [tables reached].
  destruct (get (lit "common") d) as [i|] eqn:E; [|done]. cbn [mbind option_bind] in H2.
  destruct i as [| | | | |u|u]; try done; [by destruct (no_inline_get d (lit "common") u Hd)|].
  split; [done|]. by apply common_is_iff.
Qed.

Lemma sandbox_section (k : str) (t : table) (x sb : sandbox_config) :
  no_inline_tables t -> field k x sandbox_of t = Some sb -> tables [k] t.
Proof.
  intros Ht H. unfold field in H. cbn [tables]. destruct (get k t) as [i|] eqn:E; [|done].
  destruct i as [| | | | |u|u]; try done. by destruct (no_inline_get t k u Ht).
Qed.

Lemma toggle_total (api : str) (t : table) (l : list str) :
  field (lit "import_std") [] texts_of t = Some l -> is_Some (toggle_import api t).
Proof.
  unfold field, toggle_import. destruct (get (lit "import_std") t) as [[]|]; try done; by eexists.
Qed.

Lemma remove_allowed_total (apis : list str) (t : table) (pc : package_config) :
  section_is t pc -> is_Some (remove_allowed apis t).
Proof.
  intros (H1 & H2 & H3 & H4 & H5 & _). unfold field in H5. unfold remove_allowed.
  destruct (get (lit "allow_apis") t) as [[]|]; try done.
  destruct (foldl _ _ _); by eexists.
Qed.

(** ** Every edit *)
Section apply.
  Context (usable : sandbox_kind -> bool) (b : gmap str api_config).

  Lemma package_edit (sel : perm_sel) (f : table -> option table) (d : table) (rc : raw_config) :
    no_inline_tables d -> decode d = Some rc -> (forall t pc, section_is t pc -> is_Some (f t)) ->
    is_Some (in_table (pkg_path sel) f d).
  Proof.
    intros Hd Hdec Hf. destruct (package_section sel d rc Hd Hdec) as [Ht [pc Hpc]].
    apply in_table_total; [done|]. by apply (Hf _ pc).
  Qed.

  Lemma remove_edit (sel : perm_sel) (apis : list str) (d : table) (rc : raw_config) :
    no_inline_tables d -> decode d = Some rc -> is_Some (remove_apis sel apis d).
  Proof.
    intros Hd Hdec. destruct (package_section sel d rc Hd Hdec) as [Ht [pc Hpc]].
    apply in_opt_table_total; [done|]. by apply (remove_allowed_total _ _ pc).
  Qed.

  Lemma remove_decodes (sel : perm_sel) (apis : list str) (d d' : table) (rc : raw_config) :
    decode d = Some rc -> remove_apis sel apis d = Some d' -> is_Some (decode d').
  Proof.
    intros Hd He. destruct sel as [name s]. destruct (rc_packages rc !! name) as [pc|] eqn:E.
    - destruct (decode_remove name s apis d d' rc pc Hd He E) as (pc' & -> & _). by eexists.
    - pose proof (opt_section d d' rc name s (remove_allowed apis) Hd He) as Ho.
      assert (Hno : section rc name s = None) by (unfold section; by rewrite E).
      rewrite Hno in Ho. subst d'. by exists rc.
  Qed.

  Lemma removes_edit (sels : list perm_sel) (apis : list str) (d : table) :
    no_inline_tables d -> is_Some (decode d) ->
    is_Some (foldl (fun d sel => d ← d; remove_apis sel apis d) (Some d) sels).
  Proof.
    revert d. induction sels as [|sel sels IH]; intros d Hd [rc Hdec]; [by eexists|]. cbn [foldl mbind option_bind].
    destruct (remove_edit sel apis d rc Hd Hdec) as [d1 E]. rewrite E. apply IH.
    - apply (in_opt_table_preserves (pkg_path sel) (remove_allowed apis) (remove_allowed_preserves apis) d d1 Hd E).
    - by apply (remove_decodes sel apis d d1 rc).
  Qed.

  Lemma common_edit (f : table -> option table) (d : table) (rc : raw_config) :
    no_inline_tables d -> decode d = Some rc ->
    (forall t, common_is t (rc_version rc) (rc_explicit_build_scripts rc) (rc_import_std rc) -> is_Some (f t)) ->
    is_Some (in_table [lit "common"] f d).
  Proof.
    intros Hd Hdec Hf. destruct (common_section d rc Hd Hdec) as [Ht Hc]. apply in_table_total; [done|]. by apply Hf.
  Qed.

  Lemma version_edit (v : Z) (d : table) (rc : raw_config) :
    no_inline_tables d -> decode d = Some rc ->
    exists d', edit_version v d = Some d' /\ no_inline_tables d' /\ is_Some (decode d').
  Proof.
    intros Hd Hdec. destruct (common_edit (fun t => Some (put (lit "version") (Integer v) t)) d rc Hd Hdec) as [d' E].
    { intros t _. by eexists. }
    exists d'. split_and!; [exact E| |].
    - apply (in_table_preserves [lit "common"] (fun t => Some (put (lit "version") (Integer v) t))) with (t := d); [|done|exact E].
      intros t t' Ht H. assert (t' = put (lit "version") (Integer v) t) as -> by congruence. by apply no_inline_put.
    - exists (set_version rc v). by apply (decode_version v d).
  Qed.

  Lemma toggle_edit (api : str) (d : table) (rc : raw_config) :
    no_inline_tables d -> decode d = Some rc ->
    exists d', in_table [lit "common"] (toggle_import api) d = Some d' /\ no_inline_tables d' /\ is_Some (decode d').
  Proof.
    intros Hd Hdec. destruct (common_edit (toggle_import api) d rc Hd Hdec) as [d' E].
    { intros t (_ & _ & _ & _ & H & _). by apply (toggle_total api t _ H). }
    exists d'. split_and!; [exact E| |].
    - apply (in_table_preserves [lit "common"] (toggle_import api)) with (t := d); [|done|exact E].
      intros t t' Ht. unfold toggle_import. destruct (get (lit "import_std") t) as [[]|]; try done; intros H;
        match type of H with Some ?x = _ => assert (t' = x) as -> by congruence end; by apply no_inline_put.
    - eexists. by apply (decode_toggle api d).
  Qed.

  Lemma update_edit (n : nat) (d : table) (rc : raw_config) :
    no_inline_tables d -> decode d = Some rc ->
    exists d', update_document n d = Some d' /\ no_inline_tables d' /\ is_Some (decode d').
  Proof.
    intros Hd Hdec.
    assert (H : is_Some (update_document n d)).
    { unfold update_document. destruct n as [|[|[|n]]]; try (by eexists).
      apply in_table_total.
      - apply document_is_iff in Hdec as (H1 & H2 & H3 & H4 & H5 & H6).
        change [lit "rustc"; lit "sandbox"] with ([lit "rustc"] ++ [lit "sandbox"]). apply tables_app.
        unfold field in H6. cbn [tables reached]. destruct (get (lit "rustc") d) as [i|] eqn:E; [|done].
        destruct i as [| | | | |u|u]; try done; [by destruct (no_inline_get d (lit "rustc") u Hd)|].
        split; [done|]. unfold rustc_of in H6. cbn [table_of mbind option_bind] in H6.
        destruct (known [lit "sandbox"] u); [|done].
        apply (sandbox_section (lit "sandbox") u _ _ (no_inline_sub d (lit "rustc") u Hd E) H6).
      - destruct (get (lit "kind") _); by eexists. }
    destruct H as [d' E]. exists d'. split_and!; [done| |].
    - unfold update_document in E. destruct n as [|[|[|n]]]; try (by injection E as <-).
      match type of E with in_table ?p ?f _ = _ => apply (in_table_preserves p f) with (t := d); [|done|exact E] end.
      intros t t' Ht. destruct (get (lit "kind") t); intros H;
        match type of H with Some ?x = _ => assert (t' = x) as -> by congruence end; [done|by apply no_inline_put].
    - eexists. by apply (decode_update_document n d).
  Qed.

  Lemma inline_edit (api : str) (config : api_config) (d : table) (rc : raw_config) :
    no_inline_tables d -> decode d = Some rc ->
    exists d', inline_api api config d = Some d' /\ no_inline_tables d' /\ is_Some (decode d').
  Proof.
    intros Hd Hdec. destruct (api_section api d rc Hd Hdec) as [Ht [ac Hac]].
    assert (H : is_Some (inline_api api config d)).
    { apply in_table_total; [done|]. pose proof Hac as (A1 & A2 & A3 & A4).
      destruct (add_to_array_ok _ (ac_include config) _ _ A2) as [t' E]. rewrite E. cbn [mbind option_bind].
      destruct (implements_include _ _ _ _ Hac E) as (B1 & B2 & B3 & B4).
      destruct (add_to_array_ok _ (ac_exclude config) _ _ B3) as [t'' ->]. by eexists. }
    destruct H as [d' E]. exists d'. split_and!; [done| |].
    - apply (in_table_preserves [lit "api"; api] (fun t => t ← add_to_array (lit "include") (ac_include config) t;
        add_to_array (lit "exclude") (ac_exclude config) t)) with (t := d); [|done|exact E].
      intros t t' Ht' Hx. destruct (add_to_array (lit "include") (ac_include config) t) as [t1|] eqn:E1; [|done].
      cbn [mbind option_bind] in Hx. refine (add_to_array_preserves _ _ t1 t' _ Hx).
      by apply (add_to_array_preserves _ _ t t1 Ht' E1).
    - eexists. apply (decode_in_api api _ _ d d' rc (implements_inline _ _) Hdec E).
  Qed.

  Lemma create_import_total (t : table) (pc : package_config) : section_is t pc -> is_Some (create_import t).
  Proof.
    intros (H1 & H2 & H3 & H4 & H5 & H6 & H7 & H8 & H9 & H10 & H11). unfold opt_field in H11. unfold create_import.
    destruct (get (lit "import") t) as [[]|]; try done; by eexists.
  Qed.

  Lemma edits_apply (e : edit) (d : table) (rc : raw_config) :
    decode d = Some rc -> no_inline_tables d ->
    (forall k, e = SelectSandbox k -> usable k = true) ->
    (forall api, e = InlineStdApi api -> is_Some (b !! api)) ->
    is_Some (apply_edit usable b e d).
  Proof.
    intros Hdec Hd Hk Hb.
    assert (Hput : forall sel k v, is_Some (set_in_package sel k v d)).
    { intros sel k v. apply (package_edit sel _ d rc Hd Hdec). intros t pc _. by eexists. }
    assert (Hsb : forall sel k v, is_Some (set_in_sandbox sel k v d)).
    { intros sel k v. destruct (package_section sel d rc Hd Hdec) as [Ht [pc Hpc]].
      apply in_table_total; [|by eexists]. apply tables_app. split; [done|].
      destruct Hpc as (H1 & H2 & H3 & H4 & H5 & H6 & H7 & H8 & H9 & H10 & H11).
      apply (sandbox_section _ _ _ _ (no_inline_reached _ _ Hd) H10). }
    assert (Hadd : forall sel k vs, k = lit "allow_apis" \/ k = lit "allow_build_instructions" \/ k = lit "import" ->
      is_Some (in_table (pkg_path sel) (add_to_array k vs) d)).
    { intros sel k vs Hkk. apply (package_edit sel _ d rc Hd Hdec).
      intros t pc (H1 & H2 & H3 & H4 & H5 & H6 & H7 & H8 & H9 & H10 & H11).
      destruct Hkk as [->|[->| ->]].
      - by apply (add_to_array_ok _ vs t _ H5).
      - by apply (add_to_array_ok _ vs t _ H4).
      - unfold opt_field in H11. unfold add_to_array. destruct vs; [by eexists|].
        destruct (get (lit "import") t) as [[]|]; try done; by eexists. }
    assert (Hapi : forall api k vs, k = lit "include" \/ k = lit "exclude" \/ k = lit "no_auto_detect" ->
      is_Some (in_table [lit "api"; api] (add_to_array k vs) d)).
    { intros api k vs Hkk. destruct (api_section api d rc Hd Hdec) as [Ht [ac (A1 & A2 & A3 & A4)]].
      apply in_table_total; [done|]. destruct Hkk as [->|[->| ->]].
      - by apply (add_to_array_ok _ vs _ _ A2).
      - by apply (add_to_array_ok _ vs _ _ A3).
      - by apply (add_to_array_ok _ vs _ _ A4). }
    destruct e; cbn [apply_edit]; auto.
    - destruct (version_edit max_version d rc Hd Hdec) as (d' & -> & _). by eexists.
    - destruct (version_edit max_version d rc Hd Hdec) as (d1 & -> & N1 & [r1 D1]). cbn [mbind option_bind].
      destruct (toggle_edit (lit "fs") d1 r1 N1 D1) as (d2 & -> & N2 & [r2 D2]). cbn [mbind option_bind].
      destruct (toggle_edit (lit "net") d2 r2 N2 D2) as (d3 & -> & N3 & [r3 D3]). cbn [mbind option_bind].
      destruct (toggle_edit (lit "process") d3 r3 N3 D3) as (d4 & -> & _). by eexists.
    - rewrite (Hk _ eq_refl). apply in_table_total; [|by eexists].
      apply document_is_iff in Hdec as (H1 & H2 & H3 & H4 & H5 & H6).
      apply (sandbox_section _ _ _ _ Hd H5).
    - destruct (toggle_edit api d rc Hd Hdec) as (d' & -> & _). by eexists.
    - destruct (Hb _ eq_refl) as [x ->]. destruct (inline_edit api x d rc Hd Hdec) as (d' & -> & _). by eexists.
    - destruct (inline_edit api config d rc Hd Hdec) as (d1 & -> & N1 & [r1 D1]). cbn [mbind option_bind].
      apply (package_edit (pkg, All) create_import d1 r1 N1 D1). apply create_import_total.
    - apply (package_edit (pkg, All) create_import d rc Hd Hdec). apply create_import_total.
    - destruct (Hadd sel (lit "allow_apis") [api]) as [d1 E]; [auto|]. rewrite E. cbn [mbind option_bind].
      apply removes_edit.
      + apply (in_table_preserves (pkg_path sel) _ (add_to_array_preserves (lit "allow_apis") [api]) d d1 Hd E).
      + destruct (decode_section sel _ _ d d1 rc (implements_apis [api]) Hdec E) as (pc' & -> & _). by eexists.
    - by apply (remove_edit sel apis d rc).
    - destruct (package_section sel d rc Hd Hdec) as [Ht _].
      apply in_opt_table_total; [|by eexists].
      destruct (pkg_path sel) as [|x l] eqn:E using rev_ind; [done|]. rewrite removelast_last.
      by apply tables_app in Ht as [Ht _].
    - destruct (version_edit (Z.of_nat number) d rc Hd Hdec) as (d' & -> & _). by eexists.
    - destruct (update_edit number d rc Hd Hdec) as (d1 & -> & N1 & [r1 D1]). cbn [mbind option_bind].
      destruct (version_edit (Z.of_nat number) d1 r1 N1 D1) as (d' & -> & _). by eexists.
  Qed.
End apply.
