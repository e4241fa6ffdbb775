(** Files that follow the manual are read. *)
From Verif Require Import Base BaseFacts ApiMapModel ConfigModel ConfigSpec ConfigProofs ConfigLoadProofs
  ReloadProofs TomlModel TomlProofs EditorSpec DocumentSpec DocumentProofs ManualSpec.

(** ** Lists of settings *)
Lemma in_get {A} (k : str) (a : A) (l : list (str * A)) :
  NoDup (map fst l) -> (k, a) ∈ l -> get k l = Some a.
Proof.
  induction l as [|[k1 b] l IH]; cbn [map fst get]; intros Hn H; [by apply elem_of_nil in H|].
  apply NoDup_cons in Hn as [Hk Hn]. apply elem_of_cons in H as [H|H].
  - assert (k = k1 /\ a = b) as [-> ->] by (by injection H). by rewrite str_eqb_refl.
  - destruct (str_eqb k k1) eqn:E; [|auto]. apply str_eqb_spec in E as ->. exfalso. apply Hk.
    apply elem_of_list_In, in_map_iff. exists (k1, a). split; [done|]. by apply elem_of_list_In.
Qed.

Lemma in_get_some {A} (k : str) (a : A) (l : list (str * A)) : (k, a) ∈ l -> exists b, get k l = Some b.
Proof.
  induction l as [|[k1 b] l IH]; cbn [get]; intros H; [by apply elem_of_nil in H|].
  destruct (str_eqb k k1) eqn:E; [eauto|]. apply elem_of_cons in H as [H|H]; [|auto].
  assert (k = k1) as -> by (by injection H). by rewrite str_eqb_refl in E.
Qed.

Lemma settings_once :
  NoDup (map fst in_common) /\ NoDup (map fst in_sandbox) /\ NoDup (map fst in_api) /\ NoDup (map fst in_package).
Proof. split_and!; apply (bool_decide_unpack _); vm_compute; exact I. Qed.

Lemma known_all {A} (names : list str) (t : list (str * A)) :
  (forall k a, get k t = Some a -> k ∈ names) -> known names t = true.
Proof.
  intros H. unfold known. apply forallb_forall. intros [k a] Hin%elem_of_list_In. cbn [fst].
  apply in_get_some in Hin as [b Hb]. apply mem_str_spec. eauto.
Qed.

(** ** Values *)
Lemma shape_flag (i : item) : has_shape AYesNo i -> is_Some (flag_of i).
Proof. intros [b ->]. by eexists. Qed.
Lemma shape_text (i : item) : has_shape AWord i -> is_Some (text_of i).
Proof. intros [b ->]. by eexists. Qed.
Lemma shape_integer (i : item) : has_shape ANumber i -> is_Some (integer_of i).
Proof. intros [b ->]. by eexists. Qed.
Lemma shape_texts (i : item) : has_shape AList i -> is_Some (texts_of i).
Proof.
  intros [l ->]. cbn [texts_of]. induction l as [|w l [m Hm]]; [by eexists|].
  cbn [map mapM text_of mbind option_bind]. rewrite Hm. by eexists.
Qed.
Lemma shape_kind (i : item) : has_shape ASandboxKind i -> is_Some (kind_of i).
Proof. intros [-> | ->]; vm_compute; by eexists. Qed.
Lemma shape_table (i : item) : has_shape ASection i -> exists t, table_of i = Some t.
Proof. intros [t [-> | ->]]; by exists t. Qed.

Lemma field_reads {A} (k : str) (d : A) (f : item -> option A) (s : shape) (t : table) :
  (forall i, has_shape s i -> is_Some (f i)) -> (forall i, get k t = Some i -> has_shape s i) ->
  exists a, field k d f t = Some a.
Proof.
  intros Hf Hk. unfold field. destruct (get k t) as [i|]; [|by eexists].
  destruct (Hf i) as [a Ha]; [auto|by exists a].
Qed.
Lemma opt_field_reads {A} (k : str) (f : item -> option A) (s : shape) (t : table) :
  (forall i, has_shape s i -> is_Some (f i)) -> (forall i, get k t = Some i -> has_shape s i) ->
  exists a, opt_field k f t = Some a.
Proof.
  intros Hf Hk. unfold opt_field. destruct (get k t) as [i|]; [|by eexists].
  destruct (Hf i) as [a Ha]; [auto|]. exists (Some a). by rewrite Ha.
Qed.

(** The settings of a section. *)
Definition set_as (l : list (str * shape)) (k : str) (i : item) : Prop := exists s, (k, s) ∈ l /\ has_shape s i.

Lemma set_known (l : list (str * shape)) (k : str) (i : item) : set_as l k i -> k ∈ map fst l.
Proof.
  intros (s & H & _). apply elem_of_list_In, in_map_iff. exists (k, s). split; [done|].
  by apply elem_of_list_In.
Qed.
Lemma set_shape (l : list (str * shape)) (k : str) (s : shape) (i : item) :
  NoDup (map fst l) -> get k l = Some s -> set_as l k i -> has_shape s i.
Proof. intros Hn Hg (s' & H & Hs). apply in_get in H; [|done]. assert (s' = s) as -> by congruence. done. Qed.
Lemma set_not (l : list (str * shape)) (k : str) (i : item) :
  NoDup (map fst l) -> get k l = None -> set_as l k i -> False.
Proof. intros Hn Hg (s' & H & Hs). apply in_get in H; [|done]. congruence. Qed.

Ltac setting H once := intros ? ?; eapply set_shape; [exact once| |by apply H]; vm_compute; reflexivity.

Lemma sandbox_total (t : table) :
  (forall k i, get k t = Some i -> set_as in_sandbox k i) -> exists sb, sandbox_is t sb.
Proof.
  intros H. pose proof (proj1 (proj2 settings_once)) as Hn.
  destruct (opt_field_reads (lit "kind") kind_of ASandboxKind t shape_kind) as [a Ha]; [setting H Hn|].
  destruct (field_reads (lit "extra_args") [] texts_of AList t shape_texts) as [b Hb]; [setting H Hn|].
  destruct (opt_field_reads (lit "allow_network") flag_of AYesNo t shape_flag) as [c Hc]; [setting H Hn|].
  destruct (field_reads (lit "bind_writable") [] texts_of AList t shape_texts) as [d Hd]; [setting H Hn|].
  destruct (field_reads (lit "make_writable") [] texts_of AList t shape_texts) as [e He]; [setting H Hn|].
  destruct (field_reads (lit "pass_env") [] texts_of AList t shape_texts) as [f Hf]; [setting H Hn|].
  exists (SandboxConfig a b c d e f). split_and!; try done.
  apply known_all. intros k i Hk. exact (set_known in_sandbox k i (H k i Hk)).
Qed.

Lemma api_total (t : table) :
  (forall k i, get k t = Some i -> set_as in_api k i) -> exists ac, api_is t ac.
Proof.
  intros H. pose proof (proj1 (proj2 (proj2 settings_once))) as Hn.
  destruct (field_reads (lit "include") [] texts_of AList t shape_texts) as [a Ha]; [setting H Hn|].
  destruct (field_reads (lit "exclude") [] texts_of AList t shape_texts) as [b Hb]; [setting H Hn|].
  destruct (field_reads (lit "no_auto_detect") [] texts_of AList t shape_texts) as [c Hc]; [setting H Hn|].
  exists (ApiConfig a b c). split_and!; try done.
  apply known_all. intros k i Hk. exact (set_known in_api k i (H k i Hk)).
Qed.

Lemma item_sandbox (i : item) (t : table) :
  table_of i = Some t -> (forall k j, get k t = Some j -> set_as in_sandbox k j) -> is_Some (sandbox_of i).
Proof.
  intros Ht H. destruct (sandbox_total t H) as [sb Hsb]. apply sandbox_is_iff in Hsb. exists sb.
  destruct i; try done; injection Ht as ->; done.
Qed.
Lemma item_api (i : item) (t : table) :
  table_of i = Some t -> (forall k j, get k t = Some j -> set_as in_api k j) -> is_Some (api_of i).
Proof.
  intros Ht H. destruct (api_total t H) as [sb Hsb]. apply api_is_iff in Hsb. exists sb.
  destruct i; try done; injection Ht as ->; done.
Qed.

(** ** Places *)

(** The places as a function. *)
Definition in_section (q : list str) : option shape :=
  match q with
  | [] => Some ASection
  | [k] => if str_eqb k (lit "sandbox") then Some ASection else get k in_package
  | [k; x] => if str_eqb k (lit "sandbox") then get x in_sandbox else None
  | _ => None
  end.
Definition shape_in_package (q : list str) : option shape :=
  match q with
  | [] => Some ASection
  | k :: q' =>
      if str_eqb k (lit "build") || str_eqb k (lit "test") then in_section q'
      else if str_eqb k (lit "from") then
        match q' with
        | [] => Some ASection
        | y :: q'' => if str_eqb y (lit "build") || str_eqb y (lit "test") then in_section q'' else None
        end
      else in_section q
  end.
Definition shape_at (p : list str) : option shape :=
  match p with
  | [] => None
  | [a] => if mem_str a config_fields then Some ASection else None
  | a :: b :: r =>
      if str_eqb a (lit "common") then match r with [] => get b in_common | _ => None end
      else if str_eqb a (lit "sandbox") then match r with [] => get b in_sandbox | _ => None end
      else if str_eqb a (lit "rustc") then
        if str_eqb b (lit "sandbox") then
          match r with [] => Some ASection | [k] => get k in_sandbox | _ => None end
        else None
      else if str_eqb a (lit "api") then
        match r with [] => Some ASection | [k] => get k in_api | _ => None end
      else if str_eqb a (lit "pkg") then shape_in_package r
      else None
  end.

Lemma not_key (l : list (str * shape)) (k k' : str) (s : shape) :
  get k l = Some s -> get k' l = None -> str_eqb k k' = false.
Proof. intros H H'. destruct (str_eqb k k') eqn:E; [|done]. apply str_eqb_spec in E as ->. congruence. Qed.

Lemma place_shape (p : list str) (s : shape) : place p s -> shape_at p = Some s.
Proof.
  destruct settings_once as (N1 & N2 & N3 & N4).
  assert (Hp : forall k s k', (k, s) ∈ in_package -> get k' in_package = None -> str_eqb k k' = false).
  { intros k s' k' H H'. eapply not_key; [by apply in_get|done]. }
  destruct 1; cbn [shape_at]; lits; try (by apply in_get); try (vm_compute; reflexivity).
  all: destruct sc; unfold section_path; cbn [app scope_path shape_at shape_in_package in_section]; lits;
    cbn [orb in_section]; try (vm_compute; reflexivity); try (by apply in_get).
  all: rewrite ?(Hp k s (lit "build") H), ?(Hp k s (lit "test") H), ?(Hp k s (lit "from") H),
      ?(Hp k s (lit "sandbox") H) by (vm_compute; reflexivity); cbn [orb]; by apply in_get.
Qed.

(** ** Sections of packages *)
Definition package_entry (k : str) (i : item) : Prop :=
  set_as in_package k i \/ (k = lit "sandbox" /\ is_Some (sandbox_of i)) \/
  ((k = lit "build" \/ k = lit "test") /\ is_Some (package_of i)) \/
  (k = lit "from" /\ is_Some (from_item i)).

Lemma entry_shape (k : str) (s : shape) (i : item) :
  get k in_package = Some s -> package_entry k i -> has_shape s i.
Proof.
  intros Hg [H|[[-> _]|[[[-> | ->] _]|[-> _]]]].
  2-5: vm_compute in Hg; discriminate.
  destruct settings_once as (_ & _ & _ & Hn). by eapply set_shape.
Qed.

Lemma package_total (t : table) :
  (forall k i, get k t = Some i -> package_entry k i) -> exists pc, section_is t pc.
Proof.
  intros H. destruct settings_once as (_ & _ & _ & Hn).
  assert (Hp : forall k s, get k in_package = Some s -> forall i, get k t = Some i -> has_shape s i).
  { intros k s Hs i Hi. exact (entry_shape k s i Hs (H k i Hi)). }
  assert (Hx : forall k i, get k in_package = None -> get k t = Some i -> ~ set_as in_package k i).
  { intros k i Hk _ Hs. by eapply set_not. }
  destruct (field_reads (lit "allow_unsafe") false flag_of AYesNo t shape_flag) as [a Ha]; [by apply Hp; vm_compute|].
  destruct (field_reads (lit "allow_extern") false flag_of AYesNo t shape_flag) as [b Hb]; [by apply Hp; vm_compute|].
  destruct (field_reads (lit "allow_build_instructions") [] texts_of AList t shape_texts) as [c Hc]; [by apply Hp; vm_compute|].
  destruct (field_reads (lit "allow_apis") [] texts_of AList t shape_texts) as [d Hd]; [by apply Hp; vm_compute|].
  destruct (field_reads (lit "allow_proc_macro") false flag_of AYesNo t shape_flag) as [e He]; [by apply Hp; vm_compute|].
  destruct (opt_field_reads (lit "import") texts_of AList t shape_texts) as [f Hf]; [by apply Hp; vm_compute|].
  assert (Hsub : forall k, k = lit "build" \/ k = lit "test" -> exists o, opt_field k package_of t = Some o).
  { intros k Hk. unfold opt_field. destruct (get k t) as [i|] eqn:E; [|by eexists].
    assert (is_Some (package_of i)) as [pc Hpc].
    { destruct (H k i E) as [Hs|[[-> _]|[[_ Hs]|[-> _]]]]; [|exfalso|done|exfalso].
      - exfalso. apply (Hx k i); [|done|done]. destruct Hk as [-> | ->]; vm_compute; reflexivity.
      - destruct Hk as [Hk|Hk]; revert Hk; apply (bool_decide_unpack _); vm_compute; exact I.
      - destruct Hk as [Hk|Hk]; revert Hk; apply (bool_decide_unpack _); vm_compute; exact I. }
    exists (Some pc). by rewrite Hpc. }
  destruct (Hsub (lit "build") (or_introl eq_refl)) as [g Hg].
  destruct (Hsub (lit "test") (or_intror eq_refl)) as [h Hh].
  assert (exists o, opt_field (lit "from") from_item t = Some o) as [j Hj].
  { unfold opt_field. destruct (get (lit "from") t) as [i|] eqn:E; [|by eexists].
    assert (is_Some (from_item i)) as [pc Hpc].
    { destruct (H _ i E) as [Hs|[[Hk _]|[[Hk _]|[_ Hs]]]]; [|exfalso|exfalso|done].
      - exfalso. apply (Hx (lit "from") i); [vm_compute; reflexivity|done|done].
      - revert Hk; apply (bool_decide_unpack _); vm_compute; exact I.
      - destruct Hk as [Hk|Hk]; revert Hk; apply (bool_decide_unpack _); vm_compute; exact I. }
    exists (Some pc). by rewrite Hpc. }
  assert (exists o, field (lit "sandbox") sandbox_default sandbox_of t = Some o) as [l Hl].
  { unfold field. destruct (get (lit "sandbox") t) as [i|] eqn:E; [|by eexists].
    destruct (H _ i E) as [Hs|[[Hk [sb Hs]]|[[Hk _]|[Hk _]]]]; [exfalso|by exists sb|exfalso|exfalso].
    - apply (Hx (lit "sandbox") i); [vm_compute; reflexivity|done|done].
    - destruct Hk as [Hk|Hk]; revert Hk; apply (bool_decide_unpack _); vm_compute; exact I.
    - revert Hk; apply (bool_decide_unpack _); vm_compute; exact I. }
  exists (PackageConfig a b c d e g h j l f). split_and!; try done.
  apply known_all. intros k i Hk.
  destruct (H k i Hk) as [Hs|[[-> _]|[[[-> | ->] _]|[-> _]]]].
  2-5: apply (bool_decide_unpack _); vm_compute; exact I.
  apply set_known in Hs. revert k Hk Hs. assert (Hall : forall k, k ∈ map fst in_package -> k ∈ package_fields).
  { intros k Hk. unfold in_package, package_fields in *. cbn [map fst] in Hk.
    rewrite !elem_of_cons, elem_of_nil in *. tauto. }
  auto.
Qed.

Lemma item_package (i : item) (t : table) :
  table_of i = Some t -> (forall k j, get k t = Some j -> package_entry k j) -> is_Some (package_of i).
Proof.
  intros Ht H. destruct (package_total t H) as [pc Hpc]. apply section_is_iff in Hpc. exists pc.
  destruct i; try done; injection Ht as ->; done.
Qed.

Lemma item_from (i : item) (t : table) :
  table_of i = Some t ->
  (forall k j, get k t = Some j -> (k = lit "build" \/ k = lit "test") /\ is_Some (package_of j)) ->
  is_Some (from_item i).
Proof.
  intros Ht H.
  assert (Hsub : forall k, exists o, opt_field k package_of t = Some o).
  { intros k. unfold opt_field. destruct (get k t) as [j|] eqn:E; [|by eexists].
    destruct (H k j E) as [_ [pc Hpc]]. exists (Some pc). by rewrite Hpc. }
  destruct (Hsub (lit "build")) as [b Hb]. destruct (Hsub (lit "test")) as [c Hc].
  assert (Hf : from_is t (FromConfig b c)).
  { split_and!; try done. apply known_all. intros k j Hk. destruct (H k j Hk) as [[-> | ->] _];
      apply (bool_decide_unpack _); vm_compute; exact I. }
  apply from_is_iff in Hf. exists (FromConfig b c). destruct i; try done; injection Ht as ->; done.
Qed.

(** ** Documents *)
Section document.
  Context (d : table) (H : follows_the_manual d).

  Lemma below (p : list str) (t : table) (k : str) (i : item) :
    sub p d = Some t -> get k t = Some i -> exists s, shape_at (p ++ [k]) = Some s /\ has_shape s i.
  Proof using H.
    intros Hp Hk. destruct (H (p ++ [k]) i) as (s & Hs & Hi); [by rewrite at_path_sub, Hp|].
    exists s. split; [by apply place_shape|done].
  Qed.

  Lemma below_table (p : list str) (t u : table) (k : str) (i : item) :
    sub p d = Some t -> get k t = Some i -> table_of i = Some u -> sub (p ++ [k]) d = Some u.
  Proof using. intros Hp Hk Hu. by apply (sub_table p d t Hp k i u). Qed.

  Lemma set_below (l : list (str * shape)) (p : list str) (t : table) :
    (forall k s, shape_at (p ++ [k]) = Some s -> get k l = Some s) ->
    sub p d = Some t -> forall k i, get k t = Some i -> set_as l k i.
  Proof using H.
    intros Hl Hp k i Hk. destruct (below p t k i Hp Hk) as (s & Hs & Hi). exists s. split; [|done].
    by apply get_in, Hl.
  Qed.

  (** The section at a place where the settings of a sandbox are. *)
  Lemma sandbox_below (p : list str) (k : str) (t : table) (i : item) :
    shape_at (p ++ [k]) = Some ASection ->
    (forall x s, shape_at ((p ++ [k]) ++ [x]) = Some s -> get x in_sandbox = Some s) ->
    sub p d = Some t -> get k t = Some i -> is_Some (sandbox_of i).
  Proof using H.
    intros Hs Hx Hp Hk. destruct (below p t k i Hp Hk) as (s & Hs' & Hi).
    assert (s = ASection) as -> by congruence. apply shape_table in Hi as [u Hu].
    apply (item_sandbox i u Hu). apply (set_below in_sandbox (p ++ [k])); [done|].
    by apply (below_table p t u k i).
  Qed.

  (** A section without further sections. *)
  Lemma section_below (p : list str) (t : table) :
    (forall q, q <> [] -> shape_at (p ++ q) = in_section q) ->
    sub p d = Some t -> forall k i, get k t = Some i ->
    set_as in_package k i \/ (k = lit "sandbox" /\ is_Some (sandbox_of i)).
  Proof using H.
    intros Hq Hp k i Hk. destruct (below p t k i Hp Hk) as (s & Hs & Hi).
    rewrite Hq in Hs by done. cbn [in_section] in Hs.
    destruct (str_eqb k (lit "sandbox")) eqn:E.
    - apply str_eqb_spec in E as ->. right. split; [done|]. apply (sandbox_below p (lit "sandbox") t i); try done.
      + rewrite Hq by done. cbn [in_section]. by lits.
      + intros x s' Hx. rewrite <- app_assoc in Hx. rewrite Hq in Hx by done. cbn [app in_section] in Hx. revert Hx. by lits.
    - left. exists s. split; [by apply get_in|done].
  Qed.

  Lemma local_section (p : list str) (k : str) (t : table) (i : item) :
    (forall q, shape_at ((p ++ [k]) ++ q) = in_section q) ->
    sub p d = Some t -> get k t = Some i -> is_Some (package_of i).
  Proof using H.
    intros Hq Hp Hk. destruct (below p t k i Hp Hk) as (s & Hs & Hi).
    pose proof (Hq []) as Hn. rewrite app_nil_r in Hn. rewrite Hn in Hs. cbn [in_section] in Hs.
    assert (s = ASection) as -> by congruence. apply shape_table in Hi as [u Hu].
    apply (item_package i u Hu). intros x j Hx.
    destruct (section_below (p ++ [k]) u (fun q _ => Hq q) (below_table p t u k i Hp Hk Hu) x j Hx) as [?|?];
      [by left|right; by left].
  Qed.

  Lemma local_place (pkg : str) (k : str) (q : list str) :
    k = lit "build" \/ k = lit "test" -> shape_at (([lit "pkg"; pkg] ++ [k]) ++ q) = in_section q.
  Proof using. intros [-> | ->]; cbn [app shape_at shape_in_package]; by lits. Qed.
  Lemma from_place (pkg : str) (k : str) (q : list str) :
    k = lit "build" \/ k = lit "test" ->
    shape_at (([lit "pkg"; pkg; lit "from"] ++ [k]) ++ q) = in_section q.
  Proof using. intros [-> | ->]; cbn [app shape_at shape_in_package]; by lits. Qed.

  Lemma package_below (pkg : str) (t : table) (i : item) :
    sub [lit "pkg"] d = Some t -> get pkg t = Some i -> is_Some (package_of i).
  Proof using H.
    intros Hp Hk. destruct (below [lit "pkg"] t pkg i Hp Hk) as (s & Hs & Hi).
    cbn [app shape_at] in Hs. revert Hs. lits. cbn [shape_in_package]. intros Hs.
    assert (s = ASection) as -> by congruence. clear Hs. apply shape_table in Hi as [u Hu].
    pose proof (below_table [lit "pkg"] t u pkg i Hp Hk Hu) as Hs. cbn [app] in Hs.
    apply (item_package i u Hu). intros k j Hj.
    destruct (below [lit "pkg"; pkg] u k j Hs Hj) as (s & Hsh & Hj').
    cbn [app shape_at] in Hsh. revert Hsh. lits. cbn [shape_in_package].
    destruct (str_eqb k (lit "build") || str_eqb k (lit "test")) eqn:E1.
    { assert (Hb : k = lit "build" \/ k = lit "test").
      { apply orb_true_iff in E1. by rewrite !str_eqb_spec in E1. }
      intros _. right. right. left. split; [done|].
      apply (local_section [lit "pkg"; pkg] k u j); try done. intros q. by apply local_place. }
    destruct (str_eqb k (lit "from")) eqn:E2.
    { apply str_eqb_spec in E2 as ->. intros Hsh. assert (s = ASection) as -> by congruence.
      apply shape_table in Hj' as [w Hw]. right. right. right. split; [done|].
      pose proof (below_table [lit "pkg"; pkg] u w (lit "from") j Hs Hj Hw) as Hs2. cbn [app] in Hs2.
      apply (item_from j w Hw). intros x y Hy.
      destruct (below [lit "pkg"; pkg; lit "from"] w x y Hs2 Hy) as (s & Hsh2 & _).
      cbn [app shape_at shape_in_package] in Hsh2. revert Hsh2. lits. cbn [orb].
      destruct (str_eqb x (lit "build") || str_eqb x (lit "test")) eqn:E3; [|done]. intros _.
      assert (Hb : x = lit "build" \/ x = lit "test").
      { apply orb_true_iff in E3. by rewrite !str_eqb_spec in E3. }
      split; [done|]. apply (local_section [lit "pkg"; pkg; lit "from"] x w y); try done.
      intros q. by apply from_place. }
    cbn [in_section]. destruct (str_eqb k (lit "sandbox")) eqn:E3.
    - apply str_eqb_spec in E3 as ->. intros _. right. left. split; [done|].
      apply (sandbox_below [lit "pkg"; pkg] (lit "sandbox") u j); [| |done|done].
      + cbn [app shape_at shape_in_package in_section]. by lits.
      + intros x s'. cbn [app shape_at shape_in_package in_section]. by lits.
    - intros Hsh. left. exists s. split; [by apply get_in|done].
  Qed.

  Lemma api_below (api : str) (t : table) (i : item) :
    sub [lit "api"] d = Some t -> get api t = Some i -> is_Some (api_of i).
  Proof using H.
    intros Hp Hk. destruct (below [lit "api"] t api i Hp Hk) as (s & Hs & Hi).
    cbn [app shape_at] in Hs. revert Hs. lits. intros Hs.
    assert (s = ASection) as -> by congruence. clear Hs. apply shape_table in Hi as [u Hu].
    pose proof (below_table [lit "api"] t u api i Hp Hk Hu) as Hs. cbn [app] in Hs.
    apply (item_api i u Hu). apply (set_below in_api [lit "api"; api]); [|done].
    intros k s. cbn [app shape_at]. by lits.
  Qed.

  Lemma rustc_below (i : item) : get (lit "rustc") d = Some i -> is_Some (rustc_of i).
  Proof using H.
    intros Hk. destruct (below [] d (lit "rustc") i eq_refl Hk) as (s & Hs & Hi).
    assert (s = ASection) as -> by (revert Hs; vm_compute; congruence). clear Hs.
    apply shape_table in Hi as [u Hu].
    pose proof (below_table [] d u (lit "rustc") i eq_refl Hk Hu) as Hs. cbn [app] in Hs.
    unfold rustc_of. rewrite Hu. cbn [mbind option_bind].
    assert (Hkn : known [lit "sandbox"] u = true).
    { apply known_all. intros k j Hj. destruct (below [lit "rustc"] u k j Hs Hj) as (s & Hsh & _).
      cbn [app shape_at] in Hsh. revert Hsh. lits. destruct (str_eqb k (lit "sandbox")) eqn:E; [|done].
      apply str_eqb_spec in E as ->. intros _. left. }
    rewrite Hkn. unfold field. destruct (get (lit "sandbox") u) as [j|] eqn:Ej; [|by eexists].
    apply (sandbox_below [lit "rustc"] (lit "sandbox") u j); [| |done|done].
    + cbn [app shape_at]. by lits.
    + intros x s'. cbn [app shape_at]. by lits.
  Qed.

  Lemma common_below (v : Z) :
    names_version d v ->
    exists e l, get (lit "common") d ≫= common_of = Some (v, e, l).
  Proof using H.
    intros Hv. unfold names_version in Hv.
    destruct (at_path_cons _ _ _ _ Hv) as (i & Hk & [[? _]|(u & Hu & _ & Hver)]); [done|].
    cbn [at_path] in Hver. rewrite Hk. cbn [mbind option_bind]. unfold common_of. rewrite Hu. cbn [mbind option_bind].
    pose proof (below_table [] d u (lit "common") i eq_refl Hk Hu) as Hs. cbn [app] in Hs.
    assert (Hset : forall k j, get k u = Some j -> set_as in_common k j).
    { apply (set_below in_common [lit "common"]); [|done]. intros k s. cbn [app shape_at]. by lits. }
    pose proof (proj1 settings_once) as Hn.
    assert (Hkn : known common_fields u = true).
    { apply known_all. intros k j Hj. exact (set_known in_common k j (Hset k j Hj)). }
    rewrite Hkn, Hver. cbn [mbind option_bind integer_of].
    destruct (field_reads (lit "explicit_build_scripts") false flag_of AYesNo u shape_flag) as [a Ha]; [setting Hset Hn|].
    destruct (opt_field_reads (lit "build_flags") texts_of AList u shape_texts) as [b Hb]; [setting Hset Hn|].
    destruct (field_reads (lit "import_std") [] texts_of AList u shape_texts) as [c Hc]; [setting Hset Hn|].
    destruct (field_reads (lit "features") [] texts_of AList u shape_texts) as [e He]; [setting Hset Hn|].
    destruct (opt_field_reads (lit "profile") text_of AWord u shape_text) as [f Hf]; [setting Hset Hn|].
    rewrite Ha. cbn [mbind option_bind]. rewrite Hb. cbn [mbind option_bind]. rewrite Hc. cbn [mbind option_bind].
    rewrite He. cbn [mbind option_bind]. rewrite Hf. cbn [mbind option_bind]. eauto.
  Qed.

  Lemma map_below {A} (k : str) (f : item -> option A) :
    shape_at [k] = Some ASection -> keys_once d ->
    (forall t k' i, sub [k] d = Some t -> get k' t = Some i -> is_Some (f i)) ->
    exists m, field k ∅ (map_of f) d = Some m.
  Proof using H.
    intros Hk [_ Ho] Hf. unfold field. destruct (get k d) as [i|] eqn:Ei; [|by eexists].
    destruct (below [] d k i eq_refl Ei) as (s & Hs & Hi). cbn [app] in Hs.
    assert (s = ASection) as -> by congruence.
    assert (exists t, table_of i = Some t /\ NoDup (map fst t)) as (t & Ht & Hnd).
    { destruct Hi as [t [-> | ->]]; exists t; (split; [done|]); apply (Ho [k]); cbn [at_path]; auto. }
    pose proof (below_table [] d t k i eq_refl Ei Ht) as Hst. cbn [app] in Hst.
    destruct (entries_of_total f t) as [l Hl].
    { intros [k' j] Hin. cbn [snd]. apply (Hf t k' j Hst). by apply in_get. }
    exists (list_to_map l). unfold map_of. rewrite Ht. cbn [mbind option_bind]. by rewrite Hl.
  Qed.

  Lemma documented_reads (v : Z) :
    keys_once d -> names_version d v -> exists rc, decode d = Some rc.
  Proof using H.
    intros Ho Hv. destruct (common_below v Hv) as (e & l & Hc).
    destruct (map_below (lit "api") api_of) as [apis Ha]; [by vm_compute|done|intros; by eapply api_below|].
    destruct (map_below (lit "pkg") package_of) as [pkgs Hp]; [by vm_compute|done|intros; by eapply package_below|].
    assert (exists sb, field (lit "sandbox") sandbox_default sandbox_of d = Some sb) as [sb Hsb].
    { unfold field. destruct (get (lit "sandbox") d) as [i|] eqn:E; [|by eexists].
      destruct (sandbox_below [] (lit "sandbox") d i) as [sb Hsb]; [by vm_compute| |done|done|by exists sb].
      intros x s. cbn [app shape_at]. by lits. }
    assert (exists sb, field (lit "rustc") sandbox_default rustc_of d = Some sb) as [rsb Hr].
    { unfold field. destruct (get (lit "rustc") d) as [i|] eqn:E; [|by eexists].
      destruct (rustc_below i E) as [rsb ?]. by exists rsb. }
    exists (RawConfig v e l apis pkgs sb rsb). apply document_is_iff. split_and!; try done.
    apply known_all. intros k i Hk. destruct (below [] d k i eq_refl Hk) as (s & Hs & _).
    cbn [app shape_at] in Hs. destruct (mem_str k config_fields) eqn:E; [|done]. by apply mem_str_spec.
  Qed.
End document.

(** ** Loading *)

(** The sections below that of a package have no sections of their own. *)
Lemma source_of_section (d : table) (rc : raw_config) (pkg : str) (s : scope) (sec : package_config) :
  decode d = Some rc -> section rc pkg s = Some sec ->
  exists u, sub (section_path pkg s) d = Some u /\ section_is u sec.
Proof.
  intros (_ & _ & _ & Hpkg & _ & _)%document_is_iff. unfold section, field in *.
  destruct (get (lit "pkg") d) as [i|] eqn:E.
  2:{ assert (rc_packages rc = ∅) as -> by congruence. by rewrite lookup_empty. }
  apply map_of_table in Hpkg as (t & Ht & Hall & Hm).
  assert (Hs : sub [lit "pkg"] d = Some t) by (cbn [sub]; by rewrite E; cbn; rewrite Ht).
  rewrite (Hm pkg). destruct (get pkg t) as [j|] eqn:Ej; cbn [mbind option_bind]; [|done].
  destruct (Hall (pkg, j)) as [pc Hpc]; [by apply get_in|]. cbn [snd] in Hpc. rewrite Hpc.
  destruct (package_of_table _ _ Hpc) as (u & Hu & Hsec).
  destruct (sub_table [lit "pkg"] d t Hs pkg j u Ej Hu) as [Hs2 _]. cbn [app] in Hs2.
  pose proof Hsec as (_ & _ & _ & _ & _ & _ & H6 & H7 & H8 & _ & _).
  assert (Hsub : forall p w k o, sub p d = Some w -> opt_field k package_of w = Some o -> o = Some sec ->
    exists u, sub (p ++ [k]) d = Some u /\ section_is u sec).
  { intros p w k o Hp Ho ->. unfold opt_field in Ho. destruct (get k w) as [x|] eqn:Ex; [|done].
    destruct (package_of x) as [sec'|] eqn:Esec; [|done]. assert (sec' = sec) as -> by (cbn in Ho; congruence).
    destruct (package_of_table _ _ Esec) as (y & Hy & Hs'). exists y. split; [|done].
    by apply (sub_table p d w Hp k x y). }
  destruct s; unfold section_path; cbn [scope_path app].
  - intros Heq. assert (pc = sec) as -> by congruence. exists u. done.
  - intros Heq. by apply (Hsub [lit "pkg"; pkg] u (lit "build") (pc_build pc)).
  - intros Heq. by apply (Hsub [lit "pkg"; pkg] u (lit "test") (pc_test pc)).
  - unfold opt_field in H8. destruct (get (lit "from") u) as [x|] eqn:Ex.
    + destruct (from_item x) as [fc|] eqn:Ef; [|done].
      assert (pc_from pc = Some fc) as -> by (cbn [fmap option_fmap option_map] in *; congruence).
      destruct (from_item_table _ _ Ef) as (w & Hw & (_ & Hb & _)).
      destruct (sub_table _ d u Hs2 (lit "from") x w Ex Hw) as [Hs3 _]. cbn [app] in Hs3.
      intros Heq. by apply (Hsub [lit "pkg"; pkg; lit "from"] w (lit "build") (fc_build fc)).
    + assert (pc_from pc = None) as -> by congruence. done.
  - unfold opt_field in H8. destruct (get (lit "from") u) as [x|] eqn:Ex.
    + destruct (from_item x) as [fc|] eqn:Ef; [|done].
      assert (pc_from pc = Some fc) as -> by (cbn [fmap option_fmap option_map] in *; congruence).
      destruct (from_item_table _ _ Ef) as (w & Hw & (_ & _ & Hb)).
      destruct (sub_table _ d u Hs2 (lit "from") x w Ex Hw) as [Hs3 _]. cbn [app] in Hs3.
      intros Heq. by apply (Hsub [lit "pkg"; pkg; lit "from"] w (lit "test") (fc_test fc)).
    + assert (pc_from pc = None) as -> by congruence. done.
Qed.

Lemma no_subsections (d : table) (rc : raw_config) (pkg : str) (s : scope) (sec : package_config) :
  follows_the_manual d -> decode d = Some rc -> section rc pkg s = Some sec -> s <> All -> subsections_absent sec.
Proof.
  intros H Hd Hsec Hne. destruct (source_of_section d rc pkg s sec Hd Hsec) as (u & Hs & Hu).
  destruct Hu as (_ & _ & _ & _ & _ & _ & H6 & H7 & H8 & _ & _).
  assert (Hno : forall k, k ∈ [lit "build"; lit "test"; lit "from"] -> get k u = None).
  { intros k Hk. destruct (get k u) as [i|] eqn:E; [exfalso|done].
    destruct (below d H _ u k i Hs E) as (sh & Hsh & _).
    rewrite !elem_of_cons, elem_of_nil in Hk.
    destruct s; try done; destruct Hk as [-> |[-> |[-> |[]]]];
      unfold section_path in Hsh; cbn [scope_path app shape_at shape_in_package in_section] in Hsh;
      revert Hsh; lits; cbn [orb]; vm_compute; discriminate. }
  unfold opt_field in H6, H7, H8. rewrite !Hno in H6, H7, H8 by (rewrite !elem_of_cons; tauto).
  repeat split; congruence.
Qed.

Lemma follows_loads (b : gmap str api_config) (ex : str -> list nat -> option (gmap str api_config))
    (idx : crate_index) (root : str) (d : table) (v : Z) :
  follows_the_manual d -> keys_once d -> names_version d v -> (1 <= v <= 3)%Z ->
  (forall api, listed [lit "common"; lit "import_std"] d api -> is_Some (b !! api)) ->
  (forall pkg api, ~ listed [lit "pkg"; pkg; lit "import"] d api) ->
  allows_what_is_defined d ->
  exists c, load_document b ex idx root d = Some (Loaded c).
Proof.
  intros H Ho Hv Hle Hstd Himp Hall. destruct (documented_reads d H v Ho Hv) as [rc Hd].
  unfold load_document. rewrite Hd. cbn [fmap option_fmap option_map].
  destruct (common_reads d rc Hd) as (Hver & _ & Hist).
  assert (Hrv : rc_version rc = v) by (unfold names_version in Hv; congruence).
  assert (Histd : forall api, api ∈ rc_import_std rc <-> listed [lit "common"; lit "import_std"] d api).
  { intros api. unfold listed. destruct Hist as [E|[E El]]; rewrite E.
    - split.
      + intros Hin. eexists. split; [done|]. by apply elem_of_list_fmap_1.
      + intros (l & Hl & Hin). assert (l = map Text (rc_import_std rc)) as -> by congruence.
        apply elem_of_list_fmap in Hin as (x & Hx & Hin). by injection Hx as ->.
    - rewrite El. split; [by intros ?%elem_of_nil|by intros (l & ? & _)]. }
  unfold load_config. destruct (parse_raw b rc) as [r1|e] eqn:E1.
  2:{ exfalso. destruct (proj1 (parse_raw_error b rc) (ex_intro _ e E1)) as (i & Hi & Hb).
      apply Histd, Hstd in Hi. rewrite Hb in Hi. by destruct Hi. }
  pose proof (parse_raw_packages _ _ _ E1) as Hp1.
  assert (Hnoimp : forall pkg pc l api, rc_packages rc !! pkg = Some pc -> pc_import pc = Some l -> api ∉ l).
  { intros pkg pc l api Hpc Hl Hin. apply (Himp pkg api).
    pose proof (package_reads d rc pkg All Hd) as Hs. unfold section in Hs. rewrite Hpc in Hs.
    destruct Hs as (_ & _ & _ & _ & _ & _ & Hs & _). rewrite Hl in Hs.
    unfold section_path in Hs. cbn [scope_path app fmap option_fmap option_map] in Hs.
    eexists. split; [exact Hs|]. by apply elem_of_list_fmap_1. }
  destruct (load_imports idx ex r1) as [r2|e] eqn:E2.
  2:{ exfalso. apply load_imports_err in E2 as [(pkg & pc & i & imps & Hpc & Hi & _)|(pkg & api & _ & (def & Hsrc) & _)].
      - rewrite Hp1 in Hpc. eapply (Hnoimp pkg pc _ i); [done|done|left].
      - destruct Hsrc as (pkg' & pc & imps & v' & ed & api' & Hpc & Hi & Hin & _). rewrite Hp1 in Hpc.
        by apply (Hnoimp pkg' pc imps api'). }
  rewrite make_paths_absolute_total.
  set (rc' := set_packages r2 (abs_package root <$> rc_packages r2)).
  assert (Hwf : validate rc' = []).
  { apply validate_spec. split.
    - assert (rc_version rc' = rc_version rc) as ->; [|by rewrite Hrv].
      unfold rc'. cbn [rc_version set_packages]. unfold load_imports in E2.
      destruct (fold_res _ _ _); [|done]. injection E2 as <-. cbn [rc_version set_packages set_apis].
      unfold parse_raw in E1. destruct (merge_built_ins b rc) as [r0|] eqn:E; [|done].
      injection E1 as <-. cbn [rc_version set_rustc_sandbox].
      unfold apply_runtime_patches. rewrite apply_fns_version.
      by destruct (merge_built_ins_frame _ _ _ E).
    - intros pkg s sec Hsec.
      assert (Hpk : rc_packages rc' = finished root <$> rc_packages rc).
      { unfold rc'. cbn [rc_packages set_packages]. rewrite (load_imports_packages _ _ _ _ E2), Hp1.
        by rewrite <- map_fmap_compose. }
      assert (exists sec0, section rc pkg s = Some sec0 /\ pc_allow_apis sec = pc_allow_apis sec0 /\
                (s <> All -> subsections_absent sec0 -> subsections_absent sec)) as (sec0 & Hs0 & Ha & Hsub).
      { revert Hsec. unfold section. rewrite Hpk, lookup_fmap.
        destruct (rc_packages rc !! pkg) as [pc|]; [|done]. cbn [fmap option_fmap option_map].
        unfold finished. rewrite abs_package_unfold. destruct pc as [a0 b0 c0 d0 e0 f g h i j].
        cbn [pc_build pc_test pc_from clear_import set_import].
        assert (Habs : forall sec0, pc_allow_apis (abs_package root sec0) = pc_allow_apis sec0 /\
                  (subsections_absent sec0 -> subsections_absent (abs_package root sec0))).
        { intros [a1 b1 c1 d1 e1 f1 g1 h1 i1 j1]. rewrite abs_package_unfold. unfold subsections_absent.
          cbn [pc_build pc_test pc_from pc_allow_apis]. split; [done|]. by intros (-> & -> & ->). }
        destruct s.
        - intros Hx. eexists. split; [reflexivity|]. assert (Hy := f_equal (option_map pc_allow_apis) Hx).
          cbn in Hy. injection Hy as Hy. split; [by rewrite <- Hy|done].
        - destruct f as [x|]; [|done]. cbn. intros Hx. exists x. split; [done|]. destruct (Habs x) as [A1 A2].
          assert (sec = abs_package root x) as -> by congruence. auto.
        - destruct g as [x|]; [|done]. cbn. intros Hx. exists x. split; [done|]. destruct (Habs x) as [A1 A2].
          assert (sec = abs_package root x) as -> by congruence. auto.
        - intros Hx. exists sec. auto.
        - intros Hx. exists sec. auto. }
      pose proof (package_reads d rc pkg s Hd) as Hr. rewrite Hs0 in Hr.
      destruct Hr as (_ & _ & _ & _ & Hal & _). destruct (Hall pkg s) as [A1 A2].
      split; [|split].
      + intros api Hin. rewrite Ha in Hin.
        assert (Hli : listed (section_path pkg s ++ [lit "allow_apis"]) d api).
        { destruct Hal as [E|[_ E]]; [|rewrite E in Hin; by apply elem_of_nil in Hin].
          eexists. split; [exact E|]. by apply elem_of_list_fmap_1. }
        assert (Hr1 : is_Some (rc_apis r1 !! api)).
        { apply (parse_raw_apis _ _ _ E1). destruct (A1 api Hli) as [Hdef|Hdef].
          - left. pose proof (api_definitions d rc api Hd) as Hdefs. destruct (rc_apis rc !! api); [by eexists|].
            destruct Hdef as [i Hi]. exfalso. apply Hdefs.
            destruct (H _ _ Hi) as (sh & Hsh & Hshape). apply place_shape in Hsh.
            cbn [shape_at] in Hsh. revert Hsh. lits. intros Hsh. assert (sh = ASection) as -> by congruence.
            destruct Hshape as [t [-> | ->]]; exists t; auto.
          - right. by apply Histd. }
        destruct Hr1 as [def Hdef]. exists def. unfold rc'. cbn [rc_apis set_packages].
        apply (load_imports_ok _ _ _ _ E2). by left.
      + rewrite Ha. destruct Hal as [E|[_ E]]; [|rewrite E; constructor].
        apply A2 in E. by apply NoDup_fmap_1 in E.
      + intros Hne. apply Hsub; [done|]. by apply (no_subsections d rc pkg s). }
  rewrite Hwf. by eexists.
Qed.

(** ** Removing settings *)
Definition left_of (i i' : item) : Prop :=
  i = i' \/ exists p t, (i' = Table t /\ i = Table (without p t)) \/ (i' = Inline t /\ i = Inline (without p t)).

Definition cut (p : list str) (i : item) : item :=
  match i with Table t => Table (without p t) | Inline t => Inline (without p t) | i => i end.

Lemma cut_left (p : list str) (i : item) : left_of (cut p i) i.
Proof. destruct i as [| | | | |t|t]; try (by left); right; exists p, t; auto. Qed.

Lemma without_step (k k2 : str) (p : list str) (d : table) :
  without (k :: k2 :: p) d =
  map (fun e : str * item => if decide (e.1 = k) then (e.1, cut (k2 :: p) e.2) else e) d.
Proof.
  change (without (k :: k2 :: p) d) with
    (map (fun e : str * item =>
             if decide (e.1 = k) then
               (e.1, match e.2 with
                     | Table t => Table (without (k2 :: p) t)
                     | Inline t => Inline (without (k2 :: p) t)
                     | i => i
                     end)
             else e) d).
  apply map_ext. intros e. destruct (decide _); [|done]. by destruct (e.2).
Qed.

Lemma get_step (k x : str) (p : list str) (d : table) :
  get x (map (fun e : str * item => if decide (e.1 = k) then (e.1, cut p e.2) else e) d) =
  if decide (x = k) then cut p <$> get x d else get x d.
Proof.
  induction d as [|[k1 i] d IH]; cbn [map get fst snd].
  - by destruct (decide (x = k)).
  - destruct (decide (k1 = k)) as [->|Hne]; cbn [get].
    + destruct (str_eqb x k) eqn:E; [|done]. apply str_eqb_spec in E as ->. by destruct (decide (k = k)).
    + destruct (str_eqb x k1) eqn:E; [|done]. apply str_eqb_spec in E as ->. by destruct (decide (k1 = k)).
Qed.

Lemma get_without (k x : str) (d : table) :
  get x (filter (fun e : str * item => e.1 <> k) d) = if decide (x = k) then None else get x d.
Proof.
  induction d as [|[k1 i] d IH].
  - by destruct (decide (x = k)).
  - rewrite filter_cons. cbn [fst]. destruct (decide (k1 <> k)) as [Hne|He]; cbn [get].
    + destruct (str_eqb x k1) eqn:E; [|done]. apply str_eqb_spec in E as ->. by destruct (decide (k1 = k)).
    + rewrite IH. destruct (decide (x = k)) as [|Hx]; [done|].
      destruct (str_eqb x k1) eqn:E; [|done]. apply str_eqb_spec in E as ->. by destruct He.
Qed.

Lemma at_without (path q : list str) (d : table) (i : item) :
  at_path q (without path d) = Some i -> exists i', at_path q d = Some i' /\ left_of i i'.
Proof.
  revert q d i. induction path as [|k path IH]; intros q d i; [intros H; exists i; split; [done|by left]|].
  destruct path as [|k2 path].
  - cbn [without]. intros H. exists i. split; [|by left]. destruct q as [|x q]; [done|].
    destruct q as [|y q]; cbn [at_path] in *; rewrite get_without in H; by destruct (decide (x = k)).
  - rewrite without_step. destruct q as [|x q]; [done|].
    destruct q as [|y q]; cbn [at_path]; rewrite get_step.
    + destruct (decide (x = k)) as [->|]; [|intros H; exists i; split; [done|by left]].
      destruct (get k d) as [j|]; [|done]. cbn [fmap option_fmap option_map]. intros H.
      exists j. split; [done|]. assert (i = cut (k2 :: path) j) as -> by congruence. apply cut_left.
    + destruct (decide (x = k)) as [->|]; [|intros H; exists i; split; [done|by left]].
      destruct (get k d) as [j|]; [|done]. cbn [fmap option_fmap option_map].
      destruct j as [| | | | |t|t]; cbn [cut]; try done; exact (IH (y :: q) t i).
Qed.

Lemma left_shape (i i' : item) (s : shape) : left_of i i' -> has_shape s i' -> has_shape s i.
Proof.
  intros [->|(p & t & [[-> ->]|[-> ->]])]; [done| |]; destruct s; cbn [has_shape]; try (by intros [? ?]).
  - intros _. eauto.
  - intros [|]; done.
  - intros _. eauto.
  - intros [|]; done.
Qed.

Lemma without_follows (path : list str) (d : table) : follows_the_manual d -> follows_the_manual (without path d).
Proof.
  intros H q i (i' & Hq & Hl)%at_without. destruct (H q i' Hq) as (s & Hs & Hi). exists s. split; [done|].
  by eapply left_shape.
Qed.

Lemma without_keys (path : list str) (d : table) : NoDup (map fst d) -> NoDup (map fst (without path d)).
Proof.
  intros H. destruct path as [|k [|k2 path]]; [done| |].
  - cbn [without]. induction d as [|[k1 i] d IH]; [done|]. cbn [map fst] in H. apply NoDup_cons in H as [Hk Hn].
    rewrite filter_cons. destruct (decide _); [|auto]. cbn [map fst]. apply NoDup_cons. split; [|auto].
    intros Hin. apply Hk. apply elem_of_list_fmap in Hin as (e & -> & He%elem_of_list_filter).
    apply elem_of_list_fmap. exists e. split; [done|]. apply He.
  - rewrite without_step. rewrite map_map.
    assert (Hm : forall l : table, map (fun e : str * item => (if decide (e.1 = k) then (e.1, cut (k2 :: path) e.2) else e).1) l = map fst l).
    { intros l. apply map_ext. intros e. by destruct (decide _). }
    by rewrite Hm.
Qed.

Lemma without_once (path : list str) (d : table) : keys_once d -> keys_once (without path d).
Proof.
  intros [H1 H2]. split; [by apply without_keys|]. intros q t Ht.
  assert (exists i, at_path q (without path d) = Some i /\ table_of i = Some t) as (i & Hi & Hti)
    by (destruct Ht as [Ht|Ht]; eexists; split; [exact Ht|done|exact Ht|done]).
  destruct (at_without _ _ _ _ Hi) as (i' & Hi' & [->|(p & u & [[-> ->]|[-> ->]])]).
  - destruct i'; try done; assert (t0 = t) as -> by (cbn in Hti; congruence); eauto.
  - assert (t = without p u) as -> by (cbn in Hti; congruence). apply without_keys. eauto.
  - assert (t = without p u) as -> by (cbn in Hti; congruence). apply without_keys. eauto.
Qed.

Lemma without_version (path : list str) (d : table) (v : Z) :
  path <> [lit "common"] -> path <> [lit "common"; lit "version"] ->
  names_version d v -> names_version (without path d) v.
Proof.
  unfold names_version. intros H1 H2 Hv. destruct path as [|k [|k2 path]]; [done| |].
  - cbn [without at_path] in *. rewrite get_without. destruct (decide (lit "common" = k)) as [Hk|]; [|done].
    destruct H1. by rewrite Hk.
  - rewrite without_step. cbn [at_path] in *. rewrite get_step.
    destruct (decide (lit "common" = k)) as [Hk|]; [|done].
    destruct (get (lit "common") d) as [j|]; [|done]. cbn [fmap option_fmap option_map].
    assert (Hin : forall t, get (lit "version") t = Some (Integer v) ->
                    get (lit "version") (without (k2 :: path) t) = Some (Integer v)).
    { intros t Ht. destruct path as [|k3 path].
      - cbn [without]. rewrite get_without. destruct (decide (lit "version" = k2)) as [Hk2|]; [|done].
        destruct H2. by rewrite Hk, Hk2.
      - rewrite without_step, get_step. rewrite Ht. by destruct (decide _). }
    destruct j as [| | | | |t|t]; cbn [cut]; try done; auto.
Qed.

Lemma no_version_no_read (d : table) (rc : raw_config) : decode d = Some rc -> exists v, names_version d v.
Proof. intros Hd. destruct (common_reads d rc Hd) as (H & _). by exists (rc_version rc). Qed.

Lemma removed_version (d : table) : ~ exists v, names_version (without [lit "common"; lit "version"] d) v.
Proof.
  intros [v Hv]. unfold names_version in Hv. rewrite without_step in Hv. cbn [at_path] in Hv. rewrite get_step in Hv.
  destruct (decide (lit "common" = lit "common")) as [_|]; [|done].
  destruct (get (lit "common") d) as [j|]; [|done]. cbn [fmap option_fmap option_map] in Hv.
  assert (Hno : forall t, get (lit "version") (without [lit "version"] t) = None).
  { intros t. cbn [without]. rewrite get_without. by destruct (decide _). }
  destruct j as [| | | | |t|t]; cbn [cut] in Hv; try done; by rewrite Hno in Hv.
Qed.

(** ** Checking a given file *)
Lemma section_place (pkg : str) (sc : scope) (q : list str) (s : shape) :
  in_section q = Some s -> place (section_path pkg sc ++ q) s.
Proof.
  destruct q as [|k [|x [|y q]]]; cbn [in_section]; [| | |done].
  - intros [= <-]. rewrite app_nil_r. exact (InPackage pkg sc).
  - destruct (str_eqb k (lit "sandbox")) eqn:E.
    + apply str_eqb_spec in E as ->. intros [= <-]. exact (InPackageSandbox pkg sc).
    + intros H%get_in. by apply InPackageSet.
  - destruct (str_eqb k (lit "sandbox")) eqn:E; [|done]. apply str_eqb_spec in E as ->.
    intros H%get_in. by apply InPackageSandboxSet.
Qed.

Lemma shape_place (p : list str) (s : shape) : shape_at p = Some s -> place p s.
Proof.
  destruct p as [|a [|b r]]; cbn [shape_at]; [done| |].
  - destruct (mem_str a config_fields) eqn:E; [|done]. intros [= <-]. apply mem_str_spec in E.
    unfold config_fields in E. rewrite !elem_of_cons, elem_of_nil in E.
    destruct E as [-> |[-> |[-> |[-> |[-> |[]]]]]];
      [exact InCommon|exact InApis|exact InPackages|exact InSandbox|exact InRustc].
  - destruct (str_eqb a (lit "common")) eqn:E1.
    { apply str_eqb_spec in E1 as ->. destruct r; [|done]. intros H%get_in. by apply InCommonSet. }
    destruct (str_eqb a (lit "sandbox")) eqn:E2.
    { apply str_eqb_spec in E2 as ->. destruct r; [|done]. intros H%get_in. by apply InSandboxSet. }
    destruct (str_eqb a (lit "rustc")) eqn:E3.
    { apply str_eqb_spec in E3 as ->. destruct (str_eqb b (lit "sandbox")) eqn:E; [|done].
      apply str_eqb_spec in E as ->. destruct r as [|k [|? ?]]; [|intros H%get_in|done].
      - intros [= <-]. exact InRustcSandbox.
      - by apply InRustcSandboxSet. }
    destruct (str_eqb a (lit "api")) eqn:E4.
    { apply str_eqb_spec in E4 as ->. destruct r as [|k [|? ?]]; [|intros H%get_in|done].
      - intros [= <-]. exact (InApi b).
      - by apply InApiSet. }
    destruct (str_eqb a (lit "pkg")) eqn:E5; [|done]. apply str_eqb_spec in E5 as ->.
    destruct r as [|k r]; cbn [shape_in_package].
    { intros [= <-]. exact (InPackage b All). }
    destruct (str_eqb k (lit "build") || str_eqb k (lit "test")) eqn:E.
    { apply orb_true_iff in E. rewrite !str_eqb_spec in E. destruct E as [-> | ->]; intros H.
      - exact (section_place b Build r s H).
      - exact (section_place b Test r s H). }
    destruct (str_eqb k (lit "from")) eqn:Ef.
    { apply str_eqb_spec in Ef as ->. destruct r as [|y r]; [intros [= <-]; exact (InFrom b)|].
      destruct (str_eqb y (lit "build") || str_eqb y (lit "test")) eqn:E'; [|done].
      apply orb_true_iff in E'. rewrite !str_eqb_spec in E'. destruct E' as [-> | ->]; intros H.
      - exact (section_place b FromBuild r s H).
      - exact (section_place b FromTest r s H). }
    intros H. exact (section_place b All (k :: r) s H).
Qed.

Definition shape_ok (s : shape) (i : item) : bool :=
  match s, i with
  | ASection, (Table _ | Inline _) | AYesNo, Flag _ | ANumber, Integer _ | AWord, Text _ => true
  | AList, Array l => forallb (fun x => match x with Text _ => true | _ => false end) l
  | ASandboxKind, Text w => str_eqb w (lit "Disabled") || str_eqb w (lit "Bubblewrap")
  | _, _ => false
  end.
Lemma shape_ok_spec (s : shape) (i : item) : shape_ok s i = true -> has_shape s i.
Proof.
  destruct s, i as [w|z|b| |l|t|t]; cbn [shape_ok has_shape]; try done; eauto.
  - intros H. induction l as [|x l IH]; [by exists []|]. cbn [forallb] in H. apply andb_prop in H as [H1 H2].
    destruct x; try done. destruct (IH H2) as [m Hm]. injection Hm as ->. by exists (s :: m).
  - intros H. apply orb_true_iff in H. rewrite !str_eqb_spec in H. destruct H as [-> | ->]; auto.
Qed.

Fixpoint fits (n : nat) (p : list str) (t : table) : bool :=
  match n with
  | 0 => false
  | S n =>
      bool_decide (NoDup (map fst t)) &&
      forallb (fun e : str * item =>
        match shape_at (p ++ [e.1]) with
        | Some s =>
            shape_ok s e.2 &&
            match e.2 with Table u | Inline u => fits n (p ++ [e.1]) u | _ => true end
        | None => false
        end) t
  end.

Lemma fits_at (n : nat) (p : list str) (t : table) (q : list str) (i : item) :
  fits n p t = true -> at_path q t = Some i ->
  (exists s, place (p ++ q) s /\ has_shape s i) /\ forall u, table_of i = Some u -> NoDup (map fst u).
Proof.
  revert p t q. induction n as [|n IH]; intros p t q; [done|]. cbn [fits]. intros [_ H]%andb_prop Hq.
  rewrite forallb_forall in H. destruct q as [|k q]; [done|].
  destruct (at_path_cons _ _ _ _ Hq) as (j & Hj & Hc).
  specialize (H (k, j)). cbn [fst snd] in H.
  assert (Hin : In (k, j) t) by (apply elem_of_list_In; by apply get_in). specialize (H Hin).
  destruct (shape_at (p ++ [k])) as [s|] eqn:Es; [|done]. apply andb_prop in H as [H1 H2].
  destruct Hc as [[-> ->]|(u & Hu & Hne & Hp)].
  - split; [exists s; split; [by apply shape_place|by apply shape_ok_spec]|].
    intros u Hu. assert (Hf : fits n (p ++ [k]) u = true) by (destruct j; try done; cbn in Hu; congruence).
    destruct n; [done|]. cbn [fits] in Hf. apply andb_prop in Hf as [Hf _]. by apply bool_decide_eq_true in Hf.
  - assert (Hf : fits n (p ++ [k]) u = true) by (destruct j; try done; cbn in Hu; congruence).
    destruct (IH (p ++ [k]) u q Hf Hp) as [A B]. rewrite <- app_assoc in A. done.
Qed.

Lemma fits_follows (n : nat) (d : table) : fits n [] d = true -> follows_the_manual d /\ keys_once d.
Proof.
  intros H. split; [|split].
  - intros path i Hi. by apply (fits_at n [] d path i).
  - destruct n; [done|]. cbn [fits] in H. apply andb_prop in H as [H _]. by apply bool_decide_eq_true in H.
  - intros path t [Ht|Ht]; by apply (fits_at n [] d path _ H Ht).
Qed.
