(** Facts about documents and their decoding. *)
From Verif Require Import Base BaseFacts ApiMapModel ConfigModel ConfigSpec ConfigProofs TomlModel.

(** Comparisons of literals. *)
Ltac lits :=
  repeat match goal with
  | |- context [str_eqb (lit ?a) (lit ?b)] =>
      let r := eval vm_compute in (str_eqb (lit a) (lit b)) in
      let H := fresh in
      assert (H : str_eqb (lit a) (lit b) = r) by (vm_compute; reflexivity); rewrite H; clear H
  end.

Lemma str_eqb_refl (a : str) : str_eqb a a = true.
Proof. by apply str_eqb_spec. Qed.

Lemma str_eqb_sym (a b : str) : str_eqb a b = str_eqb b a.
Proof.
  destruct (str_eqb b a) eqn:E.
  - apply str_eqb_spec in E as ->. apply str_eqb_refl.
  - destruct (str_eqb a b) eqn:E2; [|done]. apply str_eqb_spec in E2 as ->.
    by rewrite str_eqb_refl in E.
Qed.

(** ** Tables *)
Lemma get_put {A} (k k' : str) (a : A) (t : list (str * A)) :
  get k (put k' a t) = if str_eqb k k' then Some a else get k t.
Proof.
  induction t as [|[k1 b] t IH]; cbn [put get].
  - done.
  - destruct (str_eqb k' k1) eqn:E1; cbn [get].
    + apply str_eqb_spec in E1 as ->. by destruct (str_eqb k k1).
    + rewrite IH. destruct (str_eqb k k1) eqn:E2; [|done].
      apply str_eqb_spec in E2 as ->. by rewrite str_eqb_sym, E1.
Qed.

Lemma get_del {A} (k k' : str) (t : list (str * A)) :
  get k (del k' t) = if str_eqb k k' then None else get k t.
Proof.
  induction t as [|[k1 b] t IH]; cbn [del get].
  - by destruct (str_eqb k k').
  - destruct (str_eqb k' k1) eqn:E1; cbn [get].
    + apply str_eqb_spec in E1 as ->. rewrite IH. by destruct (str_eqb k k1).
    + rewrite IH. destruct (str_eqb k k1) eqn:E2; [|done].
      apply str_eqb_spec in E2 as ->. by rewrite str_eqb_sym, E1.
Qed.

Lemma put_same {A} (k : str) (a : A) (t : list (str * A)) : get k t = Some a -> put k a t = t.
Proof.
  induction t as [|[k1 b] t IH]; cbn [put get]; [done|].
  destruct (str_eqb k k1); [by intros [= ->]|]. intros H. by rewrite IH.
Qed.

Lemma get_map {A B} (f : A -> B) (k : str) (t : list (str * A)) :
  get k (map (fun e => match e with (k, v) => (k, f v) end) t) = f <$> get k t.
Proof.
  induction t as [|[k1 b] t IH]; cbn [map get]; [done|]. by destruct (str_eqb k k1).
Qed.

Lemma get_in {A} (k : str) (a : A) (t : list (str * A)) : get k t = Some a -> (k, a) ∈ t.
Proof.
  induction t as [|[k1 b] t IH]; cbn [get]; [done|].
  destruct (str_eqb k k1) eqn:E.
  - intros [= ->]. apply str_eqb_spec in E as ->. left.
  - intros H. right. auto.
Qed.

Lemma in_put {A} (k : str) (a : A) (t : list (str * A)) (e : str * A) :
  e ∈ put k a t -> e ∈ t \/ e.2 = a.
Proof.
  induction t as [|[k1 b] t IH]; cbn [put].
  - intros ->%elem_of_list_singleton. by right.
  - destruct (str_eqb k k1).
    + intros [->|H]%elem_of_cons; [by right|]. left. by right.
    + intros [->|H]%elem_of_cons; [left; left|]. destruct (IH H); [left; by right|by right].
Qed.

Lemma in_del {A} (k : str) (t : list (str * A)) (e : str * A) : e ∈ del k t -> e ∈ t.
Proof.
  induction t as [|[k1 b] t IH]; cbn [del]; [done|].
  destruct (str_eqb k k1).
  - intros H. right. auto.
  - intros [->|H]%elem_of_cons; [left|right; auto].
Qed.

Lemma known_put {A} (names : list str) (k : str) (a : A) (t : list (str * A)) :
  mem_str k names = true -> known names (put k a t) = known names t.
Proof.
  intros Hk. unfold known. induction t as [|[k1 b] t IH]; cbn [put forallb fst].
  - by rewrite Hk.
  - destruct (str_eqb k k1) eqn:E; cbn [forallb fst]; [done|]. by rewrite IH.
Qed.

Lemma known_del {A} (names : list str) (k : str) (t : list (str * A)) :
  known names t = true -> known names (del k t) = true.
Proof.
  unfold known. induction t as [|[k1 b] t IH]; cbn [del forallb fst]; [done|].
  intros [H1 H2]%andb_prop. destruct (str_eqb k k1); [auto|]. cbn [forallb fst].
  by rewrite H1, IH.
Qed.

Lemma known_map {A B} (names : list str) (f : A -> B) (t : list (str * A)) :
  known names (map (fun e => match e with (k, v) => (k, f v) end) t) = known names t.
Proof.
  unfold known. induction t as [|[k1 b] t IH]; cbn [map forallb fst]; [done|]. by rewrite IH.
Qed.

Lemma field_put {A} (k k' : str) (d : A) (f : item -> option A) (i : item) (t : table) :
  field k d f (put k' i t) = if str_eqb k k' then f i else field k d f t.
Proof. unfold field. rewrite get_put. by destruct (str_eqb k k'). Qed.

Lemma opt_field_put {A} (k k' : str) (f : item -> option A) (i : item) (t : table) :
  opt_field k f (put k' i t) = if str_eqb k k' then Some <$> f i else opt_field k f t.
Proof. unfold opt_field. rewrite get_put. by destruct (str_eqb k k'). Qed.

Lemma field_del {A} (k k' : str) (d : A) (f : item -> option A) (t : table) :
  field k d f (del k' t) = if str_eqb k k' then Some d else field k d f t.
Proof. unfold field. rewrite get_del. by destruct (str_eqb k k'). Qed.

Lemma opt_field_del {A} (k k' : str) (f : item -> option A) (t : table) :
  opt_field k f (del k' t) = if str_eqb k k' then Some None else opt_field k f t.
Proof. unfold opt_field. rewrite get_del. by destruct (str_eqb k k'). Qed.

(** ** Sections *)

(** The [from] part of a section. *)
Definition from_item (i : item) : option from_config :=
  t ← table_of i;
  if known [lit "build"; lit "test"] t then
    build ← opt_field (lit "build") package_of t;
    test ← opt_field (lit "test") package_of t;
    Some (FromConfig build test)
  else None.

(** The fields of a section, each decoded from its entry. *)
Definition section_is (t : table) (pc : package_config) : Prop :=
  known package_fields t = true /\
  field (lit "allow_unsafe") false flag_of t = Some (pc_allow_unsafe pc) /\
  field (lit "allow_extern") false flag_of t = Some (pc_allow_extern pc) /\
  field (lit "allow_build_instructions") [] texts_of t = Some (pc_allow_build_instructions pc) /\
  field (lit "allow_apis") [] texts_of t = Some (pc_allow_apis pc) /\
  field (lit "allow_proc_macro") false flag_of t = Some (pc_allow_proc_macro pc) /\
  opt_field (lit "build") package_of t = Some (pc_build pc) /\
  opt_field (lit "test") package_of t = Some (pc_test pc) /\
  opt_field (lit "from") from_item t = Some (pc_from pc) /\
  field (lit "sandbox") sandbox_default sandbox_of t = Some (pc_sandbox pc) /\
  opt_field (lit "import") texts_of t = Some (pc_import pc).

Lemma sub_field_map {A} (f : item -> option A) (k : str) (t : table) :
  sub_field k (map (fun e => match e with (k, v) => (k, f v) end) t) = opt_field k f t.
Proof. unfold sub_field, opt_field. rewrite get_map. by destruct (get k t). Qed.

Lemma from_of_map (u : table) :
  from_of (map (fun e => match e with (k, v) => (k, package_of v) end) u) = from_item (Table u).
Proof. unfold from_of, from_item. cbn [table_of mbind option_bind]. by rewrite known_map, !sub_field_map. Qed.

Definition from_alt (v : item) : option from_config :=
  match v with
  | Inline u | Table u => from_of (map (fun e => match e with (k, v) => (k, package_of v) end) u)
  | _ => None
  end.

Lemma from_alt_eq (v : item) : from_alt v = from_item v.
Proof. destruct v as [| | | | |u|u]; cbn [from_alt]; try done; by rewrite from_of_map. Qed.

Lemma opt_field_ext {A} (k : str) (f g : item -> option A) (t : table) :
  (forall i, f i = g i) -> opt_field k f t = opt_field k g t.
Proof. intros H. unfold opt_field. destruct (get k t); [by rewrite H|done]. Qed.

Lemma section_is_iff (t : table) (pc : package_config) :
  package_of (Table t) = Some pc <-> section_is t pc.
Proof.
  change (package_of (Table t)) with
    (package_with t (map (fun e => match e with (k, v) => (k, package_of v) end) t)
       (map (fun e => match e with (k, v) => (k, from_alt v) end) t)).
  unfold package_with, section_is. rewrite !sub_field_map.
  rewrite (opt_field_ext (lit "from") from_alt from_item) by apply from_alt_eq.
  destruct (known package_fields t); [|split; [done|by intros [? _]]].
  destruct (field (lit "allow_unsafe") false flag_of t) as [a|]; cbn [mbind option_bind]; [|split; [done|naive_solver]].
  destruct (field (lit "allow_extern") false flag_of t) as [b|]; cbn [mbind option_bind]; [|split; [done|naive_solver]].
  destruct (field (lit "allow_build_instructions") [] texts_of t) as [c|]; cbn [mbind option_bind]; [|split; [done|naive_solver]].
  destruct (field (lit "allow_apis") [] texts_of t) as [d|]; cbn [mbind option_bind]; [|split; [done|naive_solver]].
  destruct (field (lit "allow_proc_macro") false flag_of t) as [e|]; cbn [mbind option_bind]; [|split; [done|naive_solver]].
  destruct (opt_field (lit "build") package_of t) as [f|]; cbn [mbind option_bind]; [|split; [done|naive_solver]].
  destruct (opt_field (lit "test") package_of t) as [g|]; cbn [mbind option_bind]; [|split; [done|naive_solver]].
  destruct (opt_field (lit "from") from_item t) as [h|]; cbn [mbind option_bind]; [|split; [done|naive_solver]].
  destruct (field (lit "sandbox") sandbox_default sandbox_of t) as [i|]; cbn [mbind option_bind]; [|split; [done|naive_solver]].
  destruct (opt_field (lit "import") texts_of t) as [j|]; cbn [mbind option_bind]; [|split; [done|naive_solver]].
  split.
  - intros [= <-]. cbn. done.
  - destruct pc. cbn. intros (_ & [= ->] & [= ->] & [= ->] & [= ->] & [= ->] & [= ->] & [= ->] & [= ->] & [= ->] & [= ->]).
    done.
Qed.

Lemma package_of_inline (t : table) : package_of (Inline t) = package_of (Table t).
Proof. done. Qed.

Lemma section_is_nil : section_is [] package_default.
Proof. repeat split. Qed.

Lemma section_is_fun (t : table) (pc pc' : package_config) :
  section_is t pc -> section_is t pc' -> pc = pc'.
Proof. rewrite <- !section_is_iff. congruence. Qed.

(** The [from] part. *)
Definition from_is (t : table) (fc : from_config) : Prop :=
  known [lit "build"; lit "test"] t = true /\
  opt_field (lit "build") package_of t = Some (fc_build fc) /\
  opt_field (lit "test") package_of t = Some (fc_test fc).

Lemma from_is_iff (t : table) (fc : from_config) : from_item (Table t) = Some fc <-> from_is t fc.
Proof.
  unfold from_item, from_is. cbn [table_of mbind option_bind].
  destruct (known _ t); [|split; [done|by intros [? _]]].
  destruct (opt_field (lit "build") package_of t) as [f|]; cbn [mbind option_bind]; [|split; [done|naive_solver]].
  destruct (opt_field (lit "test") package_of t) as [g|]; cbn [mbind option_bind]; [|split; [done|naive_solver]].
  split.
  - by intros [= <-].
  - destruct fc. cbn. by intros (_ & [= ->] & [= ->]).
Qed.

(** The sandbox part. *)
Definition sandbox_is (t : table) (sb : sandbox_config) : Prop :=
  known sandbox_fields t = true /\
  opt_field (lit "kind") kind_of t = Some (sb_kind sb) /\
  field (lit "extra_args") [] texts_of t = Some (sb_extra_args sb) /\
  opt_field (lit "allow_network") flag_of t = Some (sb_allow_network sb) /\
  field (lit "bind_writable") [] texts_of t = Some (sb_bind_writable sb) /\
  field (lit "make_writable") [] texts_of t = Some (sb_make_writable sb) /\
  field (lit "pass_env") [] texts_of t = Some (sb_pass_env sb).

Lemma sandbox_is_iff (t : table) (sb : sandbox_config) :
  sandbox_of (Table t) = Some sb <-> sandbox_is t sb.
Proof.
  unfold sandbox_of, sandbox_is. cbn [table_of mbind option_bind].
  destruct (known _ t); [|split; [done|by intros [? _]]].
  destruct (opt_field (lit "kind") kind_of t) as [a|]; cbn [mbind option_bind]; [|split; [done|naive_solver]].
  destruct (field (lit "extra_args") [] texts_of t) as [b|]; cbn [mbind option_bind]; [|split; [done|naive_solver]].
  destruct (opt_field (lit "allow_network") flag_of t) as [c|]; cbn [mbind option_bind]; [|split; [done|naive_solver]].
  destruct (field (lit "bind_writable") [] texts_of t) as [d|]; cbn [mbind option_bind]; [|split; [done|naive_solver]].
  destruct (field (lit "make_writable") [] texts_of t) as [e|]; cbn [mbind option_bind]; [|split; [done|naive_solver]].
  destruct (field (lit "pass_env") [] texts_of t) as [f|]; cbn [mbind option_bind]; [|split; [done|naive_solver]].
  split.
  - by intros [= <-].
  - destruct sb. cbn. by intros (_ & [= ->] & [= ->] & [= ->] & [= ->] & [= ->] & [= ->]).
Qed.

(** The definition of an API. *)
Definition api_is (t : table) (ac : api_config) : Prop :=
  known [lit "include"; lit "exclude"; lit "no_auto_detect"] t = true /\
  field (lit "include") [] texts_of t = Some (ac_include ac) /\
  field (lit "exclude") [] texts_of t = Some (ac_exclude ac) /\
  field (lit "no_auto_detect") [] texts_of t = Some (ac_no_auto_detect ac).

Lemma api_is_iff (t : table) (ac : api_config) : api_of (Table t) = Some ac <-> api_is t ac.
Proof.
  unfold api_of, api_is. cbn [table_of mbind option_bind].
  destruct (known _ t); [|split; [done|by intros [? _]]].
  destruct (field (lit "include") [] texts_of t) as [a|]; cbn [mbind option_bind]; [|split; [done|naive_solver]].
  destruct (field (lit "exclude") [] texts_of t) as [b|]; cbn [mbind option_bind]; [|split; [done|naive_solver]].
  destruct (field (lit "no_auto_detect") [] texts_of t) as [c|]; cbn [mbind option_bind]; [|split; [done|naive_solver]].
  split.
  - by intros [= <-].
  - destruct ac. cbn. by intros (_ & [= ->] & [= ->] & [= ->]).
Qed.

(** ** Maps *)
Lemma entries_of_spec {A} (f : item -> option A) (t : table) (l : list (str * A)) :
  entries_of f t = Some l ->
  (forall e, e ∈ t -> is_Some (f e.2)) /\
  forall k, (list_to_map l : gmap str A) !! k = get k t ≫= f.
Proof.
  revert l. induction t as [|[k1 i] t IH]; intros l; cbn.
  - intros [= <-]. split; [by intros e ?%elem_of_nil|]. intros k. apply lookup_empty.
  - destruct (f i) as [a|] eqn:Ea; cbn; [|done].
    destruct (entries_of f t) as [l'|] eqn:El; unfold entries_of in El; rewrite El; cbn; [|done].
    intros [= <-]. destruct (IH l') as [H1 H2]; [done|]. split.
    + intros e [->|He]%elem_of_cons; [cbn [snd]; by rewrite Ea|auto].
    + intros k. cbn. destruct (str_eqb k k1) eqn:E.
      * apply str_eqb_spec in E as ->. rewrite lookup_insert. cbn. by rewrite Ea.
      * rewrite lookup_insert_ne; [apply H2|]. intros ->. by rewrite str_eqb_refl in E.
Qed.

Lemma entries_of_total {A} (f : item -> option A) (t : table) :
  (forall e, e ∈ t -> is_Some (f e.2)) -> exists l, entries_of f t = Some l.
Proof.
  induction t as [|[k1 i] t IH]; intros H.
  - by exists [].
  - destruct (H (k1, i)) as [a Ha]; [left|]. cbn [snd] in Ha.
    destruct IH as [l Hl]; [intros e He; apply H; by right|].
    exists ((k1, a) :: l). unfold entries_of. cbn. rewrite Ha. cbn.
    unfold entries_of in Hl. by rewrite Hl.
Qed.

Lemma map_of_iff {A} (f : item -> option A) (t : table) (m : gmap str A) :
  map_of f (Table t) = Some m <->
  (forall e, e ∈ t -> is_Some (f e.2)) /\ (forall k, m !! k = get k t ≫= f).
Proof.
  unfold map_of. cbn [table_of mbind option_bind]. split.
  - destruct (entries_of f t) as [l|] eqn:E; cbn; [|done]. intros [= <-].
    by apply entries_of_spec.
  - intros [H1 H2]. destruct (entries_of_total f t H1) as [l Hl]. rewrite Hl. cbn. f_equal.
    apply map_eq. intros k. rewrite H2. by apply entries_of_spec.
Qed.

Lemma map_of_put {A} (f : item -> option A) (t : table) (m : gmap str A) (k : str) (i : item) (a : A) :
  map_of f (Table t) = Some m -> f i = Some a -> map_of f (Table (put k i t)) = Some (<[k := a]> m).
Proof.
  rewrite !map_of_iff. intros [H1 H2] Hi. split.
  - intros e [He| ->]%in_put; [auto|]. by rewrite Hi.
  - intros k'. rewrite get_put. destruct (str_eqb k' k) eqn:E.
    + apply str_eqb_spec in E as ->. rewrite lookup_insert. cbn. by rewrite Hi.
    + rewrite lookup_insert_ne; [apply H2|]. intros ->. by rewrite str_eqb_refl in E.
Qed.

Lemma map_of_del {A} (f : item -> option A) (t : table) (m : gmap str A) (k : str) :
  map_of f (Table t) = Some m -> map_of f (Table (del k t)) = Some (delete k m).
Proof.
  rewrite !map_of_iff. intros [H1 H2]. split.
  - intros e He%in_del. auto.
  - intros k'. rewrite get_del. destruct (str_eqb k' k) eqn:E.
    + apply str_eqb_spec in E as ->. by rewrite lookup_delete.
    + rewrite lookup_delete_ne; [apply H2|]. intros ->. by rewrite str_eqb_refl in E.
Qed.

(** ** The whole document *)
Definition document_is (t : table) (rc : raw_config) : Prop :=
  known config_fields t = true /\
  get (lit "common") t ≫= common_of
    = Some (rc_version rc, rc_explicit_build_scripts rc, rc_import_std rc) /\
  field (lit "api") ∅ (map_of api_of) t = Some (rc_apis rc) /\
  field (lit "pkg") ∅ (map_of package_of) t = Some (rc_packages rc) /\
  field (lit "sandbox") sandbox_default sandbox_of t = Some (rc_sandbox rc) /\
  field (lit "rustc") sandbox_default rustc_of t = Some (rc_rustc_sandbox rc).

Lemma document_is_iff (t : table) (rc : raw_config) : decode t = Some rc <-> document_is t rc.
Proof.
  unfold decode, document_is.
  destruct (known _ t); [|split; [done|by intros [? _]]].
  destruct (get (lit "common") t ≫= common_of) as [[[v e] i]|]; cbn [mbind option_bind]; [|split; [done|naive_solver]].
  destruct (field (lit "api") ∅ (map_of api_of) t) as [b|]; cbn [mbind option_bind]; [|split; [done|naive_solver]].
  destruct (field (lit "pkg") ∅ (map_of package_of) t) as [c|]; cbn [mbind option_bind]; [|split; [done|naive_solver]].
  destruct (field (lit "sandbox") sandbox_default sandbox_of t) as [d|]; cbn [mbind option_bind]; [|split; [done|naive_solver]].
  destruct (field (lit "rustc") sandbox_default rustc_of t) as [g|]; cbn [mbind option_bind]; [|split; [done|naive_solver]].
  split.
  - by intros [= <-].
  - destruct rc. cbn. by intros (_ & [= -> -> ->] & [= ->] & [= ->] & [= ->] & [= ->]).
Qed.
