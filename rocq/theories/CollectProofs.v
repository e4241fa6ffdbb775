(** Proofs about collecting usages. *)
From Verif Require Import Base BaseFacts NamesModel NamesSpec NamesProofs ApiMapModel ApiMapSpec ApiMapProofs ConfigModel ProblemModel CheckerModel GraphModel.
From Verif Require Import GraphSpec GraphProofs CheckerSpec CheckerProofs CheckerSysProofs CollectModel CollectSpec CollectNamesProofs.

(** ** Lists *)

Lemma flat_mapM_elem {A B : Type} (f : A -> option (list B)) (l : list A) (r : list B) :
  flat_mapM f l = Some r ->
  (forall x, x ∈ l -> exists ys, f x = Some ys) /\
  forall y, y ∈ r <-> exists x ys, x ∈ l /\ f x = Some ys /\ y ∈ ys.
Proof.
  unfold flat_mapM. destruct (mapM f l) as [ls|] eqn:E; [|done]. intros [= <-].
  apply mapM_Some in E. induction E as [|x ys l ls Hx E IH].
  - split; [intros x Hx; by apply elem_of_nil in Hx|]. intros y. cbn. rewrite elem_of_nil.
    split; [done|]. intros (x & ys & Hx & _). by apply elem_of_nil in Hx.
  - destruct IH as [IH1 IH2]. split.
    { intros z [->|Hz]%elem_of_cons; [by exists ys|by apply IH1]. }
    intros y. cbn. rewrite elem_of_app. change (mjoin ls) with (mjoin ls). rewrite IH2. split.
    + intros [Hy|(z & zs & Hz & Hf & Hy)]; [exists x, ys; split_and!; [left|done|done]|].
      exists z, zs. split_and!; [by right|done|done].
    + intros (z & zs & [->|Hz]%elem_of_cons & Hf & Hy).
      * left. congruence.
      * right. by exists z, zs.
Qed.

Lemma flat_mapM_is_Some {A B : Type} (f : A -> option (list B)) (l : list A) :
  (forall x, x ∈ l -> is_Some (f x)) -> is_Some (flat_mapM f l).
Proof.
  intros H. unfold flat_mapM. assert (is_Some (mapM f l)) as [ls ->]; [|eauto].
  apply mapM_is_Some. apply Forall_forall. exact H.
Qed.

(** ** Places *)

Lemma seen_from_join (dir p r : str) : seen_from dir p r <-> r = DepsModel.path_join dir p.
Proof.
  unfold seen_from, DepsModel.path_join.
  assert ((exists q, p = "/"%char :: q) \/ (forall q, p <> "/"%char :: q)) as [[q ->]|Hp].
  { destruct p as [|c p]; [by right|]. destruct (decide (c = "/"%char)) as [->|H]; [left; by eexists|right; congruence]. }
  { split; [|intros ->; left; split; [by eexists|done]]. intros [[_ ?]|[H _]]; [done|]. by destruct (H q). }
  assert (match p with
          | "/"%char :: _ => p
          | _ => match last dir with None => p | Some "/"%char => dir ++ p | Some _ => dir ++ lit "/" ++ p end
          end = match last dir with None => p | Some "/"%char => dir ++ p | Some _ => dir ++ lit "/" ++ p end) as E.
  { destruct p as [|c p]; [done|]. destruct c as [[] [] [] [] [] [] [] []]; try done. by destruct (Hp p). }
  rewrite E. clear E. destruct dir as [|c dir] using rev_ind.
  { cbn. split; [|intros ->; right; split; [done|]; by left].
    intros [[[q Hq] _]|[_ [[_ ?]|[[[b Hb] _]|[? _]]]]]; [by destruct (Hp q)|done|by destruct b|done]. }
  clear IHdir. rewrite last_snoc. destruct (decide (c = "/"%char)) as [->|Hc].
  - split.
    + intros [[[q Hq] _]|[_ [[H _]|[[_ ?]|[_ [H _]]]]]]; [by destruct (Hp q)|by destruct dir|done|by destruct (H dir)].
    + intros ->. right. split; [done|]. right. left. split; [by exists dir|done].
  - assert (forall (A : Type) (x y : A), match c with "/"%char => x | _ => y end = y) as Em.
    { intros A x y. destruct c as [[] [] [] [] [] [] [] []]; try done. }
    rewrite Em. assert (forall b, dir ++ [c] <> b ++ lit "/") as Hne.
    { intros b H. apply app_inj_tail in H as [_ H]. by apply Hc. }
    split.
    + intros [[[q Hq] _]|[_ [[H _]|[[[b Hb] _]|[_ [_ ?]]]]]]; [by destruct (Hp q)|by destruct dir|by destruct (Hne b)|done].
    + intros ->. right. split; [done|]. right. right. split; [by destruct dir|done].
Qed.

Lemma seen_from_push (dir : str) (p : option str) (r : str) : seen_from_opt dir p r <-> r = push_opt dir p.
Proof. destruct p as [p|]; [apply seen_from_join|done]. Qed.

Lemma defined_at_location (d : sym_debug) (l : src_loc) : defined_at d l <-> l = source_location d.
Proof.
  unfold defined_at, source_location. split.
  - intros (dir & file & ->%seen_from_push & ->%seen_from_join & ->). done.
  - intros ->. eexists _, _. split_and!; [by apply seen_from_push|by apply seen_from_join|done].
Qed.

Lemma place_fetch (f : fetcher) (l : src_loc) : place f l <-> fetch f = Some l.
Proof.
  split.
  - destruct 1 as [|frame fallback H|? ? ? ? ? ? ? H1%seen_from_push H2%seen_from_push|]; [done| |by subst|done].
    cbn. destruct frame as [[[file|] [line|] col]|]; try done. by destruct (H file line col).
  - destruct f as [frame fallback|[compdir directory filename [line|] column]|l']; cbn; intros E; try done.
    + destruct frame as [[[file|] [line|] col]|]; injection E as <-; by constructor.
    + injection E as <-. econstructor; by apply seen_from_push.
    + injection E as <-. constructor.
Qed.

(** ** Groups *)

Section groups.
Context {K V : Type} `{EqDecision K}.

Definition grouped (key : V -> K) (m : list (K * list V)) (all : list V) : Prop :=
  NoDup (map fst m) /\
  (forall k vs, (k, vs) ∈ m -> vs <> [] /\ forall v, v ∈ vs -> v ∈ all /\ key v = k) /\
  (forall v, v ∈ all -> exists vs, (key v, vs) ∈ m /\ v ∈ vs).

Lemma push_group_keys (m : list (K * list V)) (k : K) (v : V) (k' : K) :
  k' ∈ map fst (push_group m k v) <-> k' = k \/ k' ∈ map fst m.
Proof.
  induction m as [|[k0 vs] m IH]; cbn.
  - rewrite elem_of_list_singleton, elem_of_nil. intuition.
  - destruct (decide (k = k0)) as [->|Hn]; cbn; rewrite !elem_of_cons; [intuition|]. rewrite IH. intuition.
Qed.

Lemma push_group_elem (m : list (K * list V)) (k : K) (v : V) (k' : K) (vs' : list V) :
  NoDup (map fst m) ->
  (k', vs') ∈ push_group m k v <->
  (k' <> k /\ (k', vs') ∈ m) \/
  (k' = k /\ ((k ∉ map fst m /\ vs' = [v]) \/ exists vs, (k, vs) ∈ m /\ vs' = vs ++ [v])).
Proof.
  induction m as [|[k0 vs] m IH]; cbn; intros Hnd.
  - rewrite elem_of_list_singleton. split.
    + intros [= -> ->]. right. split; [done|]. left. split; [by intros ?%elem_of_nil|done].
    + intros [[_ H]|[-> [[_ ->]|(vs & H & _)]]]; [by apply elem_of_nil in H|done|by apply elem_of_nil in H].
  - apply NoDup_cons in Hnd as [Hk0 Hnd]. destruct (decide (k = k0)) as [->|Hn].
    + rewrite elem_of_cons. split.
      * intros [[= -> ->]|H].
        -- right. split; [done|]. right. exists vs. split; [left|done].
        -- left. split; [|by right]. intros ->. destruct Hk0. by apply (elem_of_list_fmap_1 fst) in H.
      * intros [[Hne [[= -> ->]|H]%elem_of_cons]|[-> [[H _]|(vs0 & H & ->)]]].
        -- done.
        -- by right.
        -- destruct H. left.
        -- apply elem_of_cons in H as [[= ->]|H]; [by left|]. destruct Hk0. by apply (elem_of_list_fmap_1 fst) in H.
    + rewrite elem_of_cons, (IH Hnd). split.
      * intros [[= -> ->]|[[Hne H]|[-> [[H ->]|(vs0 & H & ->)]]]].
        -- left. split; [done|left].
        -- left. split; [done|by right].
        -- right. split; [done|]. left. split; [|done]. intros [?|?]%elem_of_cons; [done|done].
        -- right. split; [done|]. right. exists vs0. split; [by right|done].
      * intros [[Hne [[= -> ->]|H]%elem_of_cons]|[-> [[H ->]|(vs0 & H & ->)]]].
        -- by left.
        -- right. left. done.
        -- right. right. split; [done|]. left. split; [|done]. intros ?. apply H. by right.
        -- apply elem_of_cons in H as [[= -> _]|H]; [done|]. right. right. split; [done|]. right. by exists vs0.
Qed.

Lemma push_group_nodup (m : list (K * list V)) (k : K) (v : V) :
  NoDup (map fst m) -> NoDup (map fst (push_group m k v)).
Proof.
  induction m as [|[k0 vs] m IH]; cbn; intros Hnd; [apply NoDup_singleton|].
  apply NoDup_cons in Hnd as [Hk0 Hnd]. destruct (decide (k = k0)) as [->|Hn]; cbn; apply NoDup_cons; split; auto.
  rewrite push_group_keys. by intros [->|?].
Qed.

Lemma push_grouped (key : V -> K) (m : list (K * list V)) (all : list V) (v : V) :
  grouped key m all -> grouped key (push_group m (key v) v) (all ++ [v]).
Proof.
  intros (H1 & H2 & H3). split; [by apply push_group_nodup|]. split.
  - intros k vs Hin. apply push_group_elem in Hin; [|done].
    destruct Hin as [[Hne Hin]|[-> [[Hn ->]|(vs0 & Hin & ->)]]].
    + destruct (H2 _ _ Hin) as [Hnil Hall]. split; [done|]. intros w Hw. destruct (Hall w Hw).
      split; [set_solver|done].
    + split; [done|]. intros w ->%elem_of_list_singleton. split; [set_solver|done].
    + split; [by destruct vs0|]. destruct (H2 _ _ Hin) as [_ Hall].
      intros w [Hw|Hw]%elem_of_app; [destruct (Hall w Hw); split; [set_solver|done]|].
      apply elem_of_list_singleton in Hw as ->. split; [set_solver|done].
  - intros w [Hw|Hw]%elem_of_app.
    + destruct (H3 w Hw) as (vs & Hin & Hwv). destruct (decide (key w = key v)) as [E|Hn].
      * exists (vs ++ [v]). split; [|set_solver]. apply push_group_elem; [done|]. right. split; [done|]. right.
        exists vs. split; [by rewrite <- E|done].
      * exists vs. split; [|done]. apply push_group_elem; [done|]. by left.
    + apply elem_of_list_singleton in Hw as ->.
      destruct (decide (key v ∈ map fst m)) as [Hk|Hk].
      * apply elem_of_list_fmap in Hk as ([k vs] & E & Hin). cbn in E. subst k.
        exists (vs ++ [v]). split; [|set_solver]. apply push_group_elem; [done|]. right. split; [done|]. right.
        by exists vs.
      * exists [v]. split; [|left]. apply push_group_elem; [done|]. right. split; [done|]. by left.
Qed.

Lemma foldl_grouped (key : V -> K) (vs : list V) : forall m all,
  grouped key m all -> grouped key (foldl (fun m v => push_group m (key v) v) m vs) (all ++ vs).
Proof.
  induction vs as [|v vs IH]; intros m all H; cbn; [by rewrite app_nil_r|].
  replace (all ++ v :: vs) with ((all ++ [v]) ++ vs) by (by rewrite <- app_assoc). apply IH. by apply push_grouped.
Qed.
End groups.

Lemma min_by_key_spec {A : Type} (key : A -> nat) (l : list A) : forall x,
  let m := min_by_key key x l in (m = x \/ m ∈ l) /\ key m <= key x /\ forall y, y ∈ l -> key m <= key y.
Proof.
  induction l as [|y l IH]; intros x; cbn [min_by_key].
  - split; [by left|]. split; [done|]. intros y Hy. by apply elem_of_nil in Hy.
  - destruct (Nat.ltb_spec (key y) (key x)) as [Hlt|Hge].
    + destruct (IH y) as (H1 & H2 & H3). split; [right; apply elem_of_cons; destruct H1; auto|]. split; [lia|].
      intros z [->|Hz]%elem_of_cons; [done|by apply H3].
    + destruct (IH x) as (H1 & H2 & H3). split; [destruct H1; [by left|right; by right]|]. split; [done|].
      intros z [->|Hz]%elem_of_cons; [lia|by apply H3].
Qed.

Lemma shortest_spec (g : list single) (u : single) :
  shortest g = Some u ->
  u ∈ g /\ forall v, v ∈ g -> source_length (fu_source (sg_usage u)) <= source_length (fu_source (sg_usage v)).
Proof.
  destruct g as [|x l]; [done|]. cbn [shortest].
  destruct (min_by_key_spec (fun u => source_length (fu_source (sg_usage u))) l x) as (H1 & H2 & H3).
  set (m := min_by_key _ x l) in *. intros [= <-]. split; [apply elem_of_cons; destruct H1; auto|].
  intros v [->|Hv]%elem_of_cons; [done|by apply H3].
Qed.

(** ** The output *)

Definition out_key (o : out_usages) : pkg_id * str := (ou_pkg o, ou_api o).
Definition single_key (u : single) : pkg_id * str := (sg_pkg u, sg_api u).

(** The output holds exactly the singles [us]; the scope is a function of the package. *)
Definition outputs (us : list single) (out : list out_usages) : Prop :=
  NoDup (map out_key out) /\
  (forall o, o ∈ out -> ou_usages o <> [] /\ exists u, u ∈ us /\ single_key u = out_key o /\ sg_scope u = ou_scope o) /\
  (forall o, o ∈ out ->
     ou_usages o = map sg_usage (List.filter (fun u => bool_decide (single_key u = out_key o)) us)) /\
  (forall u, u ∈ us -> exists o, o ∈ out /\ out_key o = single_key u).

Lemma push_output_keys (out : list out_usages) (u : single) (k : pkg_id * str) :
  k ∈ map out_key (push_output out u) <-> k = single_key u \/ k ∈ map out_key out.
Proof.
  induction out as [|o out IH]; cbn.
  - rewrite elem_of_list_singleton, elem_of_nil. unfold single_key, out_key. cbn. intuition.
  - destruct (decide (ou_pkg o = sg_pkg u /\ ou_api o = sg_api u)) as [[E1 E2]|Hn]; cbn; rewrite !elem_of_cons.
    + unfold out_key at 1, single_key. cbn. unfold out_key at 2. rewrite E1, E2. intuition.
    + rewrite IH. intuition.
Qed.

Lemma push_output_elem (out : list out_usages) (u : single) (o' : out_usages) :
  NoDup (map out_key out) ->
  o' ∈ push_output out u <->
  (out_key o' <> single_key u /\ o' ∈ out) \/
  (single_key u ∉ map out_key out /\ o' = OutUsages (sg_pkg u) (sg_scope u) (sg_api u) [sg_usage u]) \/
  (exists o, o ∈ out /\ out_key o = single_key u /\
     o' = OutUsages (ou_pkg o) (ou_scope o) (ou_api o) (ou_usages o ++ [sg_usage u])).
Proof.
  induction out as [|o out IH]; cbn; intros Hnd.
  - rewrite elem_of_list_singleton. split.
    + intros ->. right. left. split; [by intros ?%elem_of_nil|done].
    + intros [[_ H]|[[_ ->]|(o & H & _)]]; [by apply elem_of_nil in H|done|by apply elem_of_nil in H].
  - apply NoDup_cons in Hnd as [Ho Hnd].
    destruct (decide (ou_pkg o = sg_pkg u /\ ou_api o = sg_api u)) as [[E1 E2]|Hn].
    + assert (out_key o = single_key u) as Ek by (unfold out_key, single_key; congruence).
      rewrite elem_of_cons. split.
      * intros [->|H]; [right; right; exists o; split_and!; [left|done|done]|]. left. split; [|by right].
        intros E. destruct Ho. rewrite Ek, <- E. by apply (elem_of_list_fmap_1 out_key).
      * intros [[Hne [->|H]%elem_of_cons]|[[H _]|(o2 & H & E & ->)]].
        -- done.
        -- by right.
        -- destruct H. apply elem_of_cons. left. done.
        -- apply elem_of_cons in H as [->|H]; [by left|]. destruct Ho. rewrite Ek, <- E.
           by apply (elem_of_list_fmap_1 out_key).
    + assert (out_key o <> single_key u) as Ek by (unfold out_key, single_key; intros [= ? ?]; auto).
      rewrite elem_of_cons, (IH Hnd). split.
      * intros [->|[[Hne H]|[[H ->]|(o2 & H & E & ->)]]].
        -- left. split; [done|left].
        -- left. split; [done|by right].
        -- right. left. split; [|done]. intros [?|?]%elem_of_cons; [by destruct Ek|done].
        -- right. right. exists o2. split_and!; [by right|done|done].
      * intros [[Hne [->|H]%elem_of_cons]|[[H ->]|(o2 & H & E & ->)]].
        -- by left.
        -- right. by left.
        -- right. right. left. split; [|done]. intros ?. apply H. by right.
        -- apply elem_of_cons in H as [->|H]; [done|]. right. right. right. by exists o2.
Qed.

Lemma push_output_nodup (out : list out_usages) (u : single) :
  NoDup (map out_key out) -> NoDup (map out_key (push_output out u)).
Proof.
  induction out as [|o out IH]; cbn; intros Hnd; [apply NoDup_singleton|].
  apply NoDup_cons in Hnd as [Ho Hnd].
  destruct (decide (ou_pkg o = sg_pkg u /\ ou_api o = sg_api u)) as [[E1 E2]|Hn]; cbn; apply NoDup_cons; split; auto.
  rewrite push_output_keys. intros [E|?]; [|done]. apply Hn. by injection E.
Qed.

Lemma push_outputs (us : list single) (out : list out_usages) (u : single) :
  outputs us out -> (forall v, v ∈ us -> sg_pkg v = sg_pkg u -> sg_scope v = sg_scope u) ->
  outputs (us ++ [u]) (push_output out u).
Proof.
  intros (H1 & H2 & H3 & H4) Hs. split; [by apply push_output_nodup|]. split; [|split].
  - intros o Ho. apply push_output_elem in Ho; [|done].
    destruct Ho as [[Hne Ho]|[[Hn ->]|(o2 & Ho & E & ->)]].
    + destruct (H2 o Ho) as [Hu (v & Hv & Ev & Es)]. split; [done|]. exists v. split; [set_solver|done].
    + split; [done|]. exists u. split; [set_solver|done].
    + split; [cbn; by destruct (ou_usages o2)|]. destruct (H2 o2 Ho) as [Hu (v & Hv & Ev & Es)].
      exists v. split; [set_solver|]. done.
  - intros o Ho. apply push_output_elem in Ho; [|done].
    destruct Ho as [[Hne Ho]|[[Hn ->]|(o2 & Ho & E & ->)]].
    + rewrite (H3 o Ho), List.filter_app. cbn. rewrite bool_decide_eq_false_2 by congruence. by rewrite app_nil_r.
    + cbn. rewrite List.filter_app. cbn. rewrite bool_decide_eq_true_2 by done.
      replace (List.filter _ us) with (@nil single); [done|]. symmetry.
      assert (forall v, v ∈ us -> single_key v <> single_key u) as Hv.
      { intros v Hv E. apply Hn. rewrite <- E. destruct (H4 v Hv) as (o & Ho & <-).
        by apply (elem_of_list_fmap_1 out_key). }
      clear -Hv. induction us as [|v us IH]; [done|]. cbn.
      rewrite bool_decide_eq_false_2 by (apply Hv; left). apply IH. intros w Hw. apply Hv. by right.
    + cbn. rewrite (H3 o2 Ho), List.filter_app. unfold out_key in *. cbn.
      rewrite E. rewrite (bool_decide_eq_true_2 (single_key u = single_key u)) by done. by rewrite map_app.
  - intros v [Hv|Hv]%elem_of_app.
    + destruct (H4 v Hv) as (o & Ho & E). destruct (decide (out_key o = single_key u)) as [Ek|Ek].
      * exists (OutUsages (ou_pkg o) (ou_scope o) (ou_api o) (ou_usages o ++ [sg_usage u])). split; [|done].
        apply push_output_elem; [done|]. right. right. by exists o.
      * exists o. split; [|done]. apply push_output_elem; [done|]. by left.
    + apply elem_of_list_singleton in Hv as ->.
      destruct (decide (single_key u ∈ map out_key out)) as [Hk|Hk].
      * apply elem_of_list_fmap in Hk as (o & Ek & Ho).
        exists (OutUsages (ou_pkg o) (ou_scope o) (ou_api o) (ou_usages o ++ [sg_usage u])). split; [|done].
        apply push_output_elem; [done|]. right. right. by exists o.
      * exists (OutUsages (sg_pkg u) (sg_scope u) (sg_api u) [sg_usage u]). split; [|done].
        apply push_output_elem; [done|]. right. by left.
Qed.

Definition chosen (groups : list (group_key * list single)) : list single :=
  omap (fun g => shortest g.2) groups.

Lemma emit_outputs (groups : list (group_key * list single)) :
  (forall u v, u ∈ chosen groups -> v ∈ chosen groups -> sg_pkg u = sg_pkg v -> sg_scope u = sg_scope v) ->
  outputs (chosen groups) (emit_shortest groups).
Proof.
  intros Hs. unfold emit_shortest, chosen in *.
  assert (forall done out, outputs done out ->
    (forall u v, u ∈ done ++ omap (fun g => shortest g.2) groups -> v ∈ done ++ omap (fun g => shortest g.2) groups ->
       sg_pkg u = sg_pkg v -> sg_scope u = sg_scope v) ->
    outputs (done ++ omap (fun g => shortest g.2) groups)
      (foldl (fun out g => match shortest g.2 with Some u => push_output out u | None => out end) out groups)) as H.
  { clear Hs. induction groups as [|g groups IH]; intros done out Ho Hd; cbn [foldl omap list_omap]; [by rewrite app_nil_r|].
    cbn [omap list_omap] in Hd. destruct (shortest g.2) as [u|]; [|by apply IH].
    replace (done ++ u :: omap (fun g => shortest g.2) groups) with ((done ++ [u]) ++ omap (fun g => shortest g.2) groups)
      in * by (by rewrite <- app_assoc). apply IH; [|done]. apply push_outputs; [done|].
    intros v Hv. apply Hd; set_solver. }
  apply (H [] []); [|done]. split; [constructor|]. split_and!.
  - intros o Ho. by apply elem_of_nil in Ho.
  - intros o Ho. by apply elem_of_nil in Ho.
  - intros u Hu. by apply elem_of_nil in Hu.
Qed.

Section collect.
Context (apis_for : list str -> gset str) (pkgs_of : str -> option (list pkg_id)) (bin_sel : crate_sel).

Local Notation name_hits := (name_hits apis_for).
Local Notation names_and_apis := (names_and_apis apis_for).
Local Notation has_api := (has_api apis_for).
Local Notation charged := (charged apis_for pkgs_of).

Lemma name_hits_spec (src : sym_or_debug) (ns : list (list str)) (u : list str) (hs : list hit) :
  name_hits src (Some (ns, u)) = Some hs ->
  (forall h, h ∈ hs -> ht_source h = src /\ ht_apis h = apis_for (ht_name h) /\ ht_name h ∈ ns /\ ht_apis h <> ∅) /\
  (forall n a, n ∈ ns -> a ∈ apis_for n -> exists h, h ∈ hs /\ ht_name h = n).
Proof.
  cbn. destruct (bool_decide (apis_for u = ∅)); [|done]. intros [= <-]. split.
  - intros h Hh. apply elem_of_list_omap in Hh as (n & Hn & E).
    destruct (bool_decide (apis_for n = ∅)) eqn:Eb; [done|]. injection E as <-. cbn.
    apply bool_decide_eq_false in Eb. done.
  - intros n a Hn Ha. exists (Hit n src (apis_for n)). split; [|done]. apply elem_of_list_omap. exists n.
    split; [done|]. rewrite bool_decide_eq_false_2; [done|]. set_solver.
Qed.

(** The names with APIs, without the shortcut. *)
Definition pure_hits (sn : sym_and_name) : option (list hit) :=
  match names_and_apis ∅ sn with Some (hs, _) => Some hs | None => None end.

Lemma pure_hits_spec (sn : sym_and_name) (hs : list hit) :
  pure_hits sn = Some hs ->
  forall n src a, has_api sn n src a <-> exists h, h ∈ hs /\ ht_name h = n /\ ht_source h = src /\ a ∈ ht_apis h.
Proof.
  unfold pure_hits, CollectModel.names_and_apis.
  replace (match sn_symbol sn with Some s => default false ((∅ : gmap str bool) !! s) | None => false end) with false
    by (destruct (sn_symbol sn); [by rewrite lookup_empty|done]).
  intros H n src a.
  destruct (match sn_debug sn with Some d => name_hits (FromDebug d) (debug_names d) | None => Some [] end)
    as [[|h0 hs0]|] eqn:E1; [| |done].
  - assert (forall n a, ~ debug_api apis_for sn n a) as Hnd.
    { intros n' a' (d & ns & u & Ed & En & Hn & Ha). apply debug_names_spec in En. rewrite Ed, En in E1.
      destruct (name_hits_spec _ _ _ _ E1) as [_ Hc]. destruct (Hc n' a' Hn Ha) as (h & Hh & _).
      by apply elem_of_nil in Hh. }
    destruct (sn_symbol sn) as [s|] eqn:Es.
    + assert (exists hs', name_hits (FromSymbol s) (symbol_names s) = Some hs' /\ hs' = hs) as (hs' & E2 & ->).
      { destruct (name_hits (FromSymbol s) (symbol_names s)) as [[|h1 hs1]|]; [injection H as <-; eauto|injection H as <-; eauto|done]. }
      destruct (symbol_names s) as [[ns u]|] eqn:En; [|done].
      pose proof (proj1 (symbol_names_spec _ _ _) En) as Ens.
      destruct (name_hits_spec _ _ _ _ E2) as [Hs Hc]. split.
      * intros [[Hd _]|(_ & (s' & ns' & u' & Es' & En' & Hn & Ha) & (s'' & Es'' & ->))]; [by destruct (Hnd n a)|].
        assert (s' = s) as -> by congruence. assert (s'' = s) as -> by congruence.
        apply symbol_names_spec in En'.
        assert (ns' = ns) as -> by congruence. destruct (Hc n a Hn Ha) as (h & Hh & <-). exists h.
        destruct (Hs h Hh) as (? & Ha' & _ & _). split_and!; [done|done|done|by rewrite Ha'].
      * intros (h & Hh & <- & <- & Ha). destruct (Hs h Hh) as (Hsrc & Ha' & Hn & _). right. split; [done|]. split.
        -- exists s, ns, u. rewrite <- Ha'. done.
        -- exists s. done.
    + injection H as <-. split.
      * intros [[Hd _]|(_ & (s' & ns' & u' & Es' & _) & _)]; [by destruct (Hnd n a)|congruence].
      * intros (h & Hh & _). by apply elem_of_nil in Hh.
  - injection H as <-. destruct (sn_debug sn) as [d|] eqn:Ed; [|done].
    destruct (debug_names d) as [[ns u]|] eqn:En; [|done].
    pose proof (proj1 (debug_names_spec _ _ _) En) as Ens.
    destruct (name_hits_spec _ _ _ _ E1) as [Hs Hc]. split.
    + intros [[(d' & ns' & u' & Ed' & En' & Hn & Ha) (d'' & Ed'' & ->)]|(Hnd & _)].
      * assert (d' = d) as -> by congruence. assert (d'' = d) as -> by congruence.
        apply debug_names_spec in En'.
        assert (ns' = ns) as -> by congruence. destruct (Hc n a Hn Ha) as (h & Hh & <-). exists h.
        destruct (Hs h Hh) as (? & Ha' & _ & _). split_and!; [done|done|done|by rewrite Ha'].
      * destruct (Hs h0 ltac:(left)) as (_ & Ha' & Hn & Hne). apply set_choose_L in Hne as [a' Ha''].
        destruct (Hnd (ht_name h0) a'). exists d, ns, u. rewrite <- Ha'. done.
    + intros (h & Hh & <- & <- & Ha). destruct (Hs h Hh) as (Hsrc & Ha' & Hn & _). left. split.
      * exists d, ns, u. rewrite <- Ha'. done.
      * exists d. done.
Qed.

Lemma names_and_apis_pure (no_apis : gmap str bool) (sn : sym_and_name) :
  (forall s, sn_symbol sn = Some s -> no_apis !! s <> Some true) ->
  match names_and_apis no_apis sn with
  | None => pure_hits sn = None
  | Some (hs, no_apis') =>
      pure_hits sn = Some hs /\
      (no_apis' = no_apis \/
       exists s, sn_symbol sn = Some s /\ hs = [] /\ is_Some (no_apis !! s) /\ no_apis' = <[s := true]> no_apis)
  end.
Proof.
  intros Hc. unfold pure_hits, CollectModel.names_and_apis.
  replace (match sn_symbol sn with Some s => default false ((∅ : gmap str bool) !! s) | None => false end) with false
    by (destruct (sn_symbol sn); [by rewrite lookup_empty|done]).
  replace (match sn_symbol sn with Some s => default false (no_apis !! s) | None => false end) with false.
  2:{ destruct (sn_symbol sn) as [s|]; [|done]. specialize (Hc s eq_refl). destruct (no_apis !! s) as [[]|]; done. }
  destruct (match sn_debug sn with Some d => name_hits (FromDebug d) (debug_names d) | None => Some [] end)
    as [[|h0 hs0]|]; [| |done].
  - destruct (sn_symbol sn) as [s|]; [|by split; [|left]].
    destruct (name_hits (FromSymbol s) (symbol_names s)) as [[|h1 hs1]|]; [|by split; [|left]|done].
    split; [done|]. destruct (bool_decide (is_Some (no_apis !! s))) eqn:Eb; [|by left].
    apply bool_decide_eq_true in Eb. right. by exists s.
  - by split; [|left].
Qed.

Lemma elem_of_unions (a : str) (hs : list hit) : a ∈ ⋃ (map ht_apis hs) <-> exists h, h ∈ hs /\ a ∈ ht_apis h.
Proof.
  induction hs as [|h hs IH]; cbn.
  - split; [set_solver|]. intros (h & Hh & _). by apply elem_of_nil in Hh.
  - rewrite elem_of_union. split.
    + intros [Ha|Ha]; [exists h; split; [left|done]|]. apply IH in Ha as (h' & Hh & Ha). exists h'.
      split; [by right|done].
    + intros (h' & [->|Hh]%elem_of_cons & Ha); [by left|]. right. apply IH. by exists h'.
Qed.

(** The usages of a reference are its charges. *)
Definition describes (u : single) (r : reference) (pkg : pkg_id) (api : str) (name : list str)
    (src : sym_or_debug) (loc : src_loc) : Prop :=
  sg_pkg u = pkg /\ sg_api u = api /\
  sg_scope u = determine_scope (bool_decide (pkg = cs_pkg bin_sel)) (cs_kind bin_sel) /\
  fu_bin (sg_usage u) = rf_bin r /\ fu_scope (sg_usage u) = sg_scope u /\ fu_location (sg_usage u) = loc /\
  shown_as (nd_names (rf_from r)) (fu_from (sg_usage u)) /\ shown_as (rf_target r) (fu_to (sg_usage u)) /\
  fu_to_name (sg_usage u) = name /\ fu_source (sg_usage u) = src /\
  outer_file r (sl_file <$> fu_outer (sg_usage u)).

Lemma shown_as_spec (sn : sym_and_name) (x : sym_or_debug) : symbol_or_debug_name sn = Some x <-> shown_as sn x.
Proof.
  unfold symbol_or_debug_name, shown_as. destruct (sn_debug sn) as [d|].
  - split; [by intros [= <-]|by intros ->].
  - destruct (sn_symbol sn) as [s|]; [split; [intros [= <-]; by exists s|by intros (s' & [= ->] & ->)]|].
    split; [done|]. by intros (s & ? & _).
Qed.

Lemma make_usage_describes (r : reference) (loc : src_loc) (h : hit) (pkg : pkg_id) (api : str) (u : single) :
  make_usage bin_sel r loc h pkg api = Some u -> describes u r pkg api (ht_name h) (ht_source h) loc.
Proof.
  unfold make_usage. destruct (match rf_outer r with Some n => _ | None => _ end) as [outer|] eqn:Eo; [|done].
  destruct (symbol_or_debug_name (nd_names (rf_from r))) as [from|] eqn:Ef; [|done].
  destruct (symbol_or_debug_name (rf_target r)) as [to|] eqn:Et; [|done]. intros [= <-].
  apply shown_as_spec in Ef, Et. unfold describes. cbn. split_and!; try done.
  unfold outer_file. destruct (rf_outer r) as [n|]; [|by injection Eo as <-].
  destruct (fetch (nd_fetcher n)) as [l|] eqn:El; [|done]. injection Eo as <-. exists l. split; [by apply place_fetch|done].
Qed.

Lemma reference_usages_spec (r : reference) (from_hits hits : list hit) (us : list single) :
  pure_hits (nd_names (rf_from r)) = Some from_hits -> pure_hits (rf_target r) = Some hits ->
  reference_usages pkgs_of bin_sel r from_hits hits = Some us ->
  (forall u, u ∈ us -> exists pkg api name src loc, charged r pkg api name src loc /\
     describes u r pkg api name src loc) /\
  (forall pkg api name src loc, charged r pkg api name src loc ->
     exists u, u ∈ us /\ describes u r pkg api name src loc).
Proof.
  intros Hf Ht H. pose proof (pure_hits_spec _ _ Hf) as Hfs. pose proof (pure_hits_spec _ _ Ht) as Hts.
  unfold reference_usages in H. destruct hits as [|h0 hits0] eqn:Eh.
  { injection H as <-. split; [intros u Hu; by apply elem_of_nil in Hu|].
    intros pkg api name src loc (Ha & _). apply Hts in Ha as (h & Hh & _). by apply elem_of_nil in Hh. }
  rewrite <- Eh in *. clear Eh h0 hits0.
  destruct (fetch (nd_fetcher (rf_from r))) as [loc|] eqn:El; [|done].
  destruct (pkgs_of (sl_file loc)) as [pkgs|] eqn:Ep; [|done].
  destruct (flat_mapM_elem _ _ _ H) as [Hall Hel].
  assert (forall api, api ∈ ⋃ (map ht_apis from_hits) <-> exists n s, has_api (nd_names (rf_from r)) n s api) as Hfa.
  { intros api. rewrite elem_of_unions. split.
    - intros (h & Hh & Ha). exists (ht_name h), (ht_source h). apply Hfs. by exists h.
    - intros (n & s & Ha). apply Hfs in Ha as (h & Hh & _ & _ & Ha). by exists h. }
  split.
  - intros u Hu. apply Hel in Hu as (h & us' & Hh & Eu & Hu). unfold hit_usages in Eu.
    destruct (flat_mapM_elem _ _ _ Eu) as [_ Hel']. apply Hel' in Hu as (pkg & us'' & Hpkg & Eu' & Hu).
    destruct (name_starts_with (ht_name h) (pi_name pkg)) eqn:En; [injection Eu' as <-; by apply elem_of_nil in Hu|].
    apply mapM_Some in Eu'. destruct (elem_of_list_lookup_1 _ _ Hu) as [k Hk].
    destruct (Forall2_lookup_r _ _ _ _ _ Eu' Hk) as (api & Hapi & Emk).
    apply elem_of_list_lookup_2 in Hapi. apply elem_of_list_In, List.filter_In in Hapi as [Hapi Hnf].
    apply elem_of_list_In, elem_of_elements in Hapi. apply negb_true_iff, bool_decide_eq_false in Hnf.
    exists pkg, api, (ht_name h), (ht_source h), loc. split; [|by apply make_usage_describes]. split_and!.
    + apply Hts. by exists h.
    + by apply place_fetch.
    + by exists pkgs.
    + intros rest E. rewrite E in En. cbn in En. unfold str_eqb in En. by rewrite bool_decide_eq_true_2 in En.
    + intros n s Ha. apply Hnf, Hfa. by exists n, s.
  - intros pkg api name src loc' (Ha & El' & (pkgs' & Ep' & Hpkg) & Hn & Hnf).
    apply place_fetch in El'. assert (loc' = loc) as -> by congruence. assert (pkgs' = pkgs) as -> by congruence.
    apply Hts in Ha as (h & Hh & <- & <- & Hapi). destruct (Hall h Hh) as [us' Eu].
    unfold hit_usages in Eu. destruct (flat_mapM_elem _ _ _ Eu) as [Hall' Hel']. destruct (Hall' pkg Hpkg) as [us'' Eu'].
    pose proof Eu' as Eu2. assert (name_starts_with (ht_name h) (pi_name pkg) = false) as En.
    { destruct (ht_name h) as [|x rest]; [done|]. cbn. unfold str_eqb. apply bool_decide_eq_false. intros E. apply (Hn rest). by rewrite E. }
    rewrite En in Eu2. apply mapM_Some in Eu2.
    assert (api ∈ List.filter (fun api => negb (bool_decide (api ∈ ⋃ (map ht_apis from_hits)))) (elements (ht_apis h))) as Hin.
    { apply elem_of_list_In, List.filter_In. split; [by apply elem_of_list_In, elem_of_elements|].
      apply negb_true_iff, bool_decide_eq_false. intros (n & s & Hb)%Hfa. by apply (Hnf n s). }
    destruct (elem_of_list_lookup_1 _ _ Hin) as [k Hk].
    destruct (Forall2_lookup_l _ _ _ _ _ Eu2 Hk) as (u & Hu & Emk). exists u.
    split; [|by apply make_usage_describes]. apply Hel. exists h, us'. split_and!; [done|done|].
    apply Hel'. exists pkg, us''. split_and!; [done|done|]. by eapply elem_of_list_lookup_2.
Qed.

(** ** All references *)

Definition pure_usages (r : reference) : option (list single) :=
  match pure_hits (nd_names (rf_from r)), pure_hits (rf_target r) with
  | Some fh, Some th => reference_usages pkgs_of bin_sel r fh th
  | _, _ => None
  end.

(** A symbol is only noted as having no APIs if something with that symbol has none. *)
Definition noted (symbols : list str) (used : sym_and_name -> Prop) (no_apis : gmap str bool) : Prop :=
  (forall s, is_Some (no_apis !! s) -> s ∈ symbols) /\
  (forall s, no_apis !! s = Some true -> exists sn, used sn /\ sn_symbol sn = Some s /\ pure_hits sn = Some []).

Definition consistent (symbols : list str) (used : sym_and_name -> Prop) : Prop :=
  forall sn sn' s, used sn -> used sn' -> s ∈ symbols -> sn_symbol sn = Some s -> sn_symbol sn' = Some s ->
    sn_debug sn = sn_debug sn'.

Lemma names_and_apis_noted (symbols : list str) (used : sym_and_name -> Prop) (no_apis : gmap str bool)
    (sn : sym_and_name) :
  consistent symbols used -> noted symbols used no_apis -> used sn ->
  match names_and_apis no_apis sn with
  | None => pure_hits sn = None
  | Some (hs, no_apis') => pure_hits sn = Some hs /\ noted symbols used no_apis'
  end.
Proof.
  intros Hc [Hn1 Hn2] Hu.
  destruct (match sn_symbol sn with Some s => default false (no_apis !! s) | None => false end) eqn:E.
  - assert (names_and_apis no_apis sn = Some ([], no_apis)) as -> by (unfold CollectModel.names_and_apis; by rewrite E).
    split; [|done]. destruct (sn_symbol sn) as [s|] eqn:Es; [|done].
    destruct (no_apis !! s) as [[]|] eqn:El; [|done|done].
    destruct (Hn2 s El) as (sn' & Hu' & Es' & Hp).
    assert (sn = sn') as ->; [|done].
    assert (sn_debug sn = sn_debug sn') as Ed.
    { apply (Hc sn sn' s); [done|done|apply Hn1; by rewrite El|done|done]. }
    destruct sn, sn'. cbn in *. congruence.
  - assert (forall s, sn_symbol sn = Some s -> no_apis !! s <> Some true) as Hns.
    { intros s Es El. rewrite Es, El in E. done. }
    pose proof (names_and_apis_pure no_apis sn Hns) as H.
    destruct (names_and_apis no_apis sn) as [[hs no']|]; [|done]. destruct H as [Hp [->|(s & Es & -> & Hi & ->)]].
    + split; done.
    + split; [done|]. split.
      * intros s' Hs'. destruct (decide (s' = s)) as [->|Hne]; [by apply Hn1|].
        rewrite lookup_insert_ne in Hs' by done. by apply Hn1.
      * intros s' Hs'. destruct (decide (s' = s)) as [->|Hne]; [by exists sn|].
        rewrite lookup_insert_ne in Hs' by done. by apply Hn2.
Qed.

Definition push_all (m : list (group_key * list single)) (us : list single) : list (group_key * list single) :=
  foldl (fun m u => push_group m (key_of u) u) m us.

Lemma process_references_spec (symbols : list str) (used : sym_and_name -> Prop) (rs : list reference) :
  consistent symbols used -> (forall r, r ∈ rs -> used (nd_names (rf_from r)) /\ used (rf_target r)) ->
  forall c, noted symbols used (co_no_apis c) ->
  match process_references apis_for pkgs_of bin_sel c rs with
  | None => mapM pure_usages rs = None
  | Some c' => exists uss, mapM pure_usages rs = Some uss /\ co_groups c' = push_all (co_groups c) (mjoin uss)
  end.
Proof.
  intros Hc. induction rs as [|r rs IH]; intros Hu c Hn; cbn [process_references].
  - exists []. done.
  - destruct (Hu r ltac:(left)) as [Huf Hut]. unfold process_reference.
    pose proof (names_and_apis_noted symbols used _ _ Hc Hn Huf) as Hf.
    cbn [mapM]. assert (exists p, pure_usages r = p) as [p Epu] by eauto. rewrite Epu. unfold pure_usages in Epu.
    destruct (names_and_apis (co_no_apis c) (nd_names (rf_from r))) as [[fh n1]|]; [|rewrite Hf in Epu; by subst p].
    destruct Hf as [Hf Hn1]. rewrite Hf in Epu.
    pose proof (names_and_apis_noted symbols used _ _ Hc Hn1 Hut) as Ht.
    destruct (names_and_apis n1 (rf_target r)) as [[th n2]|]; [|rewrite Ht in Epu; by subst p].
    destruct Ht as [Ht Hn2]. rewrite Ht in Epu. rewrite Epu. destruct p as [us|]; [|done]. clear Epu.
    cbn [mbind option_bind].
    specialize (IH (fun r' Hr' => Hu r' ltac:(by right))
                   (Collector n2 (push_all (co_groups c) us)) Hn2).
    fold (push_all (co_groups c) us).
    destruct (process_references apis_for pkgs_of bin_sel _ rs) as [c'|]; [|by rewrite IH].
    destruct IH as (uss & -> & E). exists (us :: uss). split; [done|]. rewrite E. cbn [co_groups].
    unfold push_all. cbn [mjoin list_join]. by rewrite foldl_app.
Qed.

Lemma no_apis_start (symbols : list str) (used : sym_and_name -> Prop) :
  noted symbols used (list_to_map (map (fun s => (s, false)) symbols)).
Proof.
  assert (forall s b, (list_to_map (map (fun s => (s, false)) symbols) : gmap str bool) !! s = Some b ->
    s ∈ symbols /\ b = false) as H.
  { intros s b Hl. apply elem_of_list_to_map_2, elem_of_list_fmap in Hl as (s' & [= -> ->] & Hs). done. }
  split; [intros s [b Hb]; by eapply H|]. intros s Hs. by destruct (H s true Hs).
Qed.

Lemma collect_usages_spec (symbols : list str) (rs : list reference) :
  one_debug_name symbols rs ->
  match collect_usages apis_for pkgs_of bin_sel symbols rs with
  | None => mapM pure_usages rs = None
  | Some out => exists uss, mapM pure_usages rs = Some uss /\ out = emit_shortest (push_all [] (mjoin uss))
  end.
Proof.
  intros Ho. unfold collect_usages.
  pose proof (process_references_spec symbols (occurs_in rs) rs) as H.
  specialize (H Ho). feed specialize H.
  { intros r Hr. split; exists r; split; auto. }
  specialize (H (Collector (list_to_map (map (fun s => (s, false)) symbols)) []) (no_apis_start _ _)).
  destruct (process_references _ _ _ _ rs) as [c|]; [|done]. destruct H as (uss & E & Eg). exists uss.
  split; [done|]. by rewrite Eg.
Qed.

(** The usages of all references. *)
Lemma all_usages (rs : list reference) (uss : list (list single)) :
  mapM pure_usages rs = Some uss ->
  (forall u, u ∈ mjoin uss -> exists r pkg api name src loc, r ∈ rs /\ charged r pkg api name src loc /\
     describes u r pkg api name src loc) /\
  (forall r pkg api name src loc, r ∈ rs -> charged r pkg api name src loc ->
     exists u, u ∈ mjoin uss /\ describes u r pkg api name src loc).
Proof.
  intros E. assert (flat_mapM pure_usages rs = Some (mjoin uss)) as Ef by (unfold flat_mapM; by rewrite E).
  destruct (flat_mapM_elem _ _ _ Ef) as [Hall Hel].
  assert (forall r us, pure_usages r = Some us ->
    (forall u, u ∈ us -> exists pkg api name src loc, charged r pkg api name src loc /\
       describes u r pkg api name src loc) /\
    (forall pkg api name src loc, charged r pkg api name src loc ->
       exists u, u ∈ us /\ describes u r pkg api name src loc)) as Hr.
  { intros r us. unfold pure_usages. destruct (pure_hits (nd_names (rf_from r))) as [fh|] eqn:Efh; [|done].
    destruct (pure_hits (rf_target r)) as [th|] eqn:Eth; [|done]. by apply reference_usages_spec. }
  split.
  - intros u Hu. apply Hel in Hu as (r & us & Hrs & Eu & Hu). destruct (Hr r us Eu) as [H1 _].
    destruct (H1 u Hu) as (pkg & api & name & src & loc & ?). by exists r, pkg, api, name, src, loc.
  - intros r pkg api name src loc Hrs Hch. destruct (Hall r Hrs) as [us Eu]. destruct (Hr r us Eu) as [_ H2].
    destruct (H2 _ _ _ _ _ Hch) as (u & Hu & Hd). exists u. split; [|done]. apply Hel. by exists r, us.
Qed.

Lemma scope_in_spec (pkg : pkg_id) (s : scope) :
  scope_in bin_sel pkg s <-> s = determine_scope (bool_decide (pkg = cs_pkg bin_sel)) (cs_kind bin_sel).
Proof.
  unfold scope_in. destruct (cs_kind bin_sel); cbn; [done| |];
    destruct (bool_decide (pkg = cs_pkg bin_sel)) eqn:E;
    [apply bool_decide_eq_true in E|apply bool_decide_eq_false in E|apply bool_decide_eq_true in E|apply bool_decide_eq_false in E];
    intuition.
Qed.

Lemma chosen_spec (us : list single) :
  (forall u, u ∈ chosen (push_all [] us) -> u ∈ us) /\
  (forall u, u ∈ us -> exists v, v ∈ chosen (push_all [] us) /\ key_of v = key_of u /\
     source_length (fu_source (sg_usage v)) <= source_length (fu_source (sg_usage u))) /\
  NoDup (map key_of (chosen (push_all [] us))).
Proof.
  assert (grouped key_of (push_all [] us) us) as (H1 & H2 & H3).
  { apply (foldl_grouped key_of us [] []). split; [constructor|]. split.
    - intros k vs Hk. by apply elem_of_nil in Hk.
    - intros v Hv. by apply elem_of_nil in Hv. }
  split; [|split].
  - intros u Hu. apply elem_of_list_omap in Hu as ([k vs] & Hk & Es). apply shortest_spec in Es as [Hu _].
    cbn in Hu. by apply (H2 k vs).
  - intros u Hu. destruct (H3 u Hu) as (vs & Hk & Huv).
    destruct (shortest vs) as [v|] eqn:Es; [|by destruct vs; [apply elem_of_nil in Huv|]].
    exists v. destruct (shortest_spec _ _ Es) as [Hv Hmin]. split_and!.
    + apply elem_of_list_omap. by exists (key_of u, vs).
    + by apply (H2 (key_of u) vs).
    + by apply Hmin.
  - clear H3. unfold chosen. induction (push_all [] us) as [|[k vs] m IH]; [constructor|].
    cbn in H1. apply NoDup_cons in H1 as [Hk Hnd]. cbn [omap list_omap].
    assert (NoDup (map key_of (omap (fun g : group_key * list single => shortest g.2) m))) as IH'.
    { apply IH; [done|]. intros k' vs' H. apply H2. by right. }
    cbn [snd]. destruct (shortest vs) as [v|] eqn:Es; [|done]. cbn [map]. apply NoDup_cons. split; [|done].
    intros Hin. apply Hk. apply elem_of_list_fmap in Hin as (w & Ew & Hw).
    apply elem_of_list_omap in Hw as ([k' vs'] & Hk' & Es').
    apply shortest_spec in Es as [Hv _]. apply shortest_spec in Es' as [Hw _]. cbn in Hw.
    destruct (H2 k vs ltac:(left)) as [_ Hvs]. destruct (Hvs v Hv) as [_ <-].
    destruct (H2 k' vs' ltac:(by right)) as [_ Hvs']. destruct (Hvs' w Hw) as [_ Ew']. rewrite Ew, Ew'.
    by apply (elem_of_list_fmap_1 fst) in Hk'.
Qed.

Lemma collected (symbols : list str) (rs : list reference) (out : list out_usages) :
  one_debug_name symbols rs -> collect_usages apis_for pkgs_of bin_sel symbols rs = Some out ->
  (forall r pkg api name src loc from, r ∈ rs -> charged r pkg api name src loc ->
     shown_as (nd_names (rf_from r)) from ->
     exists o u, o ∈ out /\ ou_pkg o = pkg /\ ou_api o = api /\ u ∈ ou_usages o /\
       fu_from u = from /\ fu_location u = loc /\ no_longer (fu_source u) src) /\
  (forall o u, o ∈ out -> u ∈ ou_usages o ->
     scope_in bin_sel (ou_pkg o) (ou_scope o) /\ fu_scope u = ou_scope o /\
     exists r, r ∈ rs /\ charged r (ou_pkg o) (ou_api o) (fu_to_name u) (fu_source u) (fu_location u) /\
       shown_as (nd_names (rf_from r)) (fu_from u) /\ shown_as (rf_target r) (fu_to u) /\ fu_bin u = rf_bin r /\
       outer_file r (sl_file <$> fu_outer u)) /\
  (forall o, o ∈ out -> ou_usages o <> []) /\
  NoDup (map (fun o => (ou_pkg o, ou_api o)) out) /\
  (forall o, o ∈ out -> NoDup (map (fun u => (fu_from u, fu_location u)) (ou_usages o))).
Proof.
  intros Ho E. pose proof (collect_usages_spec symbols rs Ho) as H. rewrite E in H.
  destruct H as (uss & Em & ->). destruct (all_usages rs uss Em) as [Hsound Hcomplete].
  destruct (chosen_spec (mjoin uss)) as (Hc1 & Hc2 & Hc3).
  set (cs := chosen (push_all [] (mjoin uss))) in *.
  assert (forall u, u ∈ cs -> sg_scope u = determine_scope (bool_decide (sg_pkg u = cs_pkg bin_sel)) (cs_kind bin_sel)) as Hscope.
  { intros u Hu. destruct (Hsound u (Hc1 u Hu)) as (r & pkg & api & name & src & loc & _ & _ & Hd).
    destruct Hd as (<- & _ & Hs & _). done. }
  destruct (emit_outputs (push_all [] (mjoin uss))) as (Hnd & Ho1 & Ho2 & Ho3).
  { intros u v Hu Hv Ep. rewrite (Hscope u Hu), (Hscope v Hv), Ep. done. }
  fold cs in Ho1, Ho2, Ho3. set (out := emit_shortest (push_all [] (mjoin uss))) in *. split_and!.
  - intros r pkg api name src loc from Hr Hch Hfrom. destruct (Hcomplete r pkg api name src loc Hr Hch) as (u & Hu & Hd).
    destruct (Hc2 u Hu) as (v & Hv & Ek & Hlen). destruct (Ho3 v Hv) as (o & Hin & Eo). exists o, (sg_usage v).
    destruct Hd as (Ep & Ea & _ & _ & _ & El & Hf & _ & _ & Es & _).
    injection Ek as Ek1 Ek2 Ek3 Ek4 Ek5. injection Eo as Eo1 Eo2. split_and!.
    + done.
    + congruence.
    + congruence.
    + rewrite (Ho2 o Hin). apply (elem_of_list_fmap_1 sg_usage). apply elem_of_list_In, List.filter_In.
      split; [by apply elem_of_list_In|]. apply bool_decide_eq_true. unfold single_key, out_key. congruence.
    + rewrite Ek4. apply shown_as_spec in Hf, Hfrom. congruence.
    + congruence.
    + apply no_longer_spec. by rewrite <- Es.
  - intros o u Hin Hu. rewrite (Ho2 o Hin) in Hu. apply elem_of_list_fmap in Hu as (v & -> & Hv).
    apply elem_of_list_In, List.filter_In in Hv as [Hv Ek]. apply elem_of_list_In in Hv.
    apply bool_decide_eq_true in Ek. injection Ek as Ek1 Ek2.
    destruct (Hsound v (Hc1 v Hv)) as (r & pkg & api & name & src & loc & Hr & Hch & Hd).
    destruct Hd as (Ep & Ea & Es & Eb & Es' & El & Hf & Ht & En & Esrc & Hout).
    destruct (Ho1 o Hin) as (_ & w & Hw & Ew & Esw). injection Ew as Ew1 Ew2.
    assert (ou_scope o = sg_scope v) as Esc by (rewrite <- Esw, (Hscope w Hw), (Hscope v Hv), Ew1, Ek1; done).
    split_and!.
    + apply scope_in_spec. by rewrite Esc, (Hscope v Hv), Ek1.
    + congruence.
    + exists r. split_and!; [done| |done|done|done|done]. by rewrite <- Ek1, <- Ek2, Ep, Ea, En, Esrc, El.
  - intros o Hin. by apply Ho1.
  - done.
  - intros o Hin. rewrite (Ho2 o Hin), map_map.
    assert (forall l : list single, (forall u, u ∈ l -> u ∈ cs) -> NoDup (map key_of l) ->
      NoDup (map (fun u => (fu_from (sg_usage u), fu_location (sg_usage u)))
               (List.filter (fun u => bool_decide (single_key u = out_key o)) l))) as Hl.
    { intros l. induction l as [|v l IH]; intros Hl Hd; [constructor|]. cbn [map] in Hd.
      apply NoDup_cons in Hd as [Hv Hd]. cbn [List.filter].
      destruct (bool_decide (single_key v = out_key o)) eqn:Eb.
      2:{ apply IH; [|done]. intros u Hu. apply Hl. by right. }
      apply bool_decide_eq_true in Eb. cbn [map]. apply NoDup_cons. split.
      2:{ apply IH; [|done]. intros u Hu. apply Hl. by right. }
      intros Hin'. apply elem_of_list_fmap in Hin' as (w & Ew & Hw). apply elem_of_list_In, List.filter_In in Hw as [Hw Ek].
      apply elem_of_list_In in Hw. apply bool_decide_eq_true in Ek. apply Hv.
      replace (key_of v) with (key_of w); [by apply (elem_of_list_fmap_1 key_of)|].
      unfold key_of. rewrite (Hscope v (Hl v ltac:(left))), (Hscope w (Hl w ltac:(by right))).
      unfold single_key in *. injection Ew as Ew1 Ew2. rewrite <- Eb in Ek. injection Ek as Ek1 Ek2. by rewrite Ew1, Ew2, Ek1, Ek2. }
    by apply Hl.
Qed.

Lemma charged_shown (symbols : list str) (rs : list reference) (out : list out_usages) :
  one_debug_name symbols rs -> collect_usages apis_for pkgs_of bin_sel symbols rs = Some out ->
  forall r pkg api name src loc, r ∈ rs -> charged r pkg api name src loc ->
  exists from, shown_as (nd_names (rf_from r)) from.
Proof.
  intros Ho E r pkg api name src loc Hr Hch. pose proof (collect_usages_spec symbols rs Ho) as H. rewrite E in H.
  destruct H as (uss & Em & _). destruct (all_usages rs uss Em) as [_ Hcomplete].
  destruct (Hcomplete r pkg api name src loc Hr Hch) as (u & _ & Hd).
  destruct Hd as (_ & _ & _ & _ & _ & _ & Hf & _). eauto.
Qed.

(** ** No errors *)

Lemma name_hits_readable (src : sym_or_debug) (ns : list (list str)) :
  apis_for [] = ∅ -> is_Some (name_hits src (Some (ns, []))).
Proof. intros E. cbn. rewrite bool_decide_eq_true_2 by done. eauto. Qed.

Lemma pure_hits_readable (sn : sym_and_name) :
  apis_for [] = ∅ -> readable_name sn -> is_Some (pure_hits sn).
Proof.
  intros Ha (_ & Hd & Hs). unfold pure_hits, CollectModel.names_and_apis.
  destruct (match sn_symbol sn with Some s => default false ((∅ : gmap str bool) !! s) | None => false end); [eauto|].
  assert (is_Some (match sn_debug sn with Some d => name_hits (FromDebug d) (debug_names d) | None => Some [] end)) as [hs E].
  { destruct (sn_debug sn) as [d|]; [|eauto]. destruct (Hd d eq_refl) as [ns ->%debug_names_spec]. by apply name_hits_readable. }
  rewrite E. destruct hs as [|h hs]; [|eauto]. destruct (sn_symbol sn) as [s|]; [|eauto].
  destruct (Hs s eq_refl) as [ns En%symbol_names_spec]. destruct (name_hits_readable (FromSymbol s) ns Ha) as [hs' Eh].
  rewrite En, Eh. destruct hs'; eauto.
Qed.

Lemma pure_usages_readable (r : reference) :
  apis_for [] = ∅ -> readable pkgs_of r -> is_Some (pure_usages r).
Proof.
  intros Ha (Hf & Ht & (l & El & pkgs & Ep) & Hout). unfold pure_usages.
  destruct (pure_hits_readable _ Ha Hf) as [fh ->]. destruct (pure_hits_readable _ Ha Ht) as [th ->].
  unfold reference_usages. destruct th as [|h th]; [eauto|]. apply place_fetch in El. rewrite El, Ep.
  apply flat_mapM_is_Some. intros h' _. unfold hit_usages. apply flat_mapM_is_Some. intros pkg _.
  destruct (name_starts_with (ht_name h') (pi_name pkg)); [eauto|]. apply mapM_is_Some. apply Forall_forall.
  intros api _. unfold make_usage.
  destruct Hf as ((x & Hx) & _). destruct Ht as ((y & Hy) & _). apply shown_as_spec in Hx, Hy. rewrite Hx, Hy.
  destruct (rf_outer r) as [n|]; [|eauto]. destruct (Hout n eq_refl) as [l' ->%place_fetch]. eauto.
Qed.

Lemma collect_readable (symbols : list str) (rs : list reference) :
  apis_for [] = ∅ -> one_debug_name symbols rs -> (forall r, r ∈ rs -> readable pkgs_of r) ->
  exists out, collect_usages apis_for pkgs_of bin_sel symbols rs = Some out.
Proof.
  intros Ha Ho Hr. pose proof (collect_usages_spec symbols rs Ho) as H.
  destruct (collect_usages apis_for pkgs_of bin_sel symbols rs) as [out|]; [eauto|].
  assert (is_Some (mapM pure_usages rs)) as [? ?].
  { apply mapM_is_Some, Forall_forall. intros r Hrs. apply pure_usages_readable; auto. }
  congruence.
Qed.
End collect.

(** ** With the checker *)

(** The APIs of a name, as they are looked up. *)
Definition apis_under (defs : gmap str api_config) (name : list str) : gset str :=
  default ∅ (apis_for_name (map_to_list defs) name).

Lemma apis_under_classifies (defs : gmap str api_config) : classifies defs (apis_under defs).
Proof.
  intros name api. unfold apis_under. destruct (apis_for_name_owned defs name) as (s & -> & H). apply H.
Qed.

Lemma apis_under_loaded (defs : gmap str api_config) (t : api_map) (n : list str) :
  load_apis (map_to_list defs) = Some t -> apis_under defs n = am_get t n.
Proof. intros E. unfold apis_under, apis_for_name. by rewrite E. Qed.

Lemma has_api_ext (f g : list str -> gset str) (sn : sym_and_name) (n : list str) (src : sym_or_debug) (api : str) :
  (forall n, f n = g n) -> has_api f sn n src api -> has_api g sn n src api.
Proof.
  intros E. unfold has_api, debug_api, symbol_api. intros [[(d & ns & u & H1 & H2 & H3 & H4) Hd]|(Hn & (s & ns & u & H1 & H2 & H3 & H4) & Hs)].
  - left. split; [|done]. exists d, ns, u. by rewrite <- E.
  - right. split_and!; [|exists s, ns, u; by rewrite <- E|done].
    intros n' a' (d & ns' & u' & ? & ? & ? & H). apply (Hn n' a'). exists d, ns', u'. by rewrite E.
Qed.

Lemma charged_ext (f g : list str -> gset str) (p q : str -> option (list pkg_id)) (r : reference) (pkg : pkg_id)
    (api : str) (n : list str) (src : sym_or_debug) (loc : src_loc) :
  (forall n, f n = g n) -> (forall x, p x = q x) -> charged f p r pkg api n src loc -> charged g q r pkg api n src loc.
Proof.
  intros E Ep (H1 & H2 & (pkgs & H3 & H3') & H4 & H5). split_and!; [by apply (has_api_ext f g)|done| |done|].
  - exists pkgs. by rewrite <- Ep.
  - intros n' s' H. apply (H5 n' s'). by apply (has_api_ext g f).
Qed.

Lemma graph_scan_fine (env : environment) (enc : full_usage -> nat) (read : CheckerModel.link_info -> option facts)
    (requests : nat -> rustc_output) (es : list event) (i h : nat) (li : CheckerModel.link_info)
    (log : option CheckerModel.link_info) (f : facts) :
  let scan := graph_scan env enc read in
  (forall c, ELoad c ∈ es -> made_for (en_index env) c) ->
  NoDup (map li_sel (links es)) ->
  es !! i = Some (EComplete h) ->
  outcomes env scan requests es !! i = Some (OComplete (Some li) log (Some [])) ->
  read li = Some f ->
  one_debug_name (map fst (fa_debug f)) (fa_references f) ->
  exists j, j <= i /\ es !! j = Some (EComplete h) /\
    forall apis, classifies (apis_in_force (after env scan requests (take i es))) apis ->
    let pkgs := pkg_ids_for_source env (sy_checker (after env scan requests (take (S j) es))) in
    forall r pkg api name src loc from sc,
      r ∈ fa_references f -> charged apis pkgs r pkg api name src loc ->
      shown_as (nd_names (rf_from r)) from -> scope_in (li_sel li) pkg sc ->
      granted_by (take (S i) es) (pi_name pkg, sc) api \/
      exists r' name' src' outer' rest, r' ∈ fa_references f /\ charged apis pkgs r' pkg api name' src' loc /\
        shown_as (nd_names (rf_from r')) from /\ no_longer src' src /\ outer_file r' outer' /\
        excused env (sy_checker (after env scan requests (take (S i) es))) pkg (ApiUsage name' outer' rest).
Proof.
  intros scan Hm Hnd Hi Ho Hread Hone.
  destruct (clean_completion_granted env scan requests es i h li log Hm Hnd Hi Ho)
    as (j & o & ck & Hj & Hej & _ & Hscan & Hapis & Hpaths & _ & Hfine).
  exists j. split; [done|]. split; [done|]. intros apis Hcl pkgs r pkg api name src loc from sc Hr Hch Hfrom Hsc.
  unfold scan, graph_scan in Hscan. cbn zeta in Hscan. fold scan in Hscan. rewrite Hread in Hscan.
  destruct (load_apis (map_to_list (rc_apis (cf_raw (ck_config ck))))) as [t|] eqn:Et; [|done].
  destruct (collect_usages (am_get t) (pkg_ids_for_source env ck) (li_sel li) (map fst (fa_debug f)) (fa_references f))
    as [out|] eqn:Eout; [|done].
  destruct (find_possible_exports _ _ (fa_debug f)) as [ex|]; [|done]. injection Hscan as <-.
  assert (forall n, am_get t n = apis n) as Ea.
  { intros n. rewrite <- Hapis in Hcl. rewrite <- (apis_under_loaded _ t n Et). apply set_eq. intros a.
    rewrite (Hcl n a). apply apis_under_classifies. }
  assert (forall x, pkg_ids_for_source env ck x = pkgs x) as Ep.
  { intros x. unfold pkgs, pkg_ids_for_source. by rewrite Hpaths. }
  destruct (collected _ _ _ _ _ _ Hone Eout) as (Hcomplete & Hsound & _ & _ & _).
  destruct (Hcomplete r pkg api name src loc from Hr) as (ou & u & Hou & Eop & Eoa & Hu & Ef & El & Hlen); [|done|].
  { by apply (charged_ext apis (am_get t) pkgs (pkg_ids_for_source env ck)). }
  destruct (Hsound ou u Hou Hu) as (Hscope & _ & r' & Hr' & Hch' & Hf' & _ & _ & Hout').
  assert (ou_scope ou = sc) as Escope.
  { apply scope_in_spec in Hscope, Hsc. rewrite Hscope, Hsc, Eop. done. }
  destruct (Hfine (to_api_usages enc ou)) as [Hg|He].
  { cbn. by apply (elem_of_list_fmap_1 (to_api_usages enc)). }
  - left. unfold usages_perm_sel in Hg. cbn in Hg. by rewrite Eop, Eoa, Escope in Hg.
  - right. exists r', (fu_to_name u), (fu_source u), (sl_file <$> fu_outer u), (enc u). rewrite Eop, Eoa, El in Hch'. split_and!.
    + done.
    + by apply (charged_ext (am_get t) apis (pkg_ids_for_source env ck) pkgs).
    + by rewrite <- Ef.
    + done.
    + done.
    + specialize (He (to_api_usage enc u)). rewrite <- Eop. apply He. cbn. by apply (elem_of_list_fmap_1 (to_api_usage enc)).
Qed.

(** ** Exports *)

Definition export_key (e : possible_export) : pkg_id * str := (pe_pkg e, pe_api e).

Lemma exports_of_packages_spec (c : option str) (api sym : str) (pkgs : list pkg_id) : forall found,
  let r := exports_of_packages c api sym pkgs found in
  (forall e, e ∈ r.1 -> pe_symbol e = sym /\ pe_api e = api /\ pe_pkg e ∈ pkgs /\ export_key e ∉ found /\
     c = Some (CheckerModel.crate_name (pe_pkg e))) /\
  NoDup (map export_key r.1) /\
  (forall k, k ∈ r.2 <-> k ∈ found \/ exists pkg, pkg ∈ pkgs /\ k = (pkg, api)) /\
  (forall pkg, pkg ∈ pkgs -> (pkg, api) ∉ found -> c = Some (CheckerModel.crate_name pkg) ->
     exists e, e ∈ r.1 /\ export_key e = (pkg, api)).
Proof.
  induction pkgs as [|p pkgs IH]; intros found; cbn zeta; cbn [exports_of_packages].
  - split_and!.
    + intros e He. by apply elem_of_nil in He.
    + constructor.
    + intros k. split; [by left|]. intros [?|(p & Hp & _)]; [done|by apply elem_of_nil in Hp].
    + intros p Hp. by apply elem_of_nil in Hp.
  - destruct (bool_decide ((p, api) ∈ found)) eqn:Ef.
    + apply bool_decide_eq_true in Ef. destruct (IH found) as (H1 & H2 & H3 & H4). split_and!.
      * intros e He. destruct (H1 e He) as (? & ? & ? & ? & ?). split_and!; try done. by right.
      * done.
      * intros k. rewrite H3. split.
        -- intros [?|(q & Hq & ->)]; [by left|]. right. exists q. split; [by right|done].
        -- intros [?|(q & [->|Hq]%elem_of_cons & ->)]; [by left|by left|]. right. by exists q.
      * intros q [->|Hq]%elem_of_cons Hnf Hc; [done|]. by apply H4.
    + apply bool_decide_eq_false in Ef. specialize (IH ((p, api) :: found)). cbn zeta in IH.
      destruct (exports_of_packages c api sym pkgs ((p, api) :: found)) as [es found'] eqn:E. cbn [fst snd] in *.
      destruct IH as (H1 & H2 & H3 & H4).
      assert (forall k, k ∈ found' <-> k ∈ found \/ exists pkg, pkg ∈ p :: pkgs /\ k = (pkg, api)) as H3'.
      { intros k. rewrite H3, elem_of_cons. split.
        - intros [[->|?]|(q & Hq & ->)]; [right; exists p; split; [left|done]|by left|].
          right. exists q. split; [by right|done].
        - intros [?|(q & [->|Hq]%elem_of_cons & ->)]; [left; by right|left; by left|]. right. by exists q. }
      destruct (bool_decide (c = Some (CheckerModel.crate_name p))) eqn:Ec; cbn [fst snd].
      * apply bool_decide_eq_true in Ec. split_and!.
        -- intros e [->|He]%elem_of_cons; [cbn; split_and!; try done; left|].
           destruct (H1 e He) as (? & ? & ? & Hn & ?). split_and!; try done; [by right|].
           intros ?. apply Hn. by right.
        -- cbn [map]. apply NoDup_cons. split; [|done]. intros Hin. apply elem_of_list_fmap in Hin as (e & Ek & He).
           destruct (H1 e He) as (_ & _ & _ & Hn & _). apply Hn. rewrite <- Ek. cbn. left.
        -- done.
        -- intros q Hq Hnf Hc. destruct (decide (q = p)) as [->|Hne].
           { exists (PossibleExport p api sym). split; [left|done]. }
           apply elem_of_cons in Hq as [->|Hq]; [done|].
           destruct (H4 q Hq) as (e & He & Ek); [|done|].
           { intros [[= ?]|?]%elem_of_cons; done. }
           exists e. split; [by right|done].
      * apply bool_decide_eq_false in Ec. split_and!.
        -- intros e He. destruct (H1 e He) as (? & ? & ? & Hn & ?). split_and!; try done; [by right|].
           intros ?. apply Hn. by right.
        -- done.
        -- done.
        -- intros q Hq Hnf Hc. destruct (decide (q = p)) as [->|Hne]; [done|].
           apply elem_of_cons in Hq as [->|Hq]; [done|]. apply H4; [done| |done].
           intros [[= ?]|?]%elem_of_cons; done.
Qed.

Section exports.
Context (pkgs_of : str -> option (list pkg_id)) (apis : list str).

Lemma find_exports_spec (symbols : list (str * sym_debug)) : forall found es,
  find_exports pkgs_of apis symbols found = Some es ->
  (forall e, e ∈ es -> export_key e ∉ found /\ pe_api e ∈ apis /\ own_symbol (pe_symbol e) (pe_pkg e) /\
     exists d, (pe_symbol e, d) ∈ symbols /\ looks_like pkgs_of (pe_symbol e) d (pe_pkg e) (pe_api e)) /\
  NoDup (map export_key es) /\
  (forall s d pkg api, (s, d) ∈ symbols -> looks_like pkgs_of s d pkg api -> api ∈ apis -> (pkg, api) ∉ found ->
     (forall s' d', (s', d') ∈ symbols -> looks_like pkgs_of s' d' pkg api -> own_symbol s' pkg) ->
     exists e, e ∈ es /\ export_key e = (pkg, api)).
Proof.
  induction symbols as [|[s d] symbols IH]; intros found es E; cbn [find_exports] in E.
  { injection E as <-. split_and!.
    - intros e He. by apply elem_of_nil in He.
    - constructor.
    - intros s d pkg api H. by apply elem_of_nil in H. }
  assert (find_exports pkgs_of apis symbols found = Some es ->
    (forall pkg api, looks_like pkgs_of s d pkg api -> api ∈ apis -> False) ->
  (forall e, e ∈ es -> export_key e ∉ found /\ pe_api e ∈ apis /\ own_symbol (pe_symbol e) (pe_pkg e) /\
     exists d', (pe_symbol e, d') ∈ (s, d) :: symbols /\ looks_like pkgs_of (pe_symbol e) d' (pe_pkg e) (pe_api e)) /\
  NoDup (map export_key es) /\
  (forall s' d' pkg api, (s', d') ∈ (s, d) :: symbols -> looks_like pkgs_of s' d' pkg api -> api ∈ apis -> (pkg, api) ∉ found ->
     (forall s'' d'', (s'', d'') ∈ (s, d) :: symbols -> looks_like pkgs_of s'' d'' pkg api -> own_symbol s'' pkg) ->
     exists e, e ∈ es /\ export_key e = (pkg, api))) as Hskip.
  { intros E' Hno. destruct (IH found es E') as (H1 & H2 & H3). split_and!.
    - intros e He. destruct (H1 e He) as (? & ? & ? & d' & Hd' & ?). split_and!; try done. exists d'.
      split; [by right|done].
    - done.
    - intros s' d' pkg api [[= -> ->]|Hin]%elem_of_cons Hl Ha Hnf Hown; [by destruct (Hno pkg api)|].
      apply (H3 s' d' pkg api); try done. intros s'' d'' Hin'. apply Hown. by right. }
  destruct (module_name s) as [[m|]|] eqn:Em; [| |done].
  2:{ apply Hskip; [done|]. intros pkg api (Hm%module_name_is & _) _. congruence. }
  destruct (mem_str m apis) eqn:Ea.
  2:{ apply Hskip; [done|]. intros pkg api (Hm%module_name_is & _) Ha. assert (api = m) as -> by congruence.
      apply mem_str_spec in Ha. congruence. }
  apply mem_str_spec in Ea.
  destruct (match pkgs_of (sl_file (source_location d)) with Some l => l | None => [] end) as [|p0 ps] eqn:Ep.
  { apply Hskip; [done|]. intros pkg api (_ & l & pkgs & ->%defined_at_location & Hp & Hin) _. rewrite Hp in Ep. subst pkgs. by apply elem_of_nil in Hin. }
  destruct (pkgs_of (sl_file (source_location d))) as [pkgs|] eqn:Epk; [|done]. rewrite <- Ep in E. clear Ep p0 ps Hskip.
  destruct (NamesModel.crate_name s) as [c|] eqn:Ec; [|done].
  pose proof (exports_of_packages_spec c m s pkgs found) as HX. cbn zeta in HX.
  destruct (exports_of_packages c m s pkgs found) as [es1 found'] eqn:Ex. cbn [fst snd] in HX.
  destruct HX as (X1 & X2 & X3 & X4).
  destruct (find_exports pkgs_of apis symbols found') as [rest|] eqn:Er; [|done]. injection E as <-.
  destruct (IH found' rest Er) as (H1 & H2 & H3).
  assert (forall p, p ∈ pkgs -> looks_like pkgs_of s d p m) as Hll.
  { intros p Hp. split; [by apply module_name_is|]. exists (source_location d), pkgs. split; [by apply defined_at_location|done]. }
  split_and!.
  - intros e [He|He]%elem_of_app.
    + destruct (X1 e He) as (-> & Eapi & Hp & Hnf & Hc). rewrite Eapi. split_and!; [done|done| |].
      * eexists. split; [by apply crate_of_spec|]. apply crate_name_is. by rewrite Ec, Hc.
      * exists d. split; [left|by apply Hll].
    + destruct (H1 e He) as (Hnf & ? & ? & d' & Hd' & ?). split_and!; [|done|done|].
      * intros Hin. apply Hnf, X3. by left.
      * exists d'. split; [by right|done].
  - rewrite map_app. apply NoDup_app. split_and!; [done| |done].
    intros k Hk1 Hk2. apply elem_of_list_fmap in Hk1 as (e1 & -> & He1). apply elem_of_list_fmap in Hk2 as (e2 & Ek & He2).
    destruct (H1 e2 He2) as (Hnf & _). apply Hnf. rewrite <- Ek. apply X3. right.
    destruct (X1 e1 He1) as (_ & Eapi & Hp & _). exists (pe_pkg e1). split; [done|]. unfold export_key. by rewrite Eapi.
  - intros s' d' pkg api Hin Hl Ha Hnf Hown.
    destruct (decide ((pkg, api) ∈ found')) as [Hf|Hf].
    + apply X3 in Hf as [Hf|(q & Hq & [= -> ->])]; [done|].
      destruct (X4 q Hq) as (e & He & Ek); [done| |].
      * pose proof (Hown s d ltac:(left) (Hll q Hq)) as (x & ->%crate_of_spec & Ho%crate_name_is). congruence.
      * exists e. split; [apply elem_of_app; by left|done].
    + destruct (H3 s' d' pkg api) as (e & He & Ek); [|done|done|done| |].
      * apply elem_of_cons in Hin as [[= -> ->]|Hin]; [|done]. destruct Hf. apply X3. right.
        destruct Hl as (Hm%module_name_is & l & pkgs' & ->%defined_at_location & Hp & Hin). exists pkg. split; congruence.
      * intros s'' d'' Hin'. apply Hown. by right.
      * exists e. split; [apply elem_of_app; by right|done].
Qed.

Lemma find_exports_total (symbols : list (str * sym_debug)) : forall found,
  (forall s d, (s, d) ∈ symbols -> is_Some (module_name s) /\ is_Some (NamesModel.crate_name s)) ->
  is_Some (find_exports pkgs_of apis symbols found).
Proof.
  induction symbols as [|[s d] symbols IH]; intros found H; cbn [find_exports]; [eauto|].
  assert (forall s d, (s, d) ∈ symbols -> is_Some (module_name s) /\ is_Some (NamesModel.crate_name s)) as H'.
  { intros s' d' Hin. apply (H s' d'). by right. }
  destruct (H s d ltac:(left)) as [[m ->] [c ->]]. destruct m as [m|]; [|by apply IH].
  destruct (mem_str m apis); [|by apply IH].
  destruct (match pkgs_of _ with Some l => l | None => [] end) as [|p ps]; [by apply IH|].
  destruct (exports_of_packages c m s (p :: ps) found) as [es found'].
  destruct (IH found' H') as [rest ->]. eauto.
Qed.
End exports.

(** ** References of object files *)

Lemma named_get (info : gmap str sym_debug) (s : str) : named info s (get_symbol_and_name info s).
Proof. unfold named, get_symbol_and_name. cbn. destruct (info !! s); done. Qed.

Section object_file.
Context (bin : gmap str nat) (info : gmap str sym_debug) (fr : frames) (o : obj_file) (Hwf : well_formed o).

Lemma relocation_references_spec (infos : gmap nat symbol_info) (first : obj_symbol) (a : nat) (d : sym_debug)
    (rel : nat * rel_target) (rs : list reference) :
  object_index o = Some infos ->
  relocation_references o infos bin info fr (SymbolInfo (os_name first) (os_address first)) a d rel = Some rs ->
  (forall r, r ∈ rs -> exists nm loc s, fr (a + rel.1 - os_address first) = Some (nm, loc) /\
     refers_to o bin rel.2 s /\ reference_at info first a d rel.1 nm loc s r) /\
  (forall s, refers_to o bin rel.2 s -> exists nm loc r, fr (a + rel.1 - os_address first) = Some (nm, loc) /\
     r ∈ rs /\ reference_at info first a d rel.1 nm loc s r).
Proof.
  intros Hidx. unfold relocation_references. pose proof (target_symbols_ok o infos bin Hwf Hidx rel.2) as HT.
  destruct (target_symbols o infos bin rel.2) as [targets v| |]; [|done|done]. destruct HT as [HT _].
  cbn [si_offset si_symbol]. destruct (fr (a + rel.1 - os_address first)) as [[nm loc]|] eqn:Ef; [|done].
  intros [= <-].
  assert (forall s, reference_at info first a d rel.1 nm loc s
    (Reference (BinLoc (a + rel.1 - os_address first) a)
       (if bool_decide (nm = Some (os_name first)) then None
        else Some (GraphNode (get_symbol_and_name info (os_name first)) (AlreadyResolved (source_location d))))
       (GraphNode (get_symbol_and_name info match nm with Some s => s | None => os_name first end)
          (FrameWithFallback loc (source_location d)))
       (get_symbol_and_name info s))) as Href.
  { intros s. unfold reference_at. cbn [rf_bin rf_target rf_from rf_outer nd_names nd_fetcher fetch]. split_and!.
    - done.
    - apply named_get.
    - apply named_get.
    - destruct loc as [[[file|] [line|] col]|].
      1: { eexists. split; [constructor|]. left. by eexists _, _, _. }
      all: exists (source_location d); split; [by constructor|]; right; split; [done|by apply defined_at_location].
    - destruct (bool_decide (nm = Some (os_name first))) eqn:Eb; [by apply bool_decide_eq_true in Eb|].
      apply bool_decide_eq_false in Eb. split_and!; [done|apply named_get|]. exists (source_location d).
      split; [constructor|by apply defined_at_location]. }
  split.
  - intros r Hr. apply elem_of_list_fmap in Hr as (s & -> & Hs). exists nm, loc, s. split_and!; [done|by apply HT|apply Href].
  - intros s Hs. apply HT in Hs. eexists nm, loc, _. split_and!; [done| |apply Href].
    by apply (elem_of_list_fmap_1 (fun t => Reference _ _ _ (get_symbol_and_name info t))).
Qed.

Lemma object_references_spec (rs : list reference) :
  object_references bin info fr o = Some rs ->
  (forall r, r ∈ rs -> exists sec first a d off t nm loc s, examined o bin info sec first a d /\
     (off, t) ∈ sc_relocations sec /\ fr (a + off - os_address first) = Some (nm, loc) /\ refers_to o bin t s /\
     reference_at info first a d off nm loc s r) /\
  (forall sec first a d off t s, examined o bin info sec first a d -> (off, t) ∈ sc_relocations sec ->
     refers_to o bin t s ->
     exists nm loc r, fr (a + off - os_address first) = Some (nm, loc) /\ r ∈ rs /\
       reference_at info first a d off nm loc s r).
Proof.
  unfold object_references. destruct (object_index o) as [infos|] eqn:Hidx; [|done]. intros E.
  destruct (flat_mapM_elem _ _ _ E) as [Hall Hel].
  pose proof (object_index_spec o infos Hidx) as Hinfos.
  split.
  - intros r Hr. apply Hel in Hr as (sec & rs' & Hsec & Es & Hr). unfold section_references, first_symbol in Es.
    specialize (Hinfos (sc_index sec)). destruct (infos !! sc_index sec) as [fi|]; [|injection Es as <-; by apply elem_of_nil in Hr].
    destruct Hinfos as (first & Hfirst & ->). cbn [si_symbol] in Es.
    destruct (bin !! os_name first) as [a|] eqn:Ea; [|injection Es as <-; by apply elem_of_nil in Hr].
    destruct (info !! os_name first) as [d|] eqn:Ed; [|injection Es as <-; by apply elem_of_nil in Hr].
    destruct (flat_mapM_elem _ _ _ Es) as [_ Hel']. apply Hel' in Hr as ([off t] & rs'' & Hrel & Er & Hr).
    destruct (relocation_references_spec infos first a d (off, t) rs'' Hidx Er) as [H1 _].
    destruct (H1 r Hr) as (nm & loc & s & ? & ? & ?). exists sec, first, a, d, off, t, nm, loc, s. split_and!; done.
  - intros sec first a d off t s (Hsec & Hfirst & Ea & Ed) Hrel Hs.
    destruct (Hall sec Hsec) as [rs' Es]. pose proof Es as Es'. unfold section_references, first_symbol in Es'.
    specialize (Hinfos (sc_index sec)). destruct (infos !! sc_index sec) as [fi|].
    2:{ destruct (first_of_defines _ _ _ Hfirst) as [Hin Hd]. by destruct (Hinfos first Hin). }
    destruct Hinfos as (first' & Hfirst' & ->). rewrite (first_of_unique _ _ _ _ Hfirst' Hfirst) in Es'.
    cbn [si_symbol] in Es'. rewrite Ea, Ed in Es'.
    destruct (flat_mapM_elem _ _ _ Es') as [Hall' Hel']. destruct (Hall' (off, t) Hrel) as [rs'' Er].
    destruct (relocation_references_spec infos first a d (off, t) rs'' Hidx Er) as [_ H2].
    destruct (H2 s Hs) as (nm & loc & r & ? & Hr & ?). exists nm, loc, r. split_and!; [done| |done].
    apply Hel. exists sec, rs'. split_and!; [done|done|]. apply Hel'. by exists (off, t), rs''.
Qed.

Lemma object_references_named (rs : list reference) (r : reference) :
  object_references bin info fr o = Some rs -> r ∈ rs ->
  (exists s, named info s (nd_names (rf_from r))) /\ exists s, named info s (rf_target r).
Proof.
  intros E Hr. destruct (object_references_spec rs E) as [H _].
  destruct (H r Hr) as (sec & first & a & d & off & t & nm & loc & s & _ & _ & _ & _ & (_ & ? & ? & _)). eauto.
Qed.
End object_file.

Lemma objects_one_debug_name (bin : gmap str nat) (info : gmap str sym_debug) (fr : frames) (os : list obj_file)
    (symbols : list str) (rs : list reference) :
  (forall o, o ∈ os -> well_formed o) -> flat_mapM (object_references bin info fr) os = Some rs ->
  one_debug_name symbols rs.
Proof.
  intros Hwf E. destruct (flat_mapM_elem _ _ _ E) as [_ Hel].
  assert (forall sn, occurs_in rs sn -> exists s, named info s sn) as H.
  { intros sn (r & Hr & Hsn). apply Hel in Hr as (o & rs' & Ho & Eo & Hr).
    destruct (object_references_named bin info fr o (Hwf o Ho) rs' r Eo Hr) as [? ?]. by destruct Hsn as [->| ->]. }
  intros sn sn' s Hsn Hsn' _ Es Es'. destruct (H sn Hsn) as (x & Hx & ->). destruct (H sn' Hsn') as (y & Hy & ->).
  congruence.
Qed.
