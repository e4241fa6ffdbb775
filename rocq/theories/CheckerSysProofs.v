From Verif Require Import Base BaseFacts ApiMapModel ConfigModel ConfigSpec ConfigProofs
  ProblemModel CheckerModel CheckerSpec CheckerProofs.

(** ** Reporting the usages of a scan *)

(** [ck'] differs from [ck] only in which permissions are still unused. *)
Definition same_but_unused (ck ck' : checker) : Prop :=
  ck_outstanding ck' = ck_outstanding ck /\ ck_config ck' = ck_config ck /\
  ck_paths ck' = ck_paths ck /\
  (forall k api, is_allowed ck' k api = is_allowed ck k api) /\
  (forall k, is_Some (ck_infos ck' !! k) <-> is_Some (ck_infos ck !! k)).

Lemma same_but_unused_refl ck : same_but_unused ck ck.
Proof. by split_and!. Qed.

Lemma same_but_unused_trans ck1 ck2 ck3 :
  same_but_unused ck1 ck2 -> same_but_unused ck2 ck3 -> same_but_unused ck1 ck3.
Proof.
  intros (A1 & A2 & A3 & A4 & A5) (B1 & B2 & B3 & B4 & B5). split_and!; try congruence.
  intros k. by rewrite B5.
Qed.

Lemma api_used_same env ck u : same_but_unused ck (api_used env ck u).1.
Proof.
  split_and!.
  - unfold api_used. destruct (is_allowed _ _ _); [done|].
    by destruct (partition_usages _ _ _ _ _) as [[]|].
  - unfold api_used. destruct (is_allowed _ _ _); [done|].
    by destruct (partition_usages _ _ _ _ _) as [[]|].
  - unfold api_used. destruct (is_allowed _ _ _); [done|].
    by destruct (partition_usages _ _ _ _ _) as [[]|].
  - intros k api. destruct (api_used_books env ck u k) as (H & _ & _).
    apply eq_true_iff_eq. rewrite !is_allowed_spec. by rewrite H.
  - intros k. by destruct (api_used_books env ck u k) as (_ & H & _).
Qed.

Lemma excused_same env ck ck' pkg x :
  same_but_unused ck ck' -> excused env ck' pkg x <-> excused env ck pkg x.
Proof.
  intros (_ & _ & H & _). unfold excused, own_code, source_of. by rewrite H.
Qed.

(** All usages of the batch are permitted or need not be reported. *)
Definition fine (env : environment) (ck : checker) (u : api_usages) : Prop :=
  is_allowed ck (usages_perm_sel u) (au_api u) = true \/
  forall x, x ∈ au_usages u -> excused env ck (au_pkg u) x.

Lemma api_used_nil env ck u :
  (api_used env ck u).2 = Some [] -> fine env ck u.
Proof.
  intros H. destruct (is_allowed ck (usages_perm_sel u) (au_api u)) eqn:E; [by left|right].
  destruct (api_used env ck u) as [ck' r] eqn:Ea. cbn in H. subst r.
  destruct (api_used_disallowed _ _ _ _ _ E Ea) as (_ & (rest & Hp & Hr) & _).
  cbn in Hp. intros x. rewrite <- Hp. apply Hr.
Qed.

Lemma report_usages_spec env us : forall ck acc,
  let r := report_usages env ck us acc in
  same_but_unused ck r.1 /\
  forall ps, r.2 = Some ps ->
    (exists more, ps = acc ++ more) /\
    (ps = [] -> forall u, u ∈ us -> fine env ck u).
Proof.
  induction us as [|u us IH]; intros ck acc; cbn.
  - split; [apply same_but_unused_refl|]. intros ps [= <-]. split; [exists []; by rewrite app_nil_r|].
    by intros _ u ?%elem_of_nil.
  - pose proof (api_used_same env ck u) as Hs.
    pose proof (api_used_nil env ck u) as Hn.
    destruct (api_used env ck u) as [ck1 [ps1|]]; cbn in Hs, Hn |- *; [|done].
    specialize (IH ck1 (acc ++ ps1)). cbn zeta in IH. destruct IH as [IH1 IH2]. split.
    + by eapply same_but_unused_trans.
    + intros ps Hps. destruct (IH2 ps Hps) as [(more & Hm) IH3]. split.
      * exists (ps1 ++ more). by rewrite app_assoc.
      * intros -> v [->|Hv]%elem_of_cons.
        -- symmetry in Hm. apply app_eq_nil in Hm as [Hm _]. apply app_eq_nil in Hm as [_ ->].
           by apply Hn.
        -- destruct (IH3 eq_refl v Hv) as [H|H].
           ++ left. destruct Hs as (_ & _ & _ & Hs & _). by rewrite <- Hs.
           ++ right. intros x Hx. by apply (excused_same _ _ _ _ _ Hs), H.
Qed.

Lemma scan_problems_spec env ck o :
  let r := scan_problems env ck o in
  same_but_unused ck r.1 /\
  (r.2 = Some [] -> so_base o = [] /\ forall u, u ∈ so_usages o -> fine env ck u).
Proof.
  cbn zeta. unfold scan_problems.
  pose proof (report_usages_spec env (so_usages o) ck (so_base o)) as H. cbn zeta in H.
  destruct (report_usages env ck (so_usages o) (so_base o)) as [ck' [ps|]]; cbn in H |- *.
  - destruct H as [H1 H2]. split; [done|]. intros [= Hp]. apply app_eq_nil in Hp as [-> _].
    destruct (H2 [] eq_refl) as [(more & Hm) H3]. split; [|by apply H3].
    symmetry in Hm. by apply app_eq_nil in Hm as [-> _].
  - by destruct H as [H1 _].
Qed.

Definition fresh_for (ck : checker) (cs : check_state) : Prop :=
  forall o apis, cs = Some (o, apis) -> apis = rc_apis (cf_raw (ck_config ck)).

(** What a judgement rests on: the scan outputs [o], of [li] if they are new, of the
    handler's cache otherwise. *)
Lemma check_linker_spec env scan ck li cs ck' cs' r log :
  check_linker_invocation env scan ck li cs = (ck', cs', r, log) ->
  same_but_unused ck ck' /\
  (log = None -> exists o, cs = Some (o, rc_apis (cf_raw (ck_config ck))) /\ cs' = cs) /\
  (forall x, log = Some x -> x = li /\
     (cs' = None \/
      exists o, scan ck li = Some o /\ cs' = Some (o, rc_apis (cf_raw (ck_config ck))))) /\
  (r = Some [] -> exists o, cs' = Some (o, rc_apis (cf_raw (ck_config ck))) /\
     (cs_kind (li_sel li) = BuildScript ->
        verify_build_script_permitted ck (cs_pkg (li_sel li)) = []) /\
     so_base o = [] /\ forall u, u ∈ so_usages o -> fine env ck u) /\
  (forall ps, r = Some ps -> cs' <> None).
Proof.
  unfold check_linker_invocation, check_object_paths.
  set (bs := match cs_kind (li_sel li) with BuildScript => _ | _ => [] end).
  assert (Hbs : bs = [] -> cs_kind (li_sel li) = BuildScript ->
      verify_build_script_permitted ck (cs_pkg (li_sel li)) = []).
  { unfold bs. intros H E. by rewrite E in H. }
  clearbody bs.
  set (cs1 := match cs with Some (_, apis) => _ | None => None end).
  assert (Hcs : cs1 = None \/ exists o, cs1 = Some (o, rc_apis (cf_raw (ck_config ck))) /\ cs = cs1).
  { unfold cs1. destruct cs as [[o apis]|]; [|by left].
    case_bool_decide as E; [right; exists o; by rewrite E|by left]. }
  clearbody cs1. destruct Hcs as [->|(o & -> & ->)].
  - destruct (scan ck li) as [o|] eqn:Es.
    + pose proof (scan_problems_spec env ck o) as [H1 H2].
      destruct (scan_problems env ck o) as [ck1 [ps|]] eqn:Ep; cbn in H1, H2;
        intros [= <- <- <- <-]; (split; [done|]); (split; [done|]);
        (split; [intros x [= <-]; split; [done|]; right; eauto|]); [|by split].
      split; [|done]. intros [= H]. apply app_eq_nil in H as [Hb ->]. exists o.
      split; [done|]. split; [by apply Hbs|]. by apply H2.
    + intros [= <- <- <- <-]. split; [apply same_but_unused_refl|]. split; [done|].
      split; [|done]. intros x [= <-]. auto.
  - pose proof (scan_problems_spec env ck o) as [H1 H2].
    destruct (scan_problems env ck o) as [ck1 [ps|]] eqn:Ep; cbn in H1, H2;
      intros [= <- <- <- <-]; (split; [done|]); (split; [eauto|]); (split; [done|]); [|by split].
    split; [|done]. intros [= H]. apply app_eq_nil in H as [Hb ->]. exists o.
    split; [done|]. split; [by apply Hbs|]. by apply H2.
Qed.

(** ** Bookkeeping of link invocations *)

Lemma take_link_info_spec l sel :
  match take_link_info l sel with
  | None => forall x, x ∈ l -> li_sel x <> sel
  | Some (li, rest) => exists l1 l2, l = l1 ++ li :: l2 /\ rest = l1 ++ l2 /\ li_sel li = sel /\
      forall x, x ∈ l1 -> li_sel x <> sel
  end.
Proof.
  induction l as [|a l IH]; cbn; [by intros x ?%elem_of_nil|].
  case_bool_decide as Ha.
  - exists [], l. split_and!; try done. by intros x ?%elem_of_nil.
  - destruct (take_link_info l sel) as [[li rest]|].
    + destruct IH as (l1 & l2 & -> & -> & H & H1). exists (a :: l1), l2. split_and!; try done.
      intros x [->|Hx]%elem_of_cons; auto.
    + intros x [->|Hx]%elem_of_cons; auto.
Qed.

Lemma rustc_complete_spec env scan ck cs info ck' cs' r log :
  rustc_complete env scan ck cs info = (ck', cs', r, log) ->
  ck_config ck' = ck_config ck /\
  match take_link_info (ck_outstanding ck) (ro_sel info) with
  | None => r = Some [] /\ log = None /\ cs' = cs /\ ck_outstanding ck' = ck_outstanding ck
  | Some (li, rest) =>
      let apis := rc_apis (cf_raw (ck_config ck)) in
      ck_outstanding ck' = rest ++ (match r with Some (_ :: _) => [li] | _ => [] end) /\
      (log = None -> exists o, cs = Some (o, apis) /\ cs' = cs) /\
      (forall x, log = Some x -> x = li /\
         (cs' = None \/ exists o ckx, scan ckx li = Some o /\ ck_config ckx = ck_config ck /\
                          ck_paths ckx = ck_paths ck' /\ cs' = Some (o, apis))) /\
      (r = Some [] -> exists o, cs' = Some (o, apis) /\
         (cs_kind (li_sel li) = BuildScript ->
            verify_build_script_permitted ck' (cs_pkg (li_sel li)) = []) /\
         so_base o = [] /\ forall u, u ∈ so_usages o -> fine env ck' u)
  end.
Proof.
  unfold rustc_complete.
  change (ck_outstanding (record_crate_paths ck info)) with (ck_outstanding ck).
  destruct (take_link_info (ck_outstanding ck) (ro_sel info)) as [[li rest]|].
  2:{ intros [= <- <- <- <-]. by split_and!. }
  destruct (check_linker_invocation env scan (set_outstanding (record_crate_paths ck info) rest) li cs)
    as [[[ck1 cs1] r1] log1] eqn:E.
  apply check_linker_spec in E as ((H1 & H2 & H3 & H4 & H4k) & H5 & H6 & H7 & H8).
  cbn in H1, H2, H5, H6, H7. cbn zeta.
  assert (Hf : forall u, fine env (set_outstanding (record_crate_paths ck info) rest) u ->
               fine env ck1 u).
  { intros u [H|H]; [left; by rewrite H4|right].
    intros x Hx. by apply (excused_same env (set_outstanding (record_crate_paths ck info) rest) ck1),
      H. }
  assert (Hv : forall p, verify_build_script_permitted (set_outstanding (record_crate_paths ck info) rest) p = [] ->
               verify_build_script_permitted ck1 p = []).
  { intros p. unfold verify_build_script_permitted. rewrite H2. cbn.
    destruct (rc_explicit_build_scripts _); [|done].
    specialize (H4k (pi_name p, Build)). cbn in H4k.
    destruct (ck_infos ck1 !! _); [done|]. destruct (ck_infos ck !! _) as [i|]; [|done].
    destruct H4k as [_ H4k]. by destruct H4k. }
  assert (Hlog : forall x, log1 = Some x -> x = li /\
         (cs1 = None \/ exists o ckx, scan ckx li = Some o /\ ck_config ckx = ck_config ck /\
                          ck_paths ckx = ck_paths ck1 /\ cs1 = Some (o, rc_apis (cf_raw (ck_config ck))))).
  { intros x Hx. destruct (H6 x Hx) as [-> [H|(o & Ho & H)]]; [auto|].
    split; [done|]. right. exists o. eexists. split; [exact Ho|]. done. }
  destruct r1 as [[|p ps]|]; intros [= <- <- <- <-].
  - split; [done|]. split; [by rewrite H1, app_nil_r|]. split; [done|]. split; [done|].
    intros _. destruct (H7 eq_refl) as (o & Ho & Hb & Hs & Hu). exists o. split; [done|].
    split; [auto|]. split; [done|]. auto.
  - cbn. split; [done|]. split; [by rewrite H1|]. split; [done|]. split; [done|]. done.
  - split; [done|]. split; [by rewrite H1, app_nil_r|]. split; [done|]. by split.
Qed.

(** ** Runs *)

Lemma sys_run_snoc env scan requests s es e :
  sys_run env scan requests s (es ++ [e]) =
    let '(s1, os) := sys_run env scan requests s es in
    let '(s2, o) := sys_step env scan requests s1 e in (s2, os ++ [o]).
Proof.
  revert s. induction es as [|e' es IH]; intros s; cbn.
  - by destruct (sys_step env scan requests s e).
  - destruct (sys_step env scan requests s e') as [s' o']. rewrite IH.
    destruct (sys_run env scan requests s' es) as [s1 os].
    by destruct (sys_step env scan requests s1 e).
Qed.

Lemma after_snoc env scan requests es e :
  after env scan requests (es ++ [e]) = (sys_step env scan requests (after env scan requests es) e).1.
Proof.
  unfold after. rewrite sys_run_snoc. destruct (sys_run _ _ _ _ es) as [s1 os]. cbn.
  by destruct (sys_step env scan requests s1 e).
Qed.

Lemma outcomes_snoc env scan requests es e :
  outcomes env scan requests (es ++ [e]) =
  outcomes env scan requests es ++ [(sys_step env scan requests (after env scan requests es) e).2].
Proof.
  unfold after, outcomes. rewrite sys_run_snoc. destruct (sys_run _ _ _ _ es) as [s1 os]. cbn.
  by destruct (sys_step env scan requests s1 e).
Qed.

Lemma outcomes_length env scan requests es : length (outcomes env scan requests es) = length es.
Proof.
  induction es as [|e es IH] using rev_ind; [done|].
  by rewrite outcomes_snoc, !app_length, IH.
Qed.

Lemma outcomes_at env scan requests es i e :
  es !! i = Some e ->
  outcomes env scan requests es !! i =
    Some (sys_step env scan requests (after env scan requests (take i es)) e).2 /\
  after env scan requests (take (S i) es) =
    (sys_step env scan requests (after env scan requests (take i es)) e).1.
Proof.
  intros Hi. split.
  2:{ rewrite (take_S_r _ _ _ Hi). apply after_snoc. }
  assert (Hp : exists tl, outcomes env scan requests es =
                outcomes env scan requests (take (S i) es) ++ tl).
  { assert (Hg : forall l, exists tl, outcomes env scan requests (take (S i) es ++ l) =
              outcomes env scan requests (take (S i) es) ++ tl);
      [|specialize (Hg (drop (S i) es)); by rewrite take_drop in Hg].
    intros l. induction l as [|x l IH] using rev_ind; [exists []; by rewrite !app_nil_r|].
    destruct IH as [tl IH]. rewrite app_assoc, outcomes_snoc, IH, <- app_assoc. eauto. }
  destruct Hp as [tl ->]. rewrite (take_S_r _ _ _ Hi), outcomes_snoc.
  assert (Hlen : length (outcomes env scan requests (take i es)) = i).
  { rewrite outcomes_length, take_length. apply lookup_lt_Some in Hi. lia. }
  rewrite <- app_assoc. rewrite lookup_app_r by lia. rewrite Hlen, Nat.sub_diag. done.
Qed.

Lemma links_app es es' : links (es ++ es') = links es ++ links es'.
Proof. apply omap_app. Qed.

Lemma settled_app os os' : settled (os ++ os') = settled os ++ settled os'.
Proof. apply omap_app. Qed.

(** Nothing is lost: every recorded invocation is outstanding or settled. *)
Lemma conservation env scan requests es :
  links es ≡ₚ ck_outstanding (sy_checker (after env scan requests es)) ++
              settled (outcomes env scan requests es).
Proof.
  induction es as [|e es IH] using rev_ind; [done|].
  rewrite links_app, after_snoc, outcomes_snoc, settled_app, IH.
  set (s := after env scan requests es). destruct e as [li|h|c]; cbn.
  - rewrite app_nil_r, <- !app_assoc. f_equiv. apply Permutation_app_comm.
  - destruct (rustc_complete env scan (sy_checker s) (sy_states s !! h) (requests h))
      as [[[ck' cs'] r] log] eqn:E.
    apply rustc_complete_spec in E as [_ E].
    pose proof (take_link_info_spec (ck_outstanding (sy_checker s)) (ro_sel (requests h))) as HT.
    destruct (take_link_info _ _) as [[li rest]|].
    + destruct E as (E & _). cbn [fst snd sy_checker]. rewrite E.
      destruct HT as (l1 & l2 & -> & -> & _). cbn. rewrite app_nil_r.
      set (rest := settled (outcomes env scan requests es)).
      destruct r as [[|p ps]|]; cbn; solve_Permutation.
    + destruct E as (-> & -> & -> & E). cbn. rewrite E. by rewrite !app_nil_r.
  - by rewrite !app_nil_r.
Qed.

Lemma taken_recorded env scan requests es i h li log r :
  es !! i = Some (EComplete h) ->
  outcomes env scan requests es !! i = Some (OComplete (Some li) log r) ->
  li ∈ links es /\ li_sel li = ro_sel (requests h).
Proof.
  intros Hi Ho. destruct (outcomes_at env scan requests es i _ Hi) as [Ho' _].
  rewrite Ho in Ho'. injection Ho' as Ho'. cbn in Ho'.
  set (s := after env scan requests (take i es)) in *.
  destruct (rustc_complete env scan (sy_checker s) (sy_states s !! h) (requests h))
    as [[[ck' cs'] r'] log'].
  cbn in Ho'. injection Ho' as Hl -> ->.
  pose proof (take_link_info_spec (ck_outstanding (sy_checker s)) (ro_sel (requests h))) as HT.
  destruct (take_link_info _ _) as [[li' rest]|]; [|done]. cbn in Hl. injection Hl as ->.
  destruct HT as (l1 & l2 & HT & _ & Hs & _). split; [|done].
  assert (Hin : li' ∈ links (take i es)).
  { rewrite (conservation env scan requests). fold s. rewrite HT. set_solver. }
  rewrite <- (take_drop i es), links_app. apply elem_of_app. by left.
Qed.

(** Where the cached outputs of a handler come from. *)
Definition cache_origin (env : environment) (scan : scanner) (requests : nat -> rustc_output)
    (es : list event) (h : nat) (o : scan_outputs) (apis : gmap str api_config) : Prop :=
  exists j li r ck,
    es !! j = Some (EComplete h) /\
    outcomes env scan requests es !! j = Some (OComplete (Some li) (Some li) r) /\
    apis = apis_in_force (after env scan requests (take j es)) /\
    scan ck li = Some o /\ rc_apis (cf_raw (ck_config ck)) = apis /\
    ck_paths ck = ck_paths (sy_checker (after env scan requests (take (S j) es))).

Lemma cache_origin_snoc env scan requests es e h o apis :
  cache_origin env scan requests es h o apis ->
  cache_origin env scan requests (es ++ [e]) h o apis.
Proof.
  intros (j & li & r & ck & H1 & H2 & H3 & H4). exists j, li, r, ck.
  apply lookup_lt_Some in H1 as Hlt.
  rewrite outcomes_snoc, !take_app_le by lia.
  rewrite !lookup_app_l by (rewrite ?outcomes_length; lia). done.
Qed.

Lemma cache_inv env scan requests es h o apis :
  sy_states (after env scan requests es) !! h = Some (o, apis) ->
  cache_origin env scan requests es h o apis.
Proof.
  revert h o apis. induction es as [|e es IH] using rev_ind; intros h o apis; [done|].
  rewrite after_snoc. pose proof (outcomes_snoc env scan requests es e) as Hos.
  set (s := after env scan requests es) in *.
  destruct e as [li|h'|c]; [intros H; by apply cache_origin_snoc, IH| |
    intros H; by apply cache_origin_snoc, IH].
  cbn in Hos |- *.
  destruct (rustc_complete env scan (sy_checker s) (sy_states s !! h') (requests h'))
    as [[[ck' cs'] r] log] eqn:Erc.
  pose proof (rustc_complete_spec _ _ _ _ _ _ _ _ _ Erc) as [_ E]. cbn in Hos |- *.
  destruct (decide (h = h')) as [->|Hne].
  2:{ intros H. apply cache_origin_snoc, IH.
      destruct cs' as [x|]; [by rewrite lookup_insert_ne in H|by rewrite lookup_delete_ne in H]. }
  destruct cs' as [x|]; [rewrite lookup_insert|by rewrite lookup_delete].
  intros [= ->].
  destruct (take_link_info _ _) as [[li rest]|].
  - destruct E as (_ & E1 & E2 & _). destruct log as [y|].
    + destruct (E2 y eq_refl) as [-> [?|(o' & ckx & Hscan & Hck & Hpaths & [= -> ->])]]; [done|].
      exists (length es), li, r, ckx. split_and!.
      * by rewrite list_lookup_middle.
      * rewrite Hos. rewrite list_lookup_middle; [done|]. by rewrite outcomes_length.
      * by rewrite take_app.
      * done.
      * by rewrite Hck.
      * rewrite firstn_all2 by (rewrite app_length; cbn; lia). rewrite after_snoc. cbn. fold s. by rewrite Erc.
    + destruct (E1 eq_refl) as (o' & Ho & Heq). apply cache_origin_snoc, IH. by rewrite <- Heq.
  - destruct E as (_ & _ & Heq & _). apply cache_origin_snoc, IH. by rewrite <- Heq.
Qed.

Lemma same_sel_same_link (l : list link_info) x y :
  NoDup (map li_sel l) -> x ∈ l -> y ∈ l -> li_sel x = li_sel y -> x = y.
Proof.
  induction l as [|a l IH]; [by intros _ ?%elem_of_nil|].
  cbn. intros [Ha Hnd]%NoDup_cons Hx Hy Heq.
  apply elem_of_cons in Hx as [->|Hx]; apply elem_of_cons in Hy as [->|Hy]; try done.
  - exfalso. apply Ha. rewrite Heq. by apply elem_of_list_fmap_1.
  - exfalso. apply Ha. rewrite <- Heq. by apply elem_of_list_fmap_1.
  - by apply IH.
Qed.

(** A clean completion was judged from the scan of the very invocation it took. *)
Lemma clean_completion env scan requests es i h li log :
  NoDup (map li_sel (links es)) ->
  es !! i = Some (EComplete h) ->
  outcomes env scan requests es !! i = Some (OComplete (Some li) log (Some [])) ->
  exists j o ck,
    j <= i /\ es !! j = Some (EComplete h) /\
    (exists r, outcomes env scan requests es !! j = Some (OComplete (Some li) (Some li) r)) /\
    apis_in_force (after env scan requests (take j es)) =
      apis_in_force (after env scan requests (take i es)) /\
    scan ck li = Some o /\
    rc_apis (cf_raw (ck_config ck)) = apis_in_force (after env scan requests (take i es)) /\
    ck_paths ck = ck_paths (sy_checker (after env scan requests (take (S j) es))) /\
    so_base o = [] /\
    (forall u, u ∈ so_usages o ->
       fine env (sy_checker (after env scan requests (take (S i) es))) u) /\
    (cs_kind (li_sel li) = BuildScript ->
       verify_build_script_permitted (sy_checker (after env scan requests (take (S i) es)))
         (cs_pkg (li_sel li)) = []).
Proof.
  intros Hnd Hi Ho.
  destruct (taken_recorded _ _ _ _ _ _ _ _ _ Hi Ho) as [Hli Hsel].
  destruct (outcomes_at env scan requests es i _ Hi) as [Ho' Ha].
  rewrite Ho in Ho'. injection Ho' as Ho'.
  assert (HC : exists o, sy_states (after env scan requests (take (S i) es)) !! h
                  = Some (o, apis_in_force (after env scan requests (take i es))) /\
     so_base o = [] /\
     (forall u, u ∈ so_usages o ->
        fine env (sy_checker (after env scan requests (take (S i) es))) u) /\
     (cs_kind (li_sel li) = BuildScript ->
       verify_build_script_permitted (sy_checker (after env scan requests (take (S i) es)))
         (cs_pkg (li_sel li)) = [])).
  { rewrite Ha. cbn in Ho' |- *. set (s := after env scan requests (take i es)) in *.
    destruct (rustc_complete env scan (sy_checker s) (sy_states s !! h) (requests h))
      as [[[ck' cs'] r'] log'] eqn:E.
    cbn in Ho'. injection Ho' as Hl -> <-. apply rustc_complete_spec in E as [_ E].
    destruct (take_link_info _ _) as [[li' rest]|]; [|done]. cbn in Hl. injection Hl as ->.
    destruct E as (_ & _ & _ & E). destruct (E eq_refl) as (o & -> & Hb & H1 & H2). exists o.
    cbn. rewrite lookup_insert. done. }
  destruct HC as (o & HC & Hbase & Hfine & Hbs).
  apply cache_inv in HC as (j & li' & r & ck & H1 & H2 & H3 & H4 & H5 & H6).
  assert (Hj : j <= i).
  { apply lookup_lt_Some in H1. rewrite take_length in H1. lia. }
  rewrite lookup_take in H1 by lia.
  rewrite take_take, Nat.min_l in H3 by lia. rewrite take_take, Nat.min_l in H6 by lia.
  destruct (outcomes_at env scan requests es j _ H1) as [H2' _].
  destruct (outcomes_at env scan requests (take (S i) es) j (EComplete h)) as [H2'' _].
  { by rewrite lookup_take by lia. }
  rewrite H2'', take_take, Nat.min_l in H2 by lia. rewrite H2 in H2'.
  destruct (taken_recorded _ _ _ _ _ _ _ _ _ H1 H2') as [Hli' Hsel'].
  assert (li' = li) as ->. { eapply same_sel_same_link; eauto. congruence. }
  exists j, o, ck. split; [done|]. split; [done|]. split; [eauto|].
  split; [congruence|]. split; [done|]. split; [congruence|]. auto.
Qed.

(** Permissions in force are those of the configurations loaded so far. *)
Lemma sys_granted env scan requests es k api :
  (forall c, ELoad c ∈ es -> made_for (en_index env) c) ->
  is_allowed (sy_checker (after env scan requests es)) k api = true <-> granted_by es k api.
Proof.
  induction es as [|e es IH] using rev_ind; intros Hm.
  - split; [|by intros (c & ?%elem_of_nil & _)]. done.
  - assert (Hm' : forall c, ELoad c ∈ es -> made_for (en_index env) c).
    { intros c H. apply Hm, elem_of_app. by left. }
    specialize (IH Hm'). rewrite after_snoc. unfold granted_by in *.
    setoid_rewrite elem_of_app. setoid_rewrite elem_of_list_singleton.
    set (s := after env scan requests es) in *.
    assert (Hsame : forall ck', (forall k api, is_allowed ck' k api = is_allowed (sy_checker s) k api) ->
      (forall c, ELoad c <> e) ->
      is_allowed ck' k api = true <-> exists c, (ELoad c ∈ es \/ ELoad c = e) /\ permitted c k api).
    { intros ck' H He. rewrite H, IH. split; intros (c & Hc & ?); exists c; [tauto|].
      destruct Hc as [?|Hc]; [done|]. by apply He in Hc. }
    destruct e as [li|h|c]; cbn.
    + by apply Hsame.
    + destruct (rustc_complete env scan (sy_checker s) (sy_states s !! h) (requests h))
        as [[[ck' cs'] r] log] eqn:E. cbn. apply Hsame; [|done].
      clear -E. unfold rustc_complete in E.
      destruct (take_link_info _ _) as [[li rest]|]; [|by injection E as <- <- <- <-].
      destruct (check_linker_invocation _ _ _ _ _) as [[[ck1 cs1] r1] log1] eqn:E1.
      apply check_linker_spec in E1 as ((_ & _ & _ & H & _) & _).
      destruct r1 as [[|p ps]|]; injection E as <- <- <- <-; exact H.
    + rewrite is_allowed_spec.
      destruct (update_config_spec (sy_checker s) c k api) as [-> _].
      rewrite <- is_allowed_spec, IH. split.
      * intros [(c' & ? & ?)|H]; [eauto|]. exists c. split; [by right|].
        apply (permitted_spec (en_index env)); [|done]. apply Hm, elem_of_app. right. left.
      * intros (c' & [Hc|[= ->]] & Hp); [left; eauto|right].
        apply (permitted_spec (en_index env)) in Hp; [done|]. apply Hm, elem_of_app. right. left.
Qed.

Lemma clean_completion_granted env scan requests es i h li log :
  (forall c, ELoad c ∈ es -> made_for (en_index env) c) ->
  NoDup (map li_sel (links es)) ->
  es !! i = Some (EComplete h) ->
  outcomes env scan requests es !! i = Some (OComplete (Some li) log (Some [])) ->
  exists j o ck,
    j <= i /\ es !! j = Some (EComplete h) /\
    (exists r, outcomes env scan requests es !! j = Some (OComplete (Some li) (Some li) r)) /\
    scan ck li = Some o /\
    rc_apis (cf_raw (ck_config ck)) = apis_in_force (after env scan requests (take i es)) /\
    ck_paths ck = ck_paths (sy_checker (after env scan requests (take (S j) es))) /\
    so_base o = [] /\
    (forall u, u ∈ so_usages o -> batch_fine env scan requests (take (S i) es) u).
Proof.
  intros Hm Hnd Hi Ho.
  destruct (clean_completion _ _ _ _ _ _ _ _ Hnd Hi Ho)
    as (j & o & ck & H1 & H2 & H3 & _ & H5 & H6 & H6' & H7 & H8 & _).
  exists j, o, ck. do 7 (split; [done|]). intros u Hu.
  destruct (H8 u Hu) as [H|H]; [left|by right].
  apply (sys_granted env scan requests); [|done].
  intros c Hc. apply Hm. rewrite <- (take_drop (S i) es). apply elem_of_app. by left.
Qed.


Lemma unused_refuses env scan requests es :
  is_Some (check_unused env (sy_checker (after env scan requests es))) <->
  links es ≡ₚ settled (outcomes env scan requests es).
Proof.
  pose proof (conservation env scan requests es) as HC. unfold check_unused.
  destruct (ck_outstanding (sy_checker (after env scan requests es))) as [|li l].
  - split; [done|by eexists].
  - split; [by intros []|]. intros H. rewrite H in HC. exfalso.
    apply Permutation_length in HC. cbn in HC. rewrite app_length in HC. lia.
Qed.

(** A completion takes the oldest recorded invocation of its crate, if any, and
    keeps it outstanding when problems were found. *)
Lemma completion_step env scan requests es i h :
  es !! i = Some (EComplete h) ->
  exists taken log r,
    outcomes env scan requests es !! i = Some (OComplete taken log r) /\
    let before := ck_outstanding (sy_checker (after env scan requests (take i es))) in
    let now := ck_outstanding (sy_checker (after env scan requests (take (S i) es))) in
    match taken with
    | None => (forall x, x ∈ before -> li_sel x <> ro_sel (requests h)) /\
              now = before /\ r = Some [] /\ log = None
    | Some li => exists l1 l2, before = l1 ++ li :: l2 /\ li_sel li = ro_sel (requests h) /\
        (forall x, x ∈ l1 -> li_sel x <> ro_sel (requests h)) /\
        now = l1 ++ l2 ++ match r with Some (_ :: _) => [li] | _ => [] end
    end.
Proof.
  intros Hi. destruct (outcomes_at env scan requests es i _ Hi) as [Ho Ha].
  rewrite Ho, Ha. set (s := after env scan requests (take i es)) in *. cbn.
  destruct (rustc_complete env scan (sy_checker s) (sy_states s !! h) (requests h))
      as [[[ck' cs'] r] log] eqn:E. apply rustc_complete_spec in E as [_ E].
  pose proof (take_link_info_spec (ck_outstanding (sy_checker s)) (ro_sel (requests h))) as HT.
  eexists _, _, _. split; [done|]. cbn.
  destruct (take_link_info _ _) as [[li rest]|]; cbn.
  - destruct E as (E & _). destruct HT as (l1 & l2 & H1 & H2 & H3 & H4).
    exists l1, l2. split_and!; try done. by rewrite E, H2, app_assoc.
  - by destruct E as (-> & -> & _ & E).
Qed.
