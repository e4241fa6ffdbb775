(** Proofs about the compilers of a run. *)
From Verif Require Import Base ConfigModel ProblemModel StoreModel UiModel CompileModel CompileSpec FlowModel FlowSpec FlowProofs.

(** ** The configuration that a process finds was loaded from the file *)

Section flow.
  Context (print : json -> str) (parse : str -> option json) (codec : reads_back print parse).
  Context {doc : Type} (load : doc -> option (config * extra)).

  Definition loaded_from (ds : list doc) (c : config) (x : extra) : Prop := exists d, d ∈ ds /\ load d = Some (c, x).

  Lemma loaded_more ds ds' c x : (forall d, d ∈ ds -> d ∈ ds') -> loaded_from ds c x -> loaded_from ds' c x.
  Proof. intros H (d & Hd & Hl). exists d. split; [by apply H|done]. Qed.

  Definition sound (s : flow (doc := doc)) : Prop :=
    (forall t, fl_flat s = Some t -> exists c x, loaded_from (fl_file s) c x /\ t = serialise print (from_full_config x c)) /\
    match fl_lock s with
    | Some (_, Parsed c x) => loaded_from (fl_file s) c x
    | _ => True
    end.

  Lemma step_sound s e s' : flow_step print load s e = Some s' -> sound s -> sound s'.
  Proof.
    intros H [H1 H2]. destruct e as [d|t|t|t|t]; cbn [flow_step] in H.
    - injection H as <-. split; cbn [fl_flat fl_file fl_lock].
      + intros t Ht. destruct (H1 t Ht) as (c & x & Hl & E). exists c, x. split; [|done].
        apply (loaded_more (fl_file s)); [intros; by right|done].
      + destruct (fl_lock s) as [[? []]|]; try done. apply (loaded_more (fl_file s)); [intros; by right|done].
    - destruct (fl_lock s); [done|]. injection H as <-. by split.
    - destruct (fl_lock s) as [[t' []]|]; try done. destruct (fl_file s) as [|d ds] eqn:Ef; [done|].
      destruct (Nat.eqb t t'); [|done]. destruct (load d) as [[c x]|] eqn:El; injection H as <-.
      + split; cbn [fl_flat fl_file fl_lock]; [done|]. exists d. split; [left|done].
      + by split.
    - destruct (fl_lock s) as [[t' [|c x|]]|]; try done. destruct (Nat.eqb t t'); [|done]. injection H as <-.
      split; cbn [fl_flat fl_file fl_lock]; [|done]. intros u [= <-]. by exists c, x.
    - destruct (fl_lock s) as [[t' []]|]; try done. destruct (Nat.eqb t t'); [|done]. injection H as <-. by split.
  Qed.

  Lemma step_file s e s' d : flow_step print load s e = Some s' -> d ∈ fl_file s' -> d ∈ fl_file s \/ e = FSave d.
  Proof.
    intros H Hd. destruct e as [d'|t|t|t|t]; cbn [flow_step] in H.
    - injection H as <-. cbn [fl_file] in Hd. apply elem_of_cons in Hd as [->|Hd]; auto.
    - destruct (fl_lock s); [done|]. injection H as <-. by left.
    - destruct (fl_lock s) as [[t' []]|]; try done. destruct (fl_file s) as [|d' ds] eqn:Ef; [done|].
      destruct (Nat.eqb t t'); [|done]. destruct (load d') as [[c x]|]; injection H as <-; by left.
    - destruct (fl_lock s) as [[t' [|c x|]]|]; try done. destruct (Nat.eqb t t'); [|done]. injection H as <-. by left.
    - destruct (fl_lock s) as [[t' []]|]; try done. destruct (Nat.eqb t t'); [|done]. injection H as <-. by left.
  Qed.

  Lemma run_sound es s s' : flow_run print load s es = Some s' -> sound s ->
    sound s' /\ forall d, d ∈ fl_file s' -> d ∈ fl_file s \/ FSave d ∈ es.
  Proof.
    revert s. induction es as [|e es IH]; intros s H Hs; cbn [flow_run] in H.
    - injection H as <-. split; [done|]. by left.
    - destruct (flow_step print load s e) as [s1|] eqn:E; [|done]. cbn [mbind option_bind] in H.
      destruct (IH s1 H (step_sound _ _ _ E Hs)) as [H1 H2]. split; [done|]. intros d Hd.
      destruct (H2 d Hd) as [Hd'|Hd']; [|right; by right].
      destruct (step_file _ _ _ _ E Hd') as [?| ->]; [by left|right; left].
  Qed.

  Lemma found_loaded d0 es s sc :
    flow_run print load (flow_init d0) es = Some s -> process_config parse s = Some sc ->
    exists d c x, (d = d0 \/ FSave d ∈ es) /\ load d = Some (c, x) /\ sc = from_full_config x c.
  Proof.
    intros H Hp. destruct (run_sound _ _ _ H) as [[Hs _] Hf]; [by split|].
    unfold process_config in Hp. destruct (fl_flat s) as [t|] eqn:E; [|done]. cbn [mbind option_bind] in Hp.
    destruct (Hs t eq_refl) as (c & x & (d & Hd & Hl) & ->).
    rewrite (deserialise_serialise print parse codec) in Hp. injection Hp as <-.
    exists d, c, x. split; [|done]. destruct (Hf d Hd) as [Hd'|Hd']; [|by right].
    cbn in Hd'. apply elem_of_list_singleton in Hd'. by left.
  Qed.
End flow.

(** ** A call of the linker is analysed before its compiler may go on *)

From Verif Require Import CheckerModel CheckerSpec CheckerProps CheckerSysProofs.

Lemma event_of_outcome env scan requests es m t log r :
  outcomes env scan requests es !! m = Some (OComplete t log r) -> exists h, es !! m = Some (EComplete h).
Proof.
  intros H. assert (L : m < length es).
  { apply lookup_lt_Some in H. by rewrite outcomes_length in H. }
  apply lookup_lt_is_Some in L as [e He]. destruct (outcomes_at env scan requests es m e He) as [Ho _].
  rewrite H in Ho. injection Ho as Ho. destruct e; [discriminate Ho|by eexists|discriminate Ho].
Qed.

Lemma outcomes_take env scan requests es n :
  outcomes env scan requests (take n es) = take n (outcomes env scan requests es).
Proof.
  apply list_eq. intros i. destruct (decide (i < n)) as [L|L].
  - rewrite (lookup_take _ n i) by done. destruct (es !! i) as [e|] eqn:E.
    + destruct (outcomes_at env scan requests es i e E) as [-> _].
      destruct (outcomes_at env scan requests (take n es) i e) as [-> _]; [by rewrite lookup_take|].
      by rewrite take_take, Nat.min_l by lia.
    + rewrite !lookup_ge_None_2; [done|rewrite outcomes_length; by apply lookup_ge_None_1|].
      rewrite outcomes_length, take_length. apply lookup_ge_None_1 in E. lia.
  - rewrite (lookup_take_ge _ n i) by lia. apply lookup_ge_None_2. rewrite outcomes_length, take_length. lia.
Qed.

Lemma linked_once es li li' : NoDup (map li_sel (links es)) -> li ∈ links es -> li' ∈ links es ->
  li_sel li = li_sel li' -> li = li'.
Proof.
  intros Hnd. induction (links es) as [|x l IH]; [by intros ?%elem_of_nil|].
  cbn [map] in Hnd. apply NoDup_cons in Hnd as [Hx Hnd].
  intros [->|H1]%elem_of_cons [->|H2]%elem_of_cons E; [done| | |by apply IH].
  - destruct Hx. rewrite E. by apply elem_of_list_fmap_1.
  - destruct Hx. rewrite <- E. by apply elem_of_list_fmap_1.
Qed.

Lemma links_take es k n li : es !! k = Some (ELinker li) -> k < n -> li ∈ links (take n es).
Proof.
  intros H L. unfold links. apply elem_of_list_omap. exists (ELinker li). split; [|done].
  apply (elem_of_list_lookup_2 _ k). by rewrite lookup_take.
Qed.

Lemma links_all es k li : es !! k = Some (ELinker li) -> li ∈ links es.
Proof.
  intros H. unfold links. apply elem_of_list_omap. exists (ELinker li). split; [|done].
  by apply (elem_of_list_lookup_2 _ k).
Qed.

Lemma links_prefix es n li : li ∈ links (take n es) -> li ∈ links es.
Proof.
  unfold links. rewrite !elem_of_list_omap. intros (e & He & E). exists e. split; [|done].
  rewrite <- (take_drop n es). apply elem_of_app. by left.
Qed.

Lemma analysed {doc} (w : checked_run doc) i sel files k li :
  checks w -> NoDup (map li_sel (links (ch_events w))) ->
  LaunchSpec.decided (cr_served (ch_run w)) i (Some Continue) ->
  LaunchSpec.requests (cr_served (ch_run w)) !! i = Some (SubprocessModel.RustcComplete sel files) ->
  ch_events w !! k = Some (ELinker li) -> li_sel li = sel ->
  exists n log, ch_events w !! n = Some (EComplete i) /\
    ch_outcomes w !! n = Some (OComplete (Some li) log (Some [])).
Proof.
  intros C Hnd Hd Hr Hk Hsel. destruct (checks_decided w C i sel files Hd Hr) as [Hq (n & t & log & Hn & Ho & Hbefore)].
  assert (Hs : ro_sel (ch_requests w i) = li_sel li) by (by rewrite Hq).
  pose proof (checks_linked w C li k n i Hk Hn Hs) as Hkn.
  pose proof (C12_conservation (ch_env w) (ch_scan w) (ch_requests w) (take n (ch_events w))) as P.
  assert (Hin : li ∈ ck_outstanding (sy_checker (after (ch_env w) (ch_scan w) (ch_requests w) (take n (ch_events w))))).
  { pose proof (links_take _ _ n _ Hk Hkn) as Hl. rewrite P in Hl. apply elem_of_app in Hl as [Hl|Hl]; [done|exfalso].
    unfold settled in Hl. apply elem_of_list_omap in Hl as (o & Hoin & Hset).
    apply elem_of_list_lookup in Hoin as [m Hm]. rewrite outcomes_take in Hm.
    assert (m < n) as Lm. { destruct (decide (m < n)); [done|]. rewrite lookup_take_ge in Hm by lia. done. }
    rewrite lookup_take in Hm by done. destruct o as [|t' log' r']; [done|].
    destruct (event_of_outcome _ _ _ _ _ _ _ _ Hm) as [h Hh].
    destruct t' as [li'|]; [|by destruct r' as [[]|]].
    assert (li' = li) as ->. { destruct r' as [[|]|]; [by injection Hset|done|by injection Hset]. }
    destruct (C12_completion (ch_env w) (ch_scan w) (ch_requests w) (ch_events w) m h Hh) as (t2 & l2 & r2 & E2 & X).
    rewrite Hm in E2. injection E2 as <- <- <-. destruct X as (l1 & l3 & _ & Hsel' & _).
    assert (h = i) as ->.
    { eapply (checks_one w C li h i m n); try done. by apply (elem_of_list_lookup_2 _ k). }
    destruct (Hbefore m Lm Hh) as (t3 & l4 & p & ps & E3). unfold ch_outcomes in E3. rewrite Hm in E3.
    injection E3 as _ _ ->. done. }
  exists n, log. split; [done|].
  destruct (C12_completion (ch_env w) (ch_scan w) (ch_requests w) (ch_events w) n i Hn) as (t2 & l2 & r2 & E2 & X).
  unfold ch_outcomes in *. rewrite Ho in E2. injection E2 as <- <- <-. rewrite Ho.
  destruct t as [li'|]; [|by destruct X as [X _]; destruct (X li Hin)].
  destruct X as (l1 & l3 & Hb & Hsel' & _).
  assert (li' = li) as ->; [|done].
  apply (linked_once (ch_events w)); [done| |by apply (links_all _ k)|congruence].
  apply (links_prefix _ n). rewrite P. apply elem_of_app. left. rewrite Hb. apply elem_of_app. right. left.
Qed.
