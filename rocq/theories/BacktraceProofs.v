(** Proofs about backtraces. *)
From Verif Require Import Base CollectModel BacktraceModel BacktraceSpec.

Definition to_target (t : nat) (calls : list (bin_loc * nat)) : list bin_loc :=
  map fst (List.filter (fun c => Nat.eqb c.2 t) calls).

Lemma back_lookup (calls : list (bin_loc * nat)) (t : nat) :
  back_references calls !! t = match to_target t calls with [] => None | l => Some l end.
Proof.
  unfold back_references, to_target. induction calls as [|[l u] calls IH] using rev_ind; [done|].
  rewrite foldl_app, List.filter_app, map_app. cbn [foldl fst snd List.filter].
  set (m := foldl _ _ _) in *. destruct (Nat.eqb_spec u t) as [->|Hne].
  - rewrite lookup_insert, IH. cbn [map fst]. by destruct (map fst _).
  - rewrite lookup_insert_ne by done. cbn [map]. by rewrite app_nil_r.
Qed.

Lemma back_some (calls : list (bin_loc * nat)) (t : nat) (rs : list bin_loc) :
  back_references calls !! t = Some rs -> forall c, c ∈ rs <-> (c, t) ∈ calls.
Proof.
  rewrite back_lookup. intros E c. assert (rs = to_target t calls) as -> by (by destruct (to_target t calls); simplify_eq).
  unfold to_target. rewrite elem_of_list_In, in_map_iff. setoid_rewrite filter_In. setoid_rewrite <-elem_of_list_In. split.
  - intros ([c' u] & <- & Hin & <-%Nat.eqb_eq). done.
  - intros Hin. exists (c, t). split_and!; [done|done|apply Nat.eqb_refl].
Qed.

Lemma back_none (calls : list (bin_loc * nat)) (t : nat) :
  back_references calls !! t = None -> forall c, (c, t) ∉ calls.
Proof.
  rewrite back_lookup. intros E c Hin. assert (to_target t calls = []) as E' by (by destruct (to_target t calls)).
  assert (c ∈ to_target t calls) as H; [|rewrite E' in H; by apply elem_of_nil in H].
  unfold to_target. rewrite elem_of_list_In, in_map_iff. exists (c, t). rewrite filter_In, <-elem_of_list_In.
  split_and!; [done|done|apply Nat.eqb_refl].
Qed.

Lemma size_to_set (l : list nat) : size (list_to_set l : gset nat) <= length l.
Proof.
  induction l as [|x l IH]; cbn [list_to_set length]; [by rewrite size_empty|].
  rewrite size_union_alt, size_singleton.
  assert (size (list_to_set l ∖ {[x]} : gset nat) <= size (list_to_set l : gset nat)); [|lia].
  apply subseteq_size. intros a Ha. by apply elem_of_difference in Ha as [? _].
Qed.

Section fixed.
Context (calls : list (bin_loc * nat)) (q : bin_loc).
Notation refs := (back_references calls).

Lemma chain_snoc (p : list bin_loc) : forall l c,
  chain calls (p ++ [l]) -> (c, bl_start l) ∈ calls -> chain calls ((p ++ [l]) ++ [c]).
Proof.
  induction p as [|x p IH]; intros l c Hc Hin.
  - cbn. constructor; [done|constructor].
  - destruct p as [|y p].
    + cbn in *. inversion Hc; subst. constructor; [done|]. by apply (IH l c).
    + cbn in *. inversion Hc; subst. constructor; [done|]. by apply (IH l c).
Qed.

Lemma leads_snoc (p : list bin_loc) (l c : bin_loc) :
  leads calls q l (p ++ [l]) -> (c, bl_start l) ∈ calls -> leads calls q c ((p ++ [l]) ++ [c]).
Proof.
  intros (Hc & Hh & _) Hin. split_and!; [by apply chain_snoc| |by rewrite last_snoc].
  rewrite <-Hh. by destruct p.
Qed.

Definition good (out : list nat) : Prop :=
  out = [] \/ exists p e, leads calls q e p /\ entry_point calls e /\ map bl_address p = out /\ NoDup out.

(** What is new in [visited'] has been dealt with. *)
Definition dealt_with (visited visited' : gset nat) (out' : list nat) : Prop :=
  forall l, l ∈ q :: map fst calls -> bl_address l ∈ visited' -> bl_address l ∉ visited ->
    (forall c, (c, bl_start l) ∈ calls -> bl_address c ∈ visited') /\
    (entry_point calls l -> exists p, leads calls q l p /\ length p <= length out').

Lemma dealt_with_trans (v1 v2 v3 : gset nat) (out2 out3 : list nat) :
  v2 ⊆ v3 -> length out2 <= length out3 -> dealt_with v1 v2 out2 -> dealt_with v2 v3 out3 -> dealt_with v1 v3 out3.
Proof.
  intros Hv Hl H1 H2 l Hk Hin Hn. destruct (decide (bl_address l ∈ v2)) as [Hin2|Hn2]; [|by apply H2].
  destruct (H1 l Hk Hin2 Hn) as [Hc He]. split; [intros c Hcc; by apply Hv, Hc|].
  intros Hent. destruct (He Hent) as (p & Hp & Hlen). exists p. split; [done|lia].
Qed.

Lemma find_frames_spec : forall (fuel : nat) (p : list bin_loc) (loc : bin_loc) (out : list nat) (visited : gset nat)
    (out' : list nat) (visited' : gset nat),
  find_frames fuel refs (map bl_address p) loc out visited = Some (out', visited') ->
  leads calls q loc (p ++ [loc]) -> NoDup (map bl_address p) -> (forall a, a ∈ map bl_address p -> a ∈ visited) ->
  loc ∈ q :: map fst calls -> good out ->
  good out' /\ visited ⊆ visited' /\ bl_address loc ∈ visited' /\ length out <= length out' /\
  (one_location calls q -> dealt_with visited visited' out').
Proof.
  induction fuel as [|fuel IH]; intros p loc out visited out' visited' E Hl Hnd Hvis Hk Hg; [done|].
  cbn [find_frames] in E. destruct (bool_decide (bl_address loc ∈ visited)) eqn:Ev.
  { apply bool_decide_eq_true in Ev. injection E as <- <-. split_and!; [done|done|done|done|].
    intros _ l _ Hin Hn. done. }
  apply bool_decide_eq_false in Ev.
  assert (NoDup (map bl_address (p ++ [loc]))) as Hnd'.
  { rewrite map_app. apply NoDup_app. split_and!; [done| |apply NoDup_singleton].
    intros a Ha ->%elem_of_list_singleton. by apply Ev, Hvis. }
  assert (map bl_address p ++ [bl_address loc] = map bl_address (p ++ [loc])) as Ep by (by rewrite map_app).
  rewrite Ep in E. destruct (refs !! bl_start loc) as [rs|] eqn:Er.
  - assert (forall c, c ∈ rs -> (c, bl_start loc) ∈ calls) as Hrs by (intros c Hc; by apply (back_some _ _ _ Er)).
    assert (forall rs, (forall c, c ∈ rs -> (c, bl_start loc) ∈ calls) -> forall out visited,
      foldl (fun r reference => match r with
                     | Some (out, visited) => find_frames fuel refs (map bl_address (p ++ [loc])) reference out visited
                     | None => None end) (Some (out, visited)) rs = Some (out', visited') ->
      (forall a, a ∈ map bl_address (p ++ [loc]) -> a ∈ visited) -> good out ->
      good out' /\ visited ⊆ visited' /\ (forall c, c ∈ rs -> bl_address c ∈ visited') /\ length out <= length out' /\
      (one_location calls q -> dealt_with visited visited' out')) as Hfold.
    { clear E Hrs Er Hg Hvis Ev rs out visited. intros rs. induction rs as [|c rs IHrs]; intros Hrs out visited E Hvis Hg.
      - cbn in E. injection E as <- <-. split_and!; [done|done| |done|].
        + intros c Hc. by apply elem_of_nil in Hc.
        + intros _ l _ Hin Hn. done.
      - cbn [foldl] in E. destruct (find_frames fuel refs (map bl_address (p ++ [loc])) c out visited) as [[out1 visited1]|] eqn:Ec.
        2: { exfalso. clear -E. induction rs as [|r rs IH]; cbn [foldl] in E; [done|by apply IH]. }
        destruct (IH (p ++ [loc]) c out visited out1 visited1 Ec) as (Hg1 & Hv1 & Hc1 & Hlen1 & Hd1).
        + apply leads_snoc; [done|]. apply Hrs. left.
        + done.
        + done.
        + right. apply elem_of_list_In, in_map_iff. exists (c, bl_start loc). split; [done|].
          apply elem_of_list_In, Hrs. left.
        + done.
        + destruct (IHrs (fun c Hc => Hrs c (elem_of_list_further _ _ _ Hc)) out1 visited1 E) as (Hg2 & Hv2 & Hc2 & Hlen2 & Hd2).
          * intros a Ha. apply Hv1, Hvis, Ha.
          * done.
          * split_and!; [done|by etrans| |lia|].
            -- intros c' [->|Hc']%elem_of_cons; [by apply Hv2|by apply Hc2].
            -- intros Ho. apply (dealt_with_trans visited visited1 visited' out1); auto. }
    destruct (Hfold rs Hrs out _ E) as (Hg' & Hv' & Hc' & Hlen' & Hd').
    + intros a. rewrite map_app. intros [Ha|Ha]%elem_of_app; [|apply elem_of_list_singleton in Ha as ->; by apply elem_of_union_l, elem_of_singleton].
      apply elem_of_union_r, Hvis, Ha.
    + done.
    + split_and!; [done|etrans; [apply union_subseteq_r|exact Hv']|apply Hv', elem_of_union_l; by apply elem_of_singleton|done|].
      intros Ho l Hkl Hin Hn. destruct (decide (bl_address l = bl_address loc)) as [Ea|Hne].
      * assert (l = loc) as -> by (by apply Ho). split.
        -- intros c Hc. apply Hc', (back_some _ _ _ Er), Hc.
        -- intros Hent. exfalso. assert (exists c, c ∈ rs) as [c Hc].
           { rewrite back_lookup in Er. destruct (to_target (bl_start loc) calls) as [|c l]; [done|].
             injection Er as <-. exists c. left. }
           by apply (Hent c), Hrs.
      * apply (Hd' Ho l Hkl Hin). intros [Hin1|Hin1]%elem_of_union; [|done]. apply elem_of_singleton in Hin1. done.
  - pose proof (back_none _ _ Er) as Hent. injection E as <- <-.
    assert (good (map bl_address (p ++ [loc]))) as Hgood by (right; by exists (p ++ [loc]), loc).
    assert (forall n, length (map bl_address (p ++ [loc])) <= n -> exists p', leads calls q loc p' /\ length p' <= n) as Hp.
    { intros n Hn. exists (p ++ [loc]). split; [done|]. by rewrite map_length in Hn. }
    destruct (Nat.ltb_spec (length out) (length (map bl_address (p ++ [loc])))) as [Hlt|Hge].
    + split_and!; [done|apply union_subseteq_r|apply elem_of_union_l; by apply elem_of_singleton|lia|].
      intros Ho l Hkl Hin Hn. assert (l = loc) as ->; [|split; [intros c Hc; by destruct (Hent c)|intros _; by apply Hp]].
      apply Ho; [done|done|]. apply elem_of_union in Hin as [Hin|Hin]; [by apply elem_of_singleton in Hin|done].
    + split_and!; [done|apply union_subseteq_r|apply elem_of_union_l; by apply elem_of_singleton|lia|].
      intros Ho l Hkl Hin Hn. assert (l = loc) as ->; [|split; [intros c Hc; by destruct (Hent c)|intros _; by apply Hp]].
      apply Ho; [done|done|]. apply elem_of_union in Hin as [Hin|Hin]; [by apply elem_of_singleton in Hin|done].
Qed.

Definition addresses : gset nat := list_to_set (map bl_address (q :: map fst calls)).

Lemma find_frames_total : forall (fuel : nat) (cand : list nat) (loc : bin_loc) (out : list nat) (visited : gset nat),
  loc ∈ q :: map fst calls -> size (addresses ∖ visited) < fuel ->
  exists out' visited', find_frames fuel refs cand loc out visited = Some (out', visited') /\ visited ⊆ visited'.
Proof.
  induction fuel as [|fuel IH]; intros cand loc out visited Hk Hsize; [lia|].
  cbn [find_frames]. destruct (bool_decide (bl_address loc ∈ visited)) eqn:Ev; [by eexists _, _|].
  apply bool_decide_eq_false in Ev. destruct (refs !! bl_start loc) as [rs|] eqn:Er.
  2: { eexists _, _. split; [reflexivity|apply union_subseteq_r]. }
  assert (size (addresses ∖ ({[bl_address loc]} ∪ visited)) < fuel) as Hs.
  { apply Nat.lt_le_trans with (size (addresses ∖ visited)); [|lia]. apply subset_size. split; [set_solver|].
    intros Hsub. assert (bl_address loc ∈ addresses ∖ visited) as Hin; [|set_solver].
    apply elem_of_difference. split; [|done]. unfold addresses. apply elem_of_list_to_set, elem_of_list_In, in_map.
    by apply elem_of_list_In. }
  assert (forall c, c ∈ rs -> c ∈ q :: map fst calls) as Hrs.
  { intros c Hc%(back_some _ _ _ Er). right. apply elem_of_list_In, in_map_iff. exists (c, bl_start loc). split; [done|].
    by apply elem_of_list_In. }
  assert (visited ⊆ {[bl_address loc]} ∪ visited) as Hsub by apply union_subseteq_r.
  revert Hs Hsub. generalize ({[bl_address loc]} ∪ visited) as v. intros v Hs Hsub. clear Er Ev. revert out v Hs Hsub.
  induction rs as [|c rs IHrs]; intros out v Hs Hsub; cbn [foldl]; [by eexists _, _|].
  destruct (IH (cand ++ [bl_address loc]) c out v (Hrs c (elem_of_list_here _ _)) Hs) as (out1 & v1 & -> & Hv1).
  apply IHrs.
  - intros c' Hc'. apply Hrs. by right.
  - eapply Nat.le_lt_trans; [|exact Hs]. apply subseteq_size. intros a [Ha Hn]%elem_of_difference.
    apply elem_of_difference. split; [done|]. intros Hin. by apply Hn, Hv1.
  - by etrans.
Qed.

Lemma addresses_found : exists out, backtrace_addresses calls q = Some out.
Proof.
  unfold backtrace_addresses.
  destruct (find_frames_total (S (S (length calls))) [] q [] ∅) as (out & v & -> & _); [left| |by exists out].
  apply Nat.le_lt_trans with (size addresses); [apply subseteq_size; intros a Ha; by apply elem_of_difference in Ha as [? _]|].
  unfold addresses. pose proof (size_to_set (map bl_address (q :: map fst calls))) as H. cbn [map length] in H.
  rewrite !map_length in H. cbn [map]. lia.
Qed.

Lemma backtrace_spec (out : list nat) :
  backtrace_addresses calls q = Some out ->
  good out /\
  (one_location calls q -> forall e p, leads calls q e p -> entry_point calls e ->
     exists p', leads calls q e p' /\ length p' <= length out).
Proof.
  unfold backtrace_addresses. destruct (find_frames _ _ _ _ _ _) as [[o v]|] eqn:E; [|done]. intros [= <-].
  destruct (find_frames_spec _ [] q [] ∅ o v E) as (Hg & _ & Hq & _ & Hd).
  - split_and!; [constructor|done|done].
  - constructor.
  - intros a Ha. by apply elem_of_nil in Ha.
  - left.
  - by left.
  - split; [done|]. intros Ho e p (Hc & Hh & Hl) He. specialize (Hd Ho).
    assert (forall p, chain calls p -> forall l, head p = Some l -> l ∈ q :: map fst calls -> bl_address l ∈ v ->
      forall e, last p = Some e -> e ∈ q :: map fst calls /\ bl_address e ∈ v) as Hall.
    { clear -Hd. induction 1 as [l|l c p Hin Hc IH]; intros l' [= <-] Hk Hv e.
      - by intros [= <-].
      - intros Hl. apply (IH c); [done| | |done].
        + right. apply elem_of_list_In, in_map_iff. exists (c, bl_start l). split; [done|by apply elem_of_list_In].
        + destruct (Hd l Hk Hv) as [H _]; [by apply not_elem_of_empty|]. by apply H. }
    destruct (Hall p Hc q Hh (elem_of_list_here _ _) Hq e Hl) as [Hk Hv].
    destruct (Hd e Hk Hv) as [_ H]; [by apply not_elem_of_empty|]. by apply H.
Qed.
End fixed.

(** ** Frames *)

Fixpoint marked (fs : list (str * option src_loc)) : list frame :=
  match fs with
  | [] => []
  | (n, l) :: fs' => Frame n l (match fs' with [] => false | _ => true end) :: marked fs'
  end.

Lemma mark_last_snoc (bt : list frame) (f : frame) :
  mark_last (bt ++ [f]) = bt ++ [Frame (fm_name f) (fm_location f) true].
Proof. unfold mark_last. by rewrite last_snoc, removelast_last. Qed.

Lemma push_frames_more (fs : list (str * option src_loc)) : forall bt n l,
  push_frames false (bt ++ [Frame n l false]) fs = bt ++ marked ((n, l) :: fs).
Proof.
  induction fs as [|[n' l'] fs IH]; intros bt n l; [done|].
  cbn [push_frames]. rewrite mark_last_snoc. cbn [fm_name fm_location]. rewrite IH, <-app_assoc. done.
Qed.

Lemma push_frames_marked (bt : list frame) (fs : list (str * option src_loc)) :
  push_frames true bt fs = bt ++ marked fs.
Proof. destruct fs as [|[n l] fs]; cbn [push_frames]; [by rewrite app_nil_r|]. apply push_frames_more. Qed.

Lemma marked_shown (fs : list (str * option src_loc)) : frames_shown fs (marked fs).
Proof.
  unfold frames_shown. induction fs as [|[n l] fs [IHl IH]].
  - split; [done|]. intros i f. by rewrite lookup_nil.
  - split; [cbn [marked length]; by f_equal|]. intros [|i] f E.
    + cbn in E. injection E as <-. cbn. split; [done|]. destruct fs; cbn; split; (done || lia).
    + destruct (IH i f E) as [H1 H2]. split; [done|]. cbn [length]. rewrite H2. lia.
Qed.

Lemma show_frames_spec (frames_at : nat -> option (list (str * option src_loc))) (addrs : list nat) : forall bt out,
  show_frames frames_at bt addrs = Some out ->
  exists per, out = bt ++ mjoin per /\
    Forall2 (fun a shown => exists fs, frames_at a = Some fs /\ frames_shown fs shown) addrs per.
Proof.
  induction addrs as [|a addrs IH]; intros bt out E; cbn [show_frames] in E.
  - injection E as <-. exists []. split; [by rewrite app_nil_r|constructor].
  - destruct (frames_at a) as [fs|] eqn:Ea; [|done]. rewrite push_frames_marked in E.
    destruct (IH _ _ E) as (per & -> & Hp). exists (marked fs :: per). split; [by rewrite <-app_assoc|].
    constructor; [|done]. exists fs. split; [done|apply marked_shown].
Qed.

Lemma show_frames_total (frames_at : nat -> option (list (str * option src_loc))) (addrs : list nat) : forall bt,
  (forall a, a ∈ addrs -> is_Some (frames_at a)) -> is_Some (show_frames frames_at bt addrs).
Proof.
  induction addrs as [|a addrs IH]; intros bt H; cbn [show_frames]; [eauto|].
  destruct (H a (elem_of_list_here _ _)) as [fs ->]. apply IH. intros b Hb. apply H. by right.
Qed.
