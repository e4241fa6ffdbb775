(** Proofs about displayed diffs. *)
From Coq Require Import Lia ZArith.
From Verif Require Import Base BaseFacts DiffModel DiffSpec.

(** ** diff_lines *)

Lemma header_start (s : str) : is_header (DBoth s) = is_section_start s.
Proof.
  destruct s as [|c s]; [done|]. unfold is_header, is_section_start.
  change (starts_with (lit "[") (c :: s)) with (if Ascii.eqb "["%char c then true else false).
  rewrite Ascii.eqb_sym. by destruct (Ascii.eqb "["%char c).
Qed.

Lemma diff_loop_acc (script : list diff_line) : forall lines common ac,
  diff_loop script lines common ac = lines ++ diff_loop script [] common ac.
Proof.
  induction script as [|[s|s|s] script IH]; intros lines common ac; cbn [diff_loop].
  - by rewrite app_nil_r.
  - destruct ac; [destruct (is_section_start s)|].
    + apply IH.
    + rewrite IH, (IH ([] ++ _)). by rewrite <- app_assoc.
    + apply IH.
  - rewrite IH, (IH ([] ++ _)). by rewrite <- !app_assoc.
  - rewrite IH, (IH ([] ++ _)). by rewrite <- !app_assoc.
Qed.

Lemma diff_loop_spec (script : list diff_line) : forall before common ac,
  ac = change_near before -> (ac = true -> common = []) ->
  diff_loop script [] common ac =
    (if change_near script then map (fun s => render (DBoth s)) common else []) ++
    map render (select in_section before script).
Proof.
  induction script as [|d script IH]; intros before common ac Hac Hc; [done|].
  cbn [select change_near]. rewrite map_app. unfold in_section at 1.
  destruct d as [s|s|s]; cbn [diff_loop is_change orb].
  - rewrite header_start. destruct (is_section_start s) eqn:E; cbn [negb andb orb].
    + destruct ac; rewrite <- Hac; cbn [negb].
      * rewrite andb_false_r. cbn [map app]. rewrite (Hc eq_refl). rewrite (IH (DBoth s :: before)).
        -- by destruct (change_near script).
        -- cbn [change_near is_change]. by rewrite header_start, E.
        -- done.
      * rewrite andb_true_r. rewrite (IH (DBoth s :: before)).
        -- by destruct (change_near script).
        -- cbn [change_near is_change]. by rewrite header_start, E.
        -- done.
    + rewrite andb_true_r. destruct ac; rewrite <- Hac; cbn [orb].
      * rewrite (Hc eq_refl). rewrite diff_loop_acc, (IH (DBoth s :: before)).
        -- by destruct (change_near script).
        -- cbn [change_near is_change]. by rewrite header_start, E.
        -- done.
      * rewrite (IH (DBoth s :: before)).
        -- destruct (change_near script); [|done]. rewrite map_app. by rewrite <- app_assoc.
        -- cbn [change_near is_change]. by rewrite header_start, E.
        -- done.
  - rewrite diff_loop_acc, (IH (DLeft s :: before)); [|done|done].
    cbn [map app]. rewrite <- app_assoc. by destruct (change_near script).
  - rewrite diff_loop_acc, (IH (DRight s :: before)); [|done|done].
    cbn [map app]. rewrite <- app_assoc. by destruct (change_near script).
Qed.

(** ** show_diff *)

Inductive show_state : list diff_line -> list str -> nat -> Prop :=
| ss_change d before : is_change d = true -> show_state (d :: before) [] 2
| ss_one s d before : is_change d = true -> show_state (DBoth s :: d :: before) [] 1
| ss_none before common :
    existsb is_change (take 2 before) = false -> length common <= 2 -> show_state before common 0.

Definition pending (common : list str) (script : list diff_line) : list str :=
  match common with
  | [a; b] => (if existsb is_change (take 1 script) then [a] else []) ++
              (if existsb is_change (take 2 script) then [b] else [])
  | [b] => if existsb is_change (take 2 script) then [b] else []
  | _ => []
  end.

Lemma show_loop_spec (script : list diff_line) : forall before common after,
  show_state before common after ->
  show_loop script common after =
    map (fun s => render (DBoth s)) (pending common script) ++ map render (select within_two before script).
Proof.
  induction script as [|d script IH]; intros before common after Hs.
  { destruct common as [|? [|? [|]]]; done. }
  assert (Hchange : is_change d = true ->
    map (fun s => render (DBoth s)) common ++ render d :: show_loop script [] CONTEXT =
    map (fun s => render (DBoth s)) (pending common (d :: script)) ++
      map render (select within_two before (d :: script))).
  { intros Hd. cbn [select]. unfold within_two at 1. rewrite Hd. cbn [orb]. rewrite map_app.
    rewrite (IH (d :: before) [] CONTEXT) by (by constructor). cbn [map app pending].
    assert (pending common (d :: script) = common) as ->; [|done].
    assert (length common <= 2) by (by inversion Hs; subst; cbn; [lia|lia|]).
    destruct common as [|? [|? [|]]]; cbn in *; [done| | |lia]; rewrite Hd; done. }
  destruct d as [s|s|s]; [|exact (Hchange eq_refl)|exact (Hchange eq_refl)].
  cbn [show_loop select]. rewrite map_app.
  inversion Hs as [d before' Hd|s' d before' Hd|before' common' Hn Hlen]; subst.
  - rewrite (IH (DBoth s :: d :: before')) by (by constructor).
    unfold within_two at 2. cbn [is_change orb take existsb]. rewrite Hd. done.
  - rewrite (IH (DBoth s :: DBoth s' :: d :: before')).
    + unfold within_two at 2. cbn [is_change orb take existsb]. rewrite Hd. done.
    + constructor; [done|cbn; lia].
  - rewrite (IH (DBoth s :: before)).
    2: { constructor.
         - destruct before as [|x before]; [done|]. cbn in Hn |- *. apply orb_false_iff in Hn as [-> _]. done.
         - unfold CONTEXT. destruct common as [|? [|? [|]]]; cbn in *; lia. }
    unfold within_two at 2. cbn [is_change orb]. rewrite Hn. cbn [orb].
    unfold CONTEXT. destruct common as [|a [|b [|]]]; cbn [length app Nat.ltb Nat.leb tail pending] in *;
      [| | |lia]; cbn [take existsb is_change orb].
    + by destruct (existsb is_change (take 2 script)).
    + rewrite map_app. change (existsb is_change (take 2 (DBoth s :: script)))
        with (existsb is_change (take 1 script)).
      destruct (existsb is_change (take 1 script)), (existsb is_change (take 2 script)); done.
    + rewrite !map_app. change (existsb is_change (take 2 (DBoth s :: script)))
        with (existsb is_change (take 1 script)).
      destruct (existsb is_change (take 1 script)), (existsb is_change (take 2 script)); done.
Qed.

(** ** remove_excess_context *)

Lemma is_context_iff (s : str) : is_context s = true <-> context_line s.
Proof.
  unfold is_context, context_line. destruct s as [|c s].
  - split; [done|]. by intros [? ?].
  - change (starts_with (lit " ") (c :: s)) with (if Ascii.eqb " "%char c then true else false).
    destruct (Ascii.eqb_spec " "%char c) as [<-|Hne].
    + split; eauto.
    + split; [done|]. intros [s' E]. congruence.
Qed.

(** The blocks are runs of context lines, in order, with at least one line between them. *)
Inductive runs : nat -> list str -> list block -> Prop :=
| ru_nil off : runs off [] []
| ru_keep off line l bs : runs (S off) l bs -> runs off (line :: l) bs
| ru_end off run b :
    run <> [] -> Forall context_line run -> b_start b = off -> b_length b = length run ->
    b_take b <= b_length b -> runs off run [b]
| ru_block off run line l b bs :
    run <> [] -> Forall context_line run -> b_start b = off -> b_length b = length run ->
    b_take b <= b_length b -> runs (S (off + length run)) l bs -> runs off (run ++ line :: l) (b :: bs).

Lemma runs_all_kept (l : list str) : forall off, runs off l [].
Proof. induction l; intros off; constructor; auto. Qed.

Lemma runs_keep_many (run : list str) : forall off l bs,
  runs (off + length run) l bs -> runs off (run ++ l) bs.
Proof.
  induction run as [|x run IH]; intros off l bs H; cbn in *.
  - by rewrite Nat.add_0_r in H.
  - constructor. apply IH. by replace (S off + length run) with (off + S (length run)) by lia.
Qed.

Lemma runs_filter (off : nat) (l : list str) (bs : list block) :
  runs off l bs -> runs off l (filter (fun b => 0 < b_take b) bs).
Proof.
  induction 1 as [off|off line l bs H IH|off run b Hne Hc Hs Hl Ht|off run line l b bs Hne Hc Hs Hl Ht H IH].
  - constructor.
  - by constructor.
  - rewrite filter_cons. destruct (decide _); [by apply ru_end|apply runs_all_kept].
  - rewrite filter_cons. destruct (decide _); [by apply ru_block|].
    apply runs_keep_many. by constructor.
Qed.

Lemma find_blocks_runs (lines : list str) : forall off cur run,
  match cur with
  | Some b => run <> [] /\ Forall context_line run /\ b_start b + length run = off /\
              b_length b = length run /\ b_take b = 0
  | None => run = []
  end ->
  runs (off - length run) (run ++ lines) (find_blocks off cur lines) /\
  length run <= off + (match cur with None => 0 | Some _ => 0 end).
Proof.
  induction lines as [|line lines IH]; intros off cur run Hcur; cbn [find_blocks].
  - rewrite app_nil_r. destruct cur as [b|].
    + destruct Hcur as (Hne & Hc & Hs & Hl & Ht). split; [|lia]. apply ru_end; try done; lia.
    + rewrite Hcur. split; [constructor|cbn; lia].
  - destruct (is_context line) eqn:E.
    + apply is_context_iff in E.
      destruct (IH (S off)
        (Some (Block (b_start (default (Block off 0 0) cur)) (S (b_length (default (Block off 0 0) cur)))
                 (b_take (default (Block off 0 0) cur)))) (run ++ [line])) as [H1 H2].
      { rewrite app_length. cbn [b_start b_length b_take length]. destruct cur as [b|]; cbn [default id b_start b_length b_take].
        - destruct Hcur as (Hne & Hc & Hs & Hl & Ht). split_and!; try lia; [by destruct run|].
          apply Forall_app. split; [done|by constructor].
        - subst run. cbn. split_and!; try done; try lia. by constructor. }
      rewrite app_length in H1, H2. cbn [length] in H1, H2. rewrite <- app_assoc in H1. cbn [app] in H1.
      replace (S off - (length run + 1)) with (off - length run) in H1 by lia.
      split; [|lia]. by destruct cur.
    + destruct cur as [b|].
      * destruct Hcur as (Hne & Hc & Hs & Hl & Ht). split; [|lia].
        apply ru_block; try done; try lia.
        destruct (IH (S off) None [] eq_refl) as [H1 _]. cbn in H1.
        by replace (S (off - length run + length run)) with (S off) by lia.
      * subst run. cbn. split; [|lia]. constructor.
        destruct (IH (S off) None [] eq_refl) as [H1 _]. cbn in H1.
        by replace (S (off - 0)) with (S off) by lia.
Qed.

Definition ctx_count (l : list str) : nat := length (List.filter is_context l).
Definition taken (bs : list block) : nat := sum_list_with b_take bs.
Definition lengths (bs : list block) : nat := sum_list_with b_length bs.
Definition saved (bs : list block) : nat := sum_list_with (fun b => b_take b - 1) bs.

Lemma find_blocks_count (lines : list str) : forall off cur,
  lengths (find_blocks off cur lines) = ctx_count lines + match cur with Some b => b_length b | None => 0 end.
Proof.
  unfold lengths, ctx_count. induction lines as [|line lines IH]; intros off cur; cbn [find_blocks].
  - destruct cur; cbn; lia.
  - cbn [List.filter]. destruct (is_context line).
    + rewrite IH. cbn [b_length length]. destruct cur; cbn; lia.
    + destruct cur; cbn [sum_list_with]; rewrite IH; lia.
Qed.

Lemma find_blocks_take (lines : list str) : forall off cur,
  match cur with Some b => b_take b = 0 | None => True end ->
  Forall (fun b => b_take b = 0) (find_blocks off cur lines).
Proof.
  induction lines as [|line lines IH]; intros off cur Hcur; cbn [find_blocks].
  - destruct cur; repeat constructor. done.
  - destruct (is_context line).
    + apply IH. by destruct cur.
    + destruct cur; [constructor; [done|]|]; by apply IH.
Qed.

(** ** Choosing what to leave out *)

Lemma max_by_key_spec {A} (key : A -> nat) (l : list A) :
  match max_by_key key l with
  | None => l = []
  | Some (i, k) => exists x, l !! i = Some x /\ key x = k /\ Forall (fun y => key y <= k) l
  end.
Proof.
  induction l as [|x l IH]; cbn [max_by_key]; [done|].
  destruct (max_by_key key l) as [[i k]|].
  - destruct IH as (y & Hy & Hk & Hall). destruct (Nat.leb_spec (key x) k).
    + exists y. split_and!; [done|done|]. by constructor.
    + exists x. split_and!; [done|done|]. constructor; [done|].
      eapply Forall_impl; [exact Hall|]. cbn. lia.
  - subst l. exists x. split_and!; [done|done|]. repeat constructor.
Qed.

(** What the loop changes. *)
Inductive took : list block -> list block -> Prop :=
| tk_nil : took [] []
| tk_cons a b l l' :
    b_start a = b_start b -> b_length a = b_length b -> b_take a <= b_take b <= b_length b \/ a = b ->
    took l l' -> took (a :: l) (b :: l').

Lemma took_refl (l : list block) : took l l.
Proof. induction l; constructor; auto. Qed.

Lemma took_trans (a b c : list block) : took a b -> took b c -> took a c.
Proof.
  intros H. revert c. induction H as [|x y l l' Hs Hl Ht H IH]; intros c Hc; inversion Hc; subst; constructor.
  - congruence.
  - congruence.
  - destruct Ht as [Ht| ->], H4 as [Ht2| <-]; auto; left; lia.
  - auto.
Qed.

Lemma took_insert (l : list block) : forall i b,
  l !! i = Some b -> b_take b < b_length b ->
  took l (<[i := Block (b_start b) (b_length b) (S (b_take b))]> l).
Proof.
  induction l as [|x l IH]; intros [|i] b Hi Hb; cbn in *; try done.
  - injection Hi as ->. constructor; cbn; [done|done|lia|apply took_refl].
  - constructor; [done|done|by right|by apply IH].
Qed.

Lemma took_runs (off : nat) (l : list str) (bs bs' : list block) :
  runs off l bs -> took bs bs' -> runs off l bs'.
Proof.
  intros H. revert bs'. induction H as [off|off line l bs H IH|off run b Hne Hc Hs Hl Ht|
    off run line l b bs Hne Hc Hs Hl Ht H IH]; intros bs' Hb.
  - inversion Hb. constructor.
  - constructor. by apply IH.
  - inversion Hb as [|? b' ? l' Hs' Hl' Ht' Hb']; subst. inversion Hb'; subst.
    apply ru_end; try done; try congruence. destruct Ht' as [?| <-]; lia.
  - inversion Hb as [|? b' ? l' Hs' Hl' Ht' Hb']; subst.
    apply ru_block; try done; try congruence; [|by apply IH]. destruct Ht' as [?| <-]; lia.
Qed.

Lemma took_lengths (bs bs' : list block) : took bs bs' -> lengths bs = lengths bs'.
Proof. unfold lengths. induction 1; cbn; lia. Qed.

Lemma sum_insert (f : block -> nat) (l : list block) : forall i b b',
  l !! i = Some b -> sum_list_with f (<[i := b']> l) + f b = sum_list_with f l + f b'.
Proof.
  induction l as [|x l IH]; intros [|i] b b' Hi; cbn in *; try done.
  - injection Hi as ->. lia.
  - specialize (IH i b b' Hi). rewrite <- !Nat.add_assoc. f_equal. exact IH.
Qed.

Definition left_over (bs : list block) : nat := sum_list_with (fun b => b_length b - b_take b) bs.

Lemma reclaim_spec (fuel : nat) : forall (z : Z) (bs : list block),
  left_over bs < fuel ->
  let bs' := reclaim fuel z bs in
  took bs bs' /\
  (((0 < z)%Z -> (Z.of_nat (saved bs') <= Z.of_nat (saved bs) + z)%Z) /\ ((z <= 0)%Z -> bs' = bs)) /\
  ((Z.of_nat (saved bs') >= Z.of_nat (saved bs) + z)%Z \/ Forall (fun b => b_take b >= b_length b) bs').
Proof.
  induction fuel as [|fuel IH]; intros z bs Hf; [lia|]. cbn [reclaim].
  destruct (Z.ltb_spec 0 z) as [Hz|Hz].
  2: { cbn zeta. split; [apply took_refl|]. split; [split; [lia|done]|]. left. lia. }
  pose proof (max_by_key_spec (fun b => b_length b - b_take b) bs) as Hmax.
  destruct (max_by_key _ bs) as [[i [|k]]|].
  - destruct Hmax as (b & _ & _ & Hall). cbn zeta. split; [apply took_refl|]. split; [split; lia|].
    right. eapply Forall_impl; [exact Hall|]. cbn. lia.
  - destruct Hmax as (b & Hi & Hk & Hall). rewrite Hi.
    set (b1 := Block (b_start b) (b_length b) (S (b_take b))).
    set (z1 := if Nat.ltb 0 (b_take b) then (z - 1)%Z else z).
    assert (Htk : took bs (<[i := b1]> bs)) by (apply took_insert; [done|lia]).
    pose proof (sum_insert (fun b => b_length b - b_take b) bs i b b1 Hi) as Hleft.
    pose proof (sum_insert (fun b => b_take b - 1) bs i b b1 Hi) as Hsaved.
    cbn [b_take b_length b1] in Hleft, Hsaved.
    destruct (IH z1 (<[i := b1]> bs)) as (H1 & (H2 & H2') & H3); [unfold left_over in *; lia|].
    cbn zeta in *. split; [by eapply took_trans|].
    assert (Hz1 : (Z.of_nat (saved (<[i := b1]> bs)) + z1 = Z.of_nat (saved bs) + z)%Z).
    { unfold saved, z1 in *. destruct (Nat.ltb_spec 0 (b_take b)); lia. }
    split.
    + split; [|lia]. intros _. destruct (decide (0 < z1)%Z) as [Hp|Hp]; [specialize (H2 Hp); lia|].
      assert (0 <= z1)%Z by (unfold z1; destruct (Nat.ltb 0 (b_take b)); lia). rewrite H2' by lia. lia.
    + destruct H3 as [H3|H3]; [left; lia|by right].
  - subst bs. cbn zeta. split; [constructor|]. split; [split; lia|]. right. constructor.
Qed.

(** ** Putting the lines together *)

Lemma rebuild_keep (run : list str) : forall off b bs l,
  off + length run <= b_start b + (b_length b - b_take b) / 2 ->
  rebuild off (b :: bs) (run ++ l) = run ++ rebuild (off + length run) (b :: bs) l.
Proof.
  induction run as [|x run IH]; intros off b bs l H; cbn [app length] in *.
  - by rewrite Nat.add_0_r.
  - cbn [rebuild]. destruct (Nat.ltb_spec off (b_start b + (b_length b - b_take b) / 2)) as [_|?]; [|lia].
    f_equal. rewrite IH by lia. by replace (S off + length run) with (off + S (length run)) by lia.
Qed.

Lemma rebuild_skip (run : list str) : forall off b bs l,
  b_start b + (b_length b - b_take b) / 2 <= off ->
  off + length run <= b_start b + (b_length b - b_take b) / 2 + b_take b ->
  rebuild off (b :: bs) (run ++ l) = rebuild (off + length run) (b :: bs) l.
Proof.
  induction run as [|x run IH]; intros off b bs l H H'; cbn [app length] in *.
  - by rewrite Nat.add_0_r.
  - cbn [rebuild].
    destruct (Nat.ltb_spec off (b_start b + (b_length b - b_take b) / 2)) as [?|_]; [lia|].
    destruct (Nat.leb_spec (b_start b + (b_length b - b_take b) / 2 + b_take b) off) as [?|_]; [lia|].
    rewrite IH by lia. by replace (S off + length run) with (off + S (length run)) by lia.
Qed.

Lemma rebuild_none (l : list str) : forall off, rebuild off [] l = l.
Proof. induction l as [|x l IH]; intros off; cbn [rebuild]; [done|]. by rewrite IH. Qed.

(** A run is kept in front, left out, and kept behind. *)
Lemma split_run (run : list str) (b : block) :
  b_length b = length run -> b_take b <= b_length b ->
  let n := (b_length b - b_take b) / 2 in
  exists r1 r2 r3, run = r1 ++ r2 ++ r3 /\ length r1 = n /\ length r2 = b_take b /\
    length r3 = b_length b - b_take b - n /\ (r3 = [] -> r1 = []).
Proof.
  intros Hl Ht n.
  assert (Hn : n + (b_length b - b_take b - n) = b_length b - b_take b /\
               n <= b_length b - b_take b - n).
  { pose proof (Nat.div_mod (b_length b - b_take b) 2 ltac:(lia)) as Hd. fold n in Hd.
    pose proof (Nat.mod_upper_bound (b_length b - b_take b) 2 ltac:(lia)). lia. }
  exists (take n run), (take (b_take b) (drop n run)), (drop (b_take b) (drop n run)).
  rewrite !take_drop. rewrite !take_length, !drop_length. split_and!; try done; try lia.
  intros Hr. apply (f_equal length) in Hr. rewrite !drop_length in Hr. change (length (@nil str)) with 0 in Hr.
  apply nil_length_inv. rewrite take_length. lia.
Qed.

Lemma shortened_keep (run l l' : list str) : shortened l l' -> shortened (run ++ l) (run ++ l').
Proof. induction run; cbn; [done|]. intros. constructor. auto. Qed.

Lemma shortened_refl (l : list str) : shortened l l.
Proof. induction l; constructor; auto. Qed.

Lemma rebuild_spec (off : nat) (l : list str) (bs : list block) :
  runs off l bs -> Forall (fun b => 0 < b_take b) bs ->
  Forall (fun b => off <= b_start b) bs /\
  shortened l (rebuild off bs l) /\
  ctx_count (rebuild off bs l) + taken bs = ctx_count l /\
  (length (rebuild off bs l) + saved bs = length l \/
   length (rebuild off bs l) + saved bs + 1 = length l).
Proof.
  unfold ctx_count, taken, saved.
  assert (Hcx : forall r, Forall context_line r -> List.filter is_context r = r).
  { induction 1 as [|x r Hx _ IHr]; [done|]. cbn [List.filter]. apply is_context_iff in Hx. by rewrite Hx, IHr. }
  induction 1 as [off|off line l bs H IH|off run b Hne Hc Hs Hl Ht|off run line l b bs Hne Hc Hs Hl Ht H IH];
    intros Hp.
  - cbn. split_and!; try constructor; done.
  - destruct (IH Hp) as (Hoff & Hsh & Hct & Hlen). split_and!.
    + eapply Forall_impl; [exact Hoff|]. cbn. lia.
    + destruct bs as [|b bs]; [rewrite rebuild_none; apply shortened_refl|]. inversion Hoff; subst.
      cbn [rebuild]. destruct (Nat.ltb_spec off (b_start b + (b_length b - b_take b) / 2)); [|lia].
      by constructor.
    + destruct bs as [|b bs]; [rewrite rebuild_none; cbn; lia|]. inversion Hoff; subst.
      cbn [rebuild]. destruct (Nat.ltb_spec off (b_start b + (b_length b - b_take b) / 2)); [|lia].
      cbn [List.filter]. destruct (is_context line); cbn [length]; lia.
    + destruct bs as [|b bs]; [rewrite rebuild_none; cbn; lia|]. inversion Hoff; subst.
      cbn [rebuild]. destruct (Nat.ltb_spec off (b_start b + (b_length b - b_take b) / 2)); [|lia].
      cbn [length]. lia.
  - inversion Hp as [|? ? Hb _]; subst.
    destruct (split_run run b Hl Ht) as (r1 & r2 & r3 & -> & L1 & L2 & L3 & L4).
    assert (Hr : rebuild (b_start b) [b] (r1 ++ r2 ++ r3) =
      r1 ++ match r3 with [] => [] | x :: r => dots :: x :: r end).
    { rewrite rebuild_keep by lia. f_equal. rewrite rebuild_skip by lia.
      destruct r3 as [|x r3]; [done|]. cbn [rebuild].
      destruct (Nat.ltb_spec (b_start b + length r1 + length r2)
        (b_start b + (b_length b - b_take b) / 2)) as [?|_]; [lia|].
      destruct (Nat.leb_spec (b_start b + (b_length b - b_take b) / 2 + b_take b)
        (b_start b + length r1 + length r2)) as [_|?]; [|lia].
      by rewrite rebuild_none. }
    rewrite Hr. apply Forall_app in Hc as [C1 C23]. apply Forall_app in C23 as [C2 C3].
    assert (r2 <> []) as Hr2 by (intros ->; cbn in L2; lia).
    split_and!.
    + by constructor.
    + destruct r3 as [|x r3].
      * rewrite (L4 eq_refl). cbn. rewrite app_nil_r. by constructor.
      * apply shortened_keep. apply sh_cut; [done|done|apply shortened_refl].
    + rewrite !List.filter_app, !app_length, (Hcx r1 C1), (Hcx r2 C2), (Hcx r3 C3). cbn [sum_list_with].
      destruct r3 as [|x r3]; [cbn [List.filter length]; lia|].
      change (List.filter is_context (dots :: x :: r3)) with (List.filter is_context (x :: r3)).
      rewrite (Hcx _ C3). lia.
    + rewrite !app_length. cbn [sum_list_with]. destruct r3 as [|x r3]; cbn [length] in *; lia.
  - inversion Hp as [|? ? Hb Hp']; subst.
    destruct (IH Hp') as (Hoff & Hsh & Hct & Hlen).
    destruct (split_run run b Hl Ht) as (r1 & r2 & r3 & -> & L1 & L2 & L3 & L4).
    assert (Hkeep : forall r off', off' + length r <= b_start b + length (r1 ++ r2 ++ r3) ->
      rebuild off' bs (r ++ line :: l) = r ++ line :: rebuild (S (off' + length r)) bs l).
    { intros r off' Hlt. destruct bs as [|b2 bs]; [by rewrite !rebuild_none|]. inversion Hoff; subst.
      rewrite rebuild_keep by lia. f_equal. cbn [rebuild].
      destruct (Nat.ltb_spec (off' + length r) (b_start b2 + (b_length b2 - b_take b2) / 2)); [|lia]. done. }
    assert (Hr : rebuild (b_start b) (b :: bs) ((r1 ++ r2 ++ r3) ++ line :: l) =
      r1 ++ dots :: r3 ++ line :: rebuild (S (b_start b + length (r1 ++ r2 ++ r3))) bs l).
    { rewrite <- !app_assoc. rewrite rebuild_keep by lia. f_equal. rewrite rebuild_skip by lia.
      assert (Hlen' : length (r1 ++ r2 ++ r3) = length r1 + length r2 + length r3)
        by (rewrite !app_length; lia).
      destruct r3 as [|x r3]; cbn [app rebuild].
      - destruct (Nat.ltb_spec (b_start b + length r1 + length r2)
          (b_start b + (b_length b - b_take b) / 2)) as [?|_]; [lia|].
        destruct (Nat.leb_spec (b_start b + (b_length b - b_take b) / 2 + b_take b)
          (b_start b + length r1 + length r2)) as [_|?]; [|lia].
        rewrite Hlen'. cbn [length]. do 3 f_equal. lia.
      - destruct (Nat.ltb_spec (b_start b + length r1 + length r2)
          (b_start b + (b_length b - b_take b) / 2)) as [?|_]; [lia|].
        destruct (Nat.leb_spec (b_start b + (b_length b - b_take b) / 2 + b_take b)
          (b_start b + length r1 + length r2)) as [_|?]; [|lia].
        rewrite Hkeep by (rewrite Hlen'; cbn [length]; lia). rewrite Hlen'. cbn [length].
        do 5 f_equal. lia. }
    rewrite Hr. clear Hr Hkeep.
    set (tl := rebuild (S (b_start b + length (r1 ++ r2 ++ r3))) bs l) in *.
    apply Forall_app in Hc as [C1 C23]. apply Forall_app in C23 as [C2 C3].
    assert (r2 <> []) as Hr2 by (intros ->; cbn in L2; lia).
    split_and!.
    + constructor; [done|]. eapply Forall_impl; [exact Hoff|]. cbn. lia.
    + rewrite <- !app_assoc. apply shortened_keep.
      assert (shortened (r3 ++ line :: l) (r3 ++ line :: tl)) as Hs3
        by (apply shortened_keep; by constructor).
      destruct r3 as [|x r3]; cbn [app] in *; apply sh_cut; done.
    + rewrite !List.filter_app, !app_length. cbn [List.filter]. change (is_context dots) with false. cbn iota.
      rewrite !List.filter_app, !app_length, (Hcx r1 C1), (Hcx r2 C2), (Hcx r3 C3).
      cbn [sum_list_with List.filter].
      destruct (is_context line); cbn [length]; lia.
    + rewrite !app_length. cbn [length sum_list_with]. rewrite !app_length. cbn [length].
      lia.
Qed.

Lemma sum_filter (f : block -> nat) (bs : list block) :
  (forall b, b_take b = 0 -> f b = 0) ->
  sum_list_with f (filter (fun b => 0 < b_take b) bs) = sum_list_with f bs.
Proof.
  intros Hf. induction bs as [|b bs IH]; [done|]. rewrite filter_cons. destruct (decide _) as [?|Hn]; cbn.
  - lia.
  - rewrite IH, Hf by lia. done.
Qed.

Lemma lengths_ge (bs : list block) :
  Forall (fun b => b_take b >= b_length b) bs -> taken bs >= lengths bs.
Proof. unfold taken, lengths. induction 1; cbn; lia. Qed.

Lemma saved_zero (bs : list block) : Forall (fun b => b_take b = 0) bs -> saved bs = 0 /\ left_over bs = lengths bs.
Proof.
  unfold saved, left_over, lengths. induction 1 as [|b bs Hb _ [IH1 IH2]]; [done|]. cbn. lia.
Qed.

Lemma remove_spec (lines : list str) (max : nat) :
  let out := remove_excess_context lines max in
  shortened lines out /\
  (length lines <= max -> out = lines) /\
  (length out <= max \/ Forall (fun s => ~ context_line s) out) /\
  (max < length lines -> max <= length out + 1).
Proof.
  unfold remove_excess_context. cbn zeta.
  set (bs := find_blocks 0 None lines).
  destruct (find_blocks_runs lines 0 None [] eq_refl) as [Hruns _]. cbn [length app Nat.sub] in Hruns. fold bs in Hruns.
  pose proof (find_blocks_count lines 0 None) as Hcount. fold bs in Hcount. cbn in Hcount.
  pose proof (find_blocks_take lines 0 None I) as Htake. fold bs in Htake.
  destruct (saved_zero bs Htake) as [Hsv Hlo].
  assert (Hcl : ctx_count lines <= length lines).
  { unfold ctx_count. clear. induction lines as [|x l IH]; [done|]. cbn [List.filter].
    destruct (is_context x); cbn [length]; lia. }
  destruct (reclaim_spec (S (length lines)) (Z.of_nat (length lines) - Z.of_nat max) bs) as (H1 & [H2 H2'] & H3);
    [lia|]. cbn zeta in *.
  set (bs1 := reclaim _ _ bs) in *.
  pose proof (took_runs _ _ _ _ Hruns H1) as Hr1. apply runs_filter in Hr1.
  destruct (rebuild_spec 0 lines _ Hr1) as (_ & Hsh & Hct & Hlen).
  { apply Forall_forall. intros b Hb. by apply elem_of_list_filter in Hb as [? _]. }
  assert (taken (filter (fun b => 0 < b_take b) bs1) = taken bs1) as Et
    by (apply sum_filter; done).
  assert (saved (filter (fun b => 0 < b_take b) bs1) = saved bs1) as Es
    by (apply sum_filter; intros b ->; done).
  rewrite Et in Hct. rewrite Es in Hlen. split_and!.
  - done.
  - intros Hle. rewrite H2' by lia.
    assert (filter (fun b => 0 < b_take b) bs = []) as ->; [|apply rebuild_none].
    clear -Htake. induction Htake as [|b l Hb _ IH]; [done|]. rewrite filter_cons, IH.
    destruct (decide _); [lia|done].
  - destruct H3 as [H3|H3]; [left; lia|right].
    apply lengths_ge in H3. pose proof (took_lengths _ _ H1) as El.
    set (out := rebuild _ _ _) in *. assert (ctx_count out = 0) as H0 by lia.
    clear -H0. induction out as [|x out IH]; [constructor|]. unfold ctx_count in H0. cbn [List.filter] in H0.
    destruct (is_context x) eqn:E; [done|]. constructor; [|by apply IH].
    intros Hx. apply is_context_iff in Hx. congruence.
  - intros Hlt. specialize (H2 ltac:(lia)). lia.
Qed.
