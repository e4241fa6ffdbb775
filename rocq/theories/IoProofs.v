(** Proofs about messages and files. *)
From Coq Require Import NArith.
From Verif Require Import Base BaseFacts TextSpec Utf8Proofs TextModel TextFacts NamesProofs DepsModel DepsSpec DepsProofs
  IoModel IoSpec.

(** ** Messages *)

Lemma le_bytes_length k n : length (to_le_bytes k n) = k.
Proof. revert n. induction k as [|k IH]; intros n; [done|]. cbn [to_le_bytes length]. by rewrite IH. Qed.

Lemma le_bytes_round k n : (n < 256 ^ N.of_nat k)%N -> from_le_bytes (to_le_bytes k n) = n.
Proof.
  revert n. induction k as [|k IH]; intros n H.
  - cbn in *. lia.
  - cbn [to_le_bytes from_le_bytes].
    rewrite N_ascii_embedding by (apply N.mod_lt; lia).
    rewrite Nat2N.inj_succ, N.pow_succ_r' in H.
    rewrite IH by (apply N.div_lt_upper_bound; lia).
    rewrite N.add_comm. symmetry. apply N.div_mod. lia.
Qed.

Lemma read_exact_app n s t : n = N.of_nat (length s) -> read_exact n (s ++ t) = Some (s, t).
Proof.
  intros ->. unfold read_exact. rewrite app_length.
  assert (E : (N.of_nat (length s) <=? N.of_nat (length s + length t))%N = true) by (apply N.leb_le; lia).
  rewrite E, Nat2N.id. by rewrite take_app, drop_app.
Qed.

Lemma read_exact_short n s : (N.of_nat (length s) < n)%N -> read_exact n s = None.
Proof.
  intros H. unfold read_exact. destruct (N.leb_spec n (N.of_nat (length s))) as [L|L]; [lia|done].
Qed.

Section messages.
  Context {V : Type} (to_string : V -> str) (from_str : str -> option V).
  Context (Hcodec : codec to_string from_str).

  Lemma read_written v s : read_from_stream from_str (write_to_stream to_string v ++ s) = Some (v, s).
  Proof.
    destruct (Hcodec v) as (H1 & H2%utf8_valid_spec & H3). unfold read_from_stream, write_to_stream.
    rewrite <- app_assoc, read_exact_app by by rewrite le_bytes_length.
    rewrite le_bytes_round by done. rewrite read_exact_app by done. by rewrite H2, H1.
  Qed.

  Lemma reads_written vs s : reads from_str (concat (map (write_to_stream to_string) vs) ++ s) vs s.
  Proof.
    induction vs as [|v vs IH]; cbn [map concat]; [constructor|].
    rewrite <- app_assoc. econstructor; [apply read_written|done].
  Qed.

  Lemma read_cut v s t : write_to_stream to_string v = s ++ t -> t <> [] -> read_from_stream from_str s = None.
  Proof.
    intros H Ht. destruct (Hcodec v) as (_ & _ & H3). unfold read_from_stream.
    unfold write_to_stream in H.
    destruct (decide (length s < 8)) as [L|L].
    - rewrite read_exact_short; [done|]. lia.
    - set (b := to_le_bytes 8 (N.of_nat (length (to_string v)))) in *.
      assert (Hb : length b = 8) by apply le_bytes_length.
      assert (X : exists s', s = b ++ s').
      { exists (drop 8 s). rewrite <- (take_drop 8 s) at 1. f_equal.
        apply (f_equal (take 8)) in H. rewrite take_app_le in H by lia.
        rewrite take_app_le in H by lia. rewrite (take_ge b) in H by lia. congruence. }
      destruct X as [s' ->]. rewrite <- app_assoc in H. apply app_inv_head in H.
      rewrite read_exact_app by by rewrite Hb.
      unfold b. rewrite le_bytes_round by done.
      rewrite read_exact_short; [done|]. rewrite H, app_length.
      destruct t; [done|]. cbn [length]. lia.
  Qed.

  Lemma cut_stream vs s t :
    concat (map (write_to_stream to_string) vs) = s ++ t -> t <> [] ->
    exists vs1 v vs2 rest, vs = vs1 ++ v :: vs2 /\ reads from_str s vs1 rest /\ read_from_stream from_str rest = None.
  Proof.
    revert s. induction vs as [|v vs IH]; intros s H Ht.
    - cbn in H. destruct s, t; done.
    - cbn [map concat] in H. apply app_eq_inv in H as [(m & Hm & Hc)|(m & Hm & Hc)].
      + destruct (decide (m = [])) as [->|Hne].
        * rewrite app_nil_r in Hm. cbn in Hc. symmetry in Hc. subst t.
          assert (Hc : concat (map (write_to_stream to_string) vs) = [] ++ concat (map (write_to_stream to_string) vs)) by done.
          destruct (IH _ Hc Ht) as (vs1 & v' & vs2 & rest & -> & Hr & Hn).
          exists (v :: vs1), v', vs2, rest. split; [done|]. split; [|done].
          rewrite <- Hm. rewrite <- (app_nil_r (write_to_stream _ _)).
          econstructor; [apply read_written|done].
        * exists [], v, vs, s. split; [done|]. split; [constructor|]. by apply (read_cut v s m).
      + destruct (IH _ Hc Ht) as (vs1 & v' & vs2 & rest & -> & Hr & Hn).
        exists (v :: vs1), v', vs2, rest. split; [done|]. split; [|done].
        rewrite Hm. econstructor; [apply read_written|done].
  Qed.
End messages.

(** ** Temporary names *)

Lemma split_name_spec dir name :
  (dir = [] \/ exists d, dir = d ++ lit "/") -> "/"%char ∉ name -> split_name (dir ++ name) = (dir, name).
Proof.
  intros Hd Hn.
  assert (K : split_name name = ([], name)).
  { clear Hd. induction name as [|c name IH]; [done|]. apply not_elem_of_cons in Hn as [Hc Hn].
    cbn [split_name]. rewrite IH by done. destruct (Ascii.eqb c "/") eqn:E; [|done].
    apply ascii_eqb_spec in E. congruence. }
  destruct Hd as [->|[d ->]]; [done|].
  induction d as [|c d IH]; cbn [app].
  - change (lit "/" ++ name) with ("/"%char :: name). cbn [split_name]. by rewrite K, Ascii.eqb_refl.
  - cbn [split_name]. rewrite IH. destruct (Ascii.eqb c "/"); [done|].
    destruct (d ++ lit "/") as [|x y] eqn:E; [|done]. by destruct d.
Qed.

Lemma temporary_spec path tmp : temporary path tmp -> with_extension path (lit "tmp") = tmp.
Proof.
  intros [dir stem ext Hd Hs1 Hs2 He1 He2 Hdd|dir name Hd Hn1 Hn2 Hn3 Hno]; unfold with_extension.
  - rewrite split_name_spec; [|done|].
    2:{ rewrite !not_elem_of_app. split; [done|]. split; [|done]. vm_compute. by intros ?%elem_of_list_singleton. }
    destruct (mem_str (stem ++ lit "." ++ ext) [[]; lit "."; lit ".."]) eqn:E.
    { apply mem_str_spec in E. repeat (apply elem_of_cons in E as [E|E]); [by destruct stem| |done|by apply elem_of_nil in E].
      destruct stem as [|c [|d stem]]; done. }
    assert (X : after_last_dot (tl (stem ++ lit "." ++ ext)) = Some ext).
    { apply after_last_dot_some. destruct stem as [|c stem]; [done|]. exists stem. done. }
    rewrite X. f_equal. rewrite !app_length. change (length (lit ".")) with 1.
    rewrite take_app_alt by lia. done.
  - rewrite split_name_spec by done.
    destruct (mem_str name [[]; lit "."; lit ".."]) eqn:E.
    { apply mem_str_spec in E. repeat (apply elem_of_cons in E as [E|E]); [done|done| |by apply elem_of_nil in E].
      destruct (Hno (lit ".") []); [done|]. by rewrite E. }
    destruct (after_last_dot (tl name)) as [e|] eqn:X; [|done].
    apply after_last_dot_some in X as (a & Ha & _). destruct name as [|c name]; [done|]. cbn in Ha.
    destruct (Hno (c :: a) e); [done|]. by rewrite Ha.
Qed.

(** ** Files *)

Lemma fs_create_spec f p i f' :
  tidy f -> fs_create f p = (i, f') ->
  tidy f' /\ fs_names f' !! p = Some i /\ fs_data f' !! i = Some [] /\
  (forall q, q <> p -> fs_names f' !! q = fs_names f !! q /\ fs_names f !! q <> Some i) /\
  (forall j, j <> i -> fs_data f' !! j = fs_data f !! j) /\
  (fs_names f !! p = Some i \/ fs_data f !! i = None).
Proof.
  intros [Ht1 Ht2]. unfold fs_create. destruct (fs_names f !! p) as [j|] eqn:E.
  - intros [= <- <-]. cbn [fs_names fs_data]. split.
    { split; [done|]. cbn [fs_names fs_data]. intros q k Hq. destruct (decide (k = j)) as [->|Hk].
      - rewrite lookup_insert. by eexists.
      - rewrite lookup_insert_ne by congruence. eauto. }
    split; [done|]. split; [apply lookup_insert|]. split.
    { intros q Hq. split; [done|]. intros Hq'. by apply Hq, (Ht1 q p j). }
    split; [|by left]. intros k Hk. by rewrite lookup_insert_ne by congruence.
  - set (X := dom (fs_data f) ∪ list_to_set (map snd (map_to_list (fs_names f)))).
    intros [= <- <-]. cbn [fs_names fs_data].
    assert (Hf : fresh X ∉ X) by apply is_fresh. set (k := fresh X) in *.
    assert (Hk1 : fs_data f !! k = None).
    { apply not_elem_of_dom. intros H. apply Hf. apply elem_of_union. by left. }
    assert (Hk2 : forall q, fs_names f !! q <> Some k).
    { intros q Hq. apply Hf, elem_of_union. right. apply elem_of_list_to_set, elem_of_list_fmap.
      exists (q, k). split; [done|]. by apply elem_of_map_to_list. }
    split.
    { split; cbn [fs_names fs_data].
      - intros q1 q2 j. destruct (decide (q1 = p)) as [->|H1], (decide (q2 = p)) as [->|H2];
          rewrite ?lookup_insert; rewrite ?lookup_insert_ne by congruence; try done.
        + intros [= <-] H. by destruct (Hk2 q2).
        + intros H [= <-]. by destruct (Hk2 q1).
        + apply Ht1.
      - intros q j. destruct (decide (q = p)) as [->|Hq].
        + rewrite lookup_insert. intros [= <-]. rewrite lookup_insert. by eexists.
        + rewrite lookup_insert_ne by congruence. intros H. destruct (decide (j = k)) as [->|Hj].
          * rewrite lookup_insert. by eexists.
          * rewrite lookup_insert_ne by congruence. eauto. }
    split; [apply lookup_insert|]. split; [apply lookup_insert|]. split.
    { intros q Hq. rewrite lookup_insert_ne by congruence. done. }
    split; [|by right]. intros j Hj. by rewrite lookup_insert_ne by congruence.
Qed.

Lemma write_at_end old piece : write_at old (length old) piece = old ++ piece.
Proof.
  unfold write_at. rewrite take_ge by lia. rewrite Nat.sub_diag. cbn [replicate app].
  rewrite drop_ge by lia. by rewrite app_nil_r.
Qed.

(** The same with the function. *)
Definition separate_m (jobs : list (str * list str)) : Prop :=
  NoDup (map (fun j => with_extension j.1 (lit "tmp")) jobs) /\
  forall j k, j ∈ jobs -> k ∈ jobs -> with_extension j.1 (lit "tmp") <> k.1.

Definition not_temporary_m (jobs : list (str * list str)) (path : str) : Prop :=
  forall j, j ∈ jobs -> with_extension j.1 (lit "tmp") <> path.

Lemma tmps_fun (jobs : list (str * list str)) tmps :
  Forall2 (fun j tmp => temporary j.1 tmp) jobs tmps -> map (fun j => with_extension j.1 (lit "tmp")) jobs = tmps.
Proof.
  induction 1 as [|j t jobs tmps H _ IH]; [done|]. cbn [map]. rewrite IH. f_equal. by apply temporary_spec.
Qed.

Lemma separate_to_m jobs : separate jobs -> separate_m jobs.
Proof.
  intros (tmps & H & Hnd & Hd). apply tmps_fun in H as <-. split; [done|].
  intros j k Hj Hk. apply Hd; [|done]. apply elem_of_list_fmap. by exists j.
Qed.

Lemma not_temporary_to_m jobs path : separate jobs -> not_temporary jobs path -> not_temporary_m jobs path.
Proof.
  intros (tmps & H & _) Hn j Hj Heq. apply elem_of_list_lookup in Hj as [n Hj].
  destruct (Forall2_lookup_l _ _ _ _ _ H Hj) as (t & Ht & Htmp).
  destruct (Hn j); [by eapply elem_of_list_lookup_2|]. apply temporary_spec in Htmp as E. congruence.
Qed.

(** What holds while the jobs run. *)
Record running (jobs : list (str * list str)) (f0 : fs) (s : fs * list writer) : Prop := {
  run_tidy : tidy s.1;
  run_jobs : map (fun w => (w_path w, w_pieces w)) s.2 = jobs;
  run_writing n w i off rest :
    s.2 !! n = Some w -> w_progress w = Writing i off rest ->
    fs_names s.1 !! w_tmp w = Some i /\
    exists written, w_pieces w = written ++ rest /\ fs_data s.1 !! i = Some (concat written) /\
      off = length (concat written);
  run_content path : not_temporary_m jobs path ->
    content s.1 path = content f0 path \/
    exists pieces, (path, pieces) ∈ jobs /\ content s.1 path = Some (concat pieces);
  run_finished n w :
    s.2 !! n = Some w -> w_progress w = Finished ->
    fs_names s.1 !! w_tmp w = None /\
    ((forall m w', s.2 !! m = Some w' -> w_path w' = w_path w -> m = n) ->
     content s.1 (w_path w) = Some (concat (w_pieces w)))
}.

Lemma tmp_inj jobs ws n m w w' :
  map (fun w => (w_path w, w_pieces w)) ws = jobs -> separate_m jobs ->
  ws !! n = Some w -> ws !! m = Some w' -> w_tmp w = w_tmp w' -> n = m.
Proof.
  intros <- [Hnd _] Hn Hm He. eapply NoDup_lookup; [exact Hnd| |].
  - rewrite map_map. apply list_lookup_fmap_Some. exists w. split; [exact Hn|done].
  - rewrite map_map. apply list_lookup_fmap_Some. exists w'. split; [exact Hm|done].
Qed.

Lemma tmp_not_path jobs ws n m w w' :
  map (fun w => (w_path w, w_pieces w)) ws = jobs -> separate_m jobs ->
  ws !! n = Some w -> ws !! m = Some w' -> w_tmp w <> w_path w'.
Proof.
  intros <- [_ Hs] Hn Hm. apply (Hs (w_path w, w_pieces w) (w_path w', w_pieces w')).
  - apply elem_of_list_fmap. exists w. split; [done|]. by eapply elem_of_list_lookup_2.
  - apply elem_of_list_fmap. exists w'. split; [done|]. by eapply elem_of_list_lookup_2.
Qed.

Lemma tmp_not_temporary_m jobs ws n w path :
  map (fun w => (w_path w, w_pieces w)) ws = jobs -> ws !! n = Some w -> not_temporary_m jobs path -> w_tmp w <> path.
Proof.
  intros <- Hn H. apply (H (w_path w, w_pieces w)).
  apply elem_of_list_fmap. exists w. split; [done|]. by eapply elem_of_list_lookup_2.
Qed.

Lemma path_not_temporary_m jobs ws n w :
  map (fun w => (w_path w, w_pieces w)) ws = jobs -> separate_m jobs -> ws !! n = Some w ->
  not_temporary_m jobs (w_path w).
Proof.
  intros <- [_ Hs] Hn j Hj. apply (Hs j (w_path w, w_pieces w) Hj).
  apply elem_of_list_fmap. exists w. split; [done|]. by eapply elem_of_list_lookup_2.
Qed.

Lemma jobs_update (ws : list writer) n w w' :
  ws !! n = Some w -> w_path w' = w_path w -> w_pieces w' = w_pieces w ->
  map (fun w => (w_path w, w_pieces w)) (<[n := w']> ws) = map (fun w => (w_path w, w_pieces w)) ws.
Proof.
  intros Hn H1 H2. rewrite list_fmap_insert. apply list_insert_id.
  rewrite list_lookup_fmap, Hn. cbn. by rewrite H1, H2.
Qed.

Lemma same_paths (ws : list writer) n w w' :
  ws !! n = Some w -> w_path w' = w_path w ->
  forall m v, ws !! m = Some v -> exists v', <[n := w']> ws !! m = Some v' /\ w_path v' = w_path v.
Proof.
  intros Hn Hp m v Hm. destruct (decide (m = n)) as [->|Hne].
  - exists w'. rewrite list_lookup_insert by by eapply lookup_lt_Some. split; [done|]. congruence.
  - exists v. by rewrite list_lookup_insert_ne by congruence.
Qed.

Lemma running_advance jobs f0 s n :
  separate_m jobs -> running jobs f0 s -> running jobs f0 (sys_step s (Advance n)).
Proof.
  intros Hsep R. destruct s as [f ws]. unfold sys_step. cbn [fst snd].
  destruct (ws !! n) as [w|] eqn:Hn; [|done].
  pose proof (run_tidy _ _ _ R) as Htidy. pose proof (run_jobs _ _ _ R) as Hjobs. cbn [fst snd] in *.
  assert (Hlt : n < length ws) by by eapply lookup_lt_Some.
  unfold w_step. destruct (w_progress w) as [|i off [|piece rest]| |] eqn:Hpr.
  - (* open *)
    destruct (fs_create f (w_tmp w)) as [i f'] eqn:Hc.
    destruct (fs_create_spec _ _ _ _ Htidy Hc) as (Ht & Hname & Hdata & Hq & Hj & _).
    set (w' := Writer (w_path w) (w_pieces w) (Writing i 0 (w_pieces w))).
    assert (Hcont : forall path, path <> w_tmp w -> content f' path = content f path).
    { intros path Hp. unfold content. destruct (Hq path Hp) as [-> Hne].
      destruct (fs_names f !! path) as [j|]; [|done]. apply Hj. congruence. }
    constructor; cbn [fst snd].
    + done.
    + by rewrite (jobs_update ws n w w').
    + intros m v j off rest Hm Hv. destruct (decide (m = n)) as [->|Hne].
      * rewrite list_lookup_insert in Hm by done. injection Hm as <-. injection Hv as <- <- <-.
        split; [exact Hname|]. exists []. done.
      * rewrite list_lookup_insert_ne in Hm by congruence.
        destruct (run_writing _ _ _ R m v j off rest Hm Hv) as (H1 & wr & H2 & H3 & H4). cbn [fst snd] in *.
        assert (Hd : w_tmp v <> w_tmp w) by (intros He; apply Hne; by eapply (tmp_inj jobs ws)).
        destruct (Hq _ Hd) as [-> Hni]. split; [done|]. exists wr. split; [done|]. split; [|done].
        rewrite Hj; [done|]. congruence.
    + intros path Hp. rewrite Hcont; [by apply (run_content _ _ _ R)|].
      intros ->. by eapply (tmp_not_temporary_m jobs ws n w).
    + intros m v Hm Hv. destruct (decide (m = n)) as [->|Hne].
      * rewrite list_lookup_insert in Hm by done. injection Hm as <-. done.
      * rewrite list_lookup_insert_ne in Hm by congruence.
        destruct (run_finished _ _ _ R m v Hm Hv) as (H1 & H2). cbn [fst snd] in *.
        assert (Hd : w_tmp v <> w_tmp w) by (intros He; apply Hne; by eapply (tmp_inj jobs ws)).
        destruct (Hq _ Hd) as [-> _]. split; [done|]. intros Huniq. rewrite Hcont.
        -- apply H2. intros k u Hk Hu.
           destruct (same_paths ws n w w' Hn eq_refl k u Hk) as (u' & Hk' & Hu'). apply (Huniq k u' Hk'). congruence.
        -- intros He. by eapply (tmp_not_path jobs ws n m w v).
  - (* rename *)
    destruct (run_writing _ _ _ R n w i off [] Hn Hpr) as (H1 & wr & H2 & H3 & H4). cbn [fst snd] in *.
    rewrite app_nil_r in H2. unfold fs_rename. rewrite H1.
    assert (Hne : w_tmp w <> w_path w) by by eapply (tmp_not_path jobs ws n n).
    rewrite bool_decide_false by done.
    set (w' := Writer (w_path w) (w_pieces w) Finished).
    set (f' := Fs (<[w_path w := i]> (delete (w_tmp w) (fs_names f))) (fs_data f)).
    destruct Htidy as [Ht1 Ht2].
    assert (Hother : forall q, q <> w_tmp w -> q <> w_path w -> fs_names f' !! q = fs_names f !! q).
    { intros q Hq1 Hq2. unfold f'. cbn [fs_names]. by rewrite lookup_insert_ne, lookup_delete_ne by congruence. }
    assert (Htmp : fs_names f' !! w_tmp w = None).
    { unfold f'. cbn [fs_names]. by rewrite lookup_insert_ne, lookup_delete by congruence. }
    assert (Hpath : fs_names f' !! w_path w = Some i).
    { unfold f'. cbn [fs_names]. by rewrite lookup_insert. }
    constructor; cbn [fst snd].
    + assert (Hback : forall q j, fs_names f' !! q = Some j -> q = w_path w /\ j = i \/ q <> w_path w /\ fs_names f !! q = Some j /\ q <> w_tmp w).
      { intros q j Hq. destruct (decide (q = w_path w)) as [->|Hq1].
        - left. split; [done|]. congruence.
        - right. split; [done|]. destruct (decide (q = w_tmp w)) as [->|Hq2]; [congruence|].
          by rewrite Hother in Hq. }
      split.
      * intros p q j Hp Hq. destruct (Hback _ _ Hp) as [[-> ->]|(Hp1 & Hp2 & Hp3)], (Hback _ _ Hq) as [[-> Hj]|(Hq1 & Hq2 & Hq3)].
        -- done.
        -- destruct Hq3. by eapply Ht1.
        -- subst j. destruct Hp3. by eapply Ht1.
        -- by eapply Ht1.
      * intros q j Hq. destruct (Hback _ _ Hq) as [[-> ->]|(Hp1 & Hp2 & Hp3)]; [|by apply (Ht2 q)].
        unfold f'. cbn [fs_data]. rewrite H3. by eexists.
    + by rewrite (jobs_update ws n w w').
    + intros m v j off' rest Hm Hv. destruct (decide (m = n)) as [->|Hne2].
      * rewrite list_lookup_insert in Hm by done. injection Hm as <-. done.
      * rewrite list_lookup_insert_ne in Hm by congruence.
        destruct (run_writing _ _ _ R m v j off' rest Hm Hv) as (K1 & K2). cbn [fst snd] in *.
        split; [|done]. rewrite Hother; [done| |].
        -- intros He. apply Hne2. by eapply (tmp_inj jobs ws).
        -- by eapply (tmp_not_path jobs ws m n).
    + intros path Hp. destruct (decide (path = w_path w)) as [->|Hpp].
      * right. exists (w_pieces w). split.
        -- rewrite <- Hjobs. apply elem_of_list_fmap. exists w. split; [done|]. by eapply elem_of_list_lookup_2.
        -- unfold content. rewrite Hpath. unfold f'. cbn [fs_data]. by rewrite H3, H2.
      * assert (Hpt : path <> w_tmp w) by (intros ->; by eapply (tmp_not_temporary_m jobs ws n w)).
        unfold content at 1 3. rewrite Hother by done. apply (run_content _ _ _ R path Hp).
    + intros m v Hm Hv. destruct (decide (m = n)) as [->|Hne2].
      * rewrite list_lookup_insert in Hm by done. injection Hm as <-. cbn [w_path w_pieces]. split; [done|].
        intros _. unfold content, w'. cbn [w_path w_pieces]. rewrite Hpath. unfold f'. cbn [fs_data]. by rewrite H3, H2.
      * rewrite list_lookup_insert_ne in Hm by congruence.
        destruct (run_finished _ _ _ R m v Hm Hv) as (K1 & K2). cbn [fst snd] in *.
        split.
        -- destruct (decide (w_tmp v = w_tmp w)) as [He|He]; [by rewrite He|].
           rewrite Hother; [done|done|]. by eapply (tmp_not_path jobs ws m n).
        -- intros Huniq. destruct (decide (w_path v = w_path w)) as [He|He].
           ++ destruct Hne2. symmetry. apply (Huniq n w'); [|done]. by rewrite list_lookup_insert by done.
           ++ unfold content. rewrite Hother; [|by apply not_eq_sym; eapply (tmp_not_path jobs ws n m)|done].
              apply K2. intros k u Hk Hu.
              destruct (same_paths ws n w w' Hn eq_refl k u Hk) as (u' & Hk' & Hu'). apply (Huniq k u' Hk'). congruence.
  - (* write *)
    destruct (run_writing _ _ _ R n w i off (piece :: rest) Hn Hpr) as (H1 & wr & H2 & H3 & H4). cbn [fst snd] in *.
    unfold fs_write. rewrite H3. cbn [default]. rewrite H4, write_at_end.
    set (w' := Writer _ _ _). set (f' := Fs _ _). destruct Htidy as [Ht1 Ht2].
    assert (Hcont : forall path, path <> w_tmp w -> content f' path = content f path).
    { intros path Hp. unfold content, f'. cbn [fs_names fs_data].
      destruct (fs_names f !! path) as [j|] eqn:Hj; [|done].
      rewrite lookup_insert_ne; [done|]. intros <-. apply Hp. by eapply Ht1. }
    constructor; cbn [fst snd].
    + split; [done|]. intros q j Hq. unfold f'. cbn [fs_data]. destruct (decide (j = i)) as [->|Hj].
      * rewrite lookup_insert. by eexists.
      * rewrite lookup_insert_ne by congruence. by eapply Ht2.
    + by rewrite (jobs_update ws n w w').
    + intros m v j off' rest' Hm Hv. destruct (decide (m = n)) as [->|Hne].
      * rewrite list_lookup_insert in Hm by done. injection Hm as <-. injection Hv as <- <- <-.
        split; [done|]. exists (wr ++ [piece]). cbn [w_pieces]. rewrite <- app_assoc. split; [done|].
        unfold f'. cbn [fs_data]. rewrite lookup_insert, concat_app. cbn [concat]. rewrite app_nil_r.
        split; [done|]. by rewrite app_length.
      * rewrite list_lookup_insert_ne in Hm by congruence.
        destruct (run_writing _ _ _ R m v j off' rest' Hm Hv) as (K1 & wr' & K2 & K3 & K4). cbn [fst snd] in *.
        split; [done|]. exists wr'. split; [done|]. split; [|done]. unfold f'. cbn [fs_data].
        rewrite lookup_insert_ne; [done|]. intros <-. apply Hne. eapply (tmp_inj jobs ws); [done|done|done|done|].
        by eapply Ht1.
    + intros path Hp. rewrite Hcont; [by apply (run_content _ _ _ R)|].
      intros ->. by eapply (tmp_not_temporary_m jobs ws n w).
    + intros m v Hm Hv. destruct (decide (m = n)) as [->|Hne].
      * rewrite list_lookup_insert in Hm by done. injection Hm as <-. done.
      * rewrite list_lookup_insert_ne in Hm by congruence.
        destruct (run_finished _ _ _ R m v Hm Hv) as (K1 & K2). cbn [fst snd] in *.
        split; [done|]. intros Huniq. rewrite Hcont.
        -- apply K2. intros k u Hk Hu.
           destruct (same_paths ws n w w' Hn eq_refl k u Hk) as (u' & Hk' & Hu'). apply (Huniq k u' Hk'). congruence.
        -- intros He. by eapply (tmp_not_path jobs ws n m w v).
  - by rewrite list_insert_id.
  - by rewrite list_insert_id.
Qed.

Lemma running_stop jobs f0 s n :
  running jobs f0 s -> running jobs f0 (sys_step s (Stop n)).
Proof.
  intros R. destruct s as [f ws]. unfold sys_step. cbn [fst snd].
  destruct (ws !! n) as [w|] eqn:Hn; [|done].
  set (w' := Writer (w_path w) (w_pieces w) Stopped).
  assert (Hlt : n < length ws) by by eapply lookup_lt_Some.
  assert (X : running jobs f0 (f, <[n := w']> ws)).
  { constructor; cbn [fst snd].
    - apply (run_tidy _ _ _ R).
    - rewrite (jobs_update ws n w w') by done. apply (run_jobs _ _ _ R).
    - intros m v j off rest Hm Hv. destruct (decide (m = n)) as [->|Hne].
      + rewrite list_lookup_insert in Hm by done. injection Hm as <-. done.
      + rewrite list_lookup_insert_ne in Hm by congruence. by apply (run_writing _ _ _ R m v j off rest).
    - apply (run_content _ _ _ R).
    - intros m v Hm Hv. destruct (decide (m = n)) as [->|Hne].
      + rewrite list_lookup_insert in Hm by done. injection Hm as <-. done.
      + rewrite list_lookup_insert_ne in Hm by congruence.
        destruct (run_finished _ _ _ R m v Hm Hv) as (K1 & K2). split; [done|]. intros Huniq. apply K2.
        intros k u Hk Hu. destruct (same_paths ws n w w' Hn eq_refl k u Hk) as (u' & Hk' & Hu').
        apply (Huniq k u' Hk'). congruence. }
  by destruct (w_progress w).
Qed.

Lemma running_run jobs f0 s es : separate_m jobs -> running jobs f0 s -> running jobs f0 (sys_run s es).
Proof.
  intros Hs. unfold sys_run. revert s. induction es as [|e es IH]; intros s R; [done|]. cbn [fold_left].
  apply IH. destruct e; [by apply running_advance|by apply running_stop].
Qed.

Lemma running_start jobs f : tidy f -> running jobs f (f, start jobs).
Proof.
  intros H. constructor; cbn [fst snd].
  - done.
  - unfold start. rewrite map_map. cbn. rewrite <- (map_id jobs) at 2. apply map_ext. by intros [].
  - intros n w i off rest Hn Hw. unfold start in Hn. apply list_lookup_fmap_Some in Hn as (j & _ & ->). done.
  - intros path Hp. by left.
  - intros n w Hn Hw. unfold start in Hn. apply list_lookup_fmap_Some in Hn as (j & _ & ->). done.
Qed.

(** A file under a name that is not temporary is never written again. *)
Definition settled (jobs : list (str * list str)) (f : fs) (i : nat) : Prop :=
  is_Some (fs_data f !! i) /\ forall p, fs_names f !! p = Some i -> not_temporary_m jobs p.

Lemma settled_step jobs f0 s e i :
  separate_m jobs -> running jobs f0 s -> settled jobs s.1 i ->
  settled jobs (sys_step s e).1 i /\ fs_data (sys_step s e).1 !! i = fs_data s.1 !! i.
Proof.
  intros Hsep R [[d Hd] Hi]. destruct s as [f ws].
  pose proof (run_tidy _ _ _ R) as Htidy. pose proof (run_jobs _ _ _ R) as Hjobs. cbn [fst snd] in *.
  unfold sys_step. cbn [fst snd]. destruct e as [n|n]; destruct (ws !! n) as [w|] eqn:Hn.
  - unfold w_step. destruct (w_progress w) as [|j off [|piece rest]| |] eqn:Hpr.
    + destruct (fs_create f (w_tmp w)) as [j f'] eqn:Hc.
      destruct (fs_create_spec _ _ _ _ Htidy Hc) as (Ht & Hname & Hdata & Hq & Hj & Hor). cbn [fst snd].
      assert (Hij : i <> j).
      { intros <-. destruct Hor as [H|H]; [|congruence]. by apply (tmp_not_temporary_m jobs ws n w (w_tmp w) Hjobs Hn (Hi _ H)). }
      unfold settled. rewrite Hj by done. split; [|done]. split; [by eexists|]. intros p Hp.
      destruct (decide (p = w_tmp w)) as [->|Hne]; [congruence|]. apply Hi. by destruct (Hq p Hne) as [<- _].
    + destruct (run_writing _ _ _ R n w j off [] Hn Hpr) as (H1 & _). cbn [fst snd] in *.
      unfold fs_rename. rewrite H1. destruct (bool_decide (w_tmp w = w_path w)) eqn:E; cbn [fst snd].
      * split; [|done]. split; [by eexists|done].
      * apply bool_decide_eq_false in E. cbn [fs_data]. split; [|done]. split; [by eexists|]. cbn [fs_names fs_data].
        intros p. destruct (decide (p = w_path w)) as [->|Hne].
        -- intros _. by eapply (path_not_temporary_m jobs ws n w).
        -- rewrite lookup_insert_ne by congruence. intros [_ Hp]%lookup_delete_Some. by apply Hi.
    + destruct (run_writing _ _ _ R n w j off (piece :: rest) Hn Hpr) as (H1 & _). cbn [fst snd] in *.
      unfold fs_write, settled. cbn [fs_data fs_names].
      assert (Hij : j <> i) by (intros ->; by apply (tmp_not_temporary_m jobs ws n w (w_tmp w) Hjobs Hn (Hi _ H1))).
      rewrite lookup_insert_ne by done. split; [|done]. split; [by eexists|done].
    + cbn [fst]. split; [|done]. split; [by eexists|done].
    + cbn [fst]. split; [|done]. split; [by eexists|done].
  - cbn [fst]. split; [|done]. split; [by eexists|done].
  - destruct (w_progress w); cbn [fst]; (split; [|done]); (split; [by eexists|done]).
  - cbn [fst]. split; [|done]. split; [by eexists|done].
Qed.

Lemma settled_run jobs f0 s es i :
  separate_m jobs -> running jobs f0 s -> settled jobs s.1 i -> fs_data (sys_run s es).1 !! i = fs_data s.1 !! i.
Proof.
  intros Hsep. unfold sys_run. revert s. induction es as [|e es IH]; intros s R Hi; [done|]. cbn [fold_left].
  destruct (settled_step jobs f0 s e i Hsep R Hi) as [H1 H2]. rewrite <- H2. apply IH; [|done].
  destruct e; [by apply running_advance|by apply running_stop].
Qed.
