(** C26, C27, C66, C67: files written in one step, and messages between processes. *)
From Coq Require Import NArith.
From Verif Require Import Base BaseFacts TextSpec Utf8Proofs TextModel TextFacts DepsModel IoModel IoSpec IoProofs.

(** C26. At every moment, whatever has been stopped, every file that is not a temporary one has
    its old content or the complete content of a job for it. *)
Theorem C26_atomic (f : fs) (jobs : list (str * list str)) (es : list event) (path : str) :
  tidy f -> separate jobs -> not_temporary jobs path ->
  let f' := (sys_run (f, start jobs) es).1 in
  content f' path = content f path \/
  exists pieces, (path, pieces) ∈ jobs /\ content f' path = Some (concat pieces).
Proof.
  intros Ht Hs Hp. cbn zeta. eapply run_content; [|by apply not_temporary_to_m].
  apply running_run; [by apply separate_to_m|by apply running_start].
Qed.
Print Assumptions C26_atomic.

(** A job that has been done has put its content there, unless another job has the same
    destination, and has left no temporary file. *)
Theorem C26_finished (f : fs) (jobs : list (str * list str)) (es : list event) (n : nat) (path : str)
    (pieces : list str) (tmp : str) :
  tidy f -> separate jobs ->
  jobs !! n = Some (path, pieces) ->
  temporary path tmp ->
  finished (sys_run (f, start jobs) es).2 n ->
  content (sys_run (f, start jobs) es).1 tmp = None /\
  ((forall m pieces', jobs !! m = Some (path, pieces') -> m = n) ->
   content (sys_run (f, start jobs) es).1 path = Some (concat pieces)).
Proof.
  intros Ht Hs Hn Htmp (w & Hw & Hf).
  assert (R : running jobs f (sys_run (f, start jobs) es)).
  { apply running_run; [by apply separate_to_m|by apply running_start]. }
  pose proof (run_jobs _ _ _ R) as Hj.
  assert (Hw' : (w_path w, w_pieces w) = (path, pieces)).
  { assert (X : map (fun w => (w_path w, w_pieces w)) (sys_run (f, start jobs) es).2 !! n = Some (w_path w, w_pieces w)).
    { apply list_lookup_fmap_Some. by exists w. }
    rewrite Hj in X. congruence. }
  injection Hw' as Hwp Hws.
  destruct (run_finished _ _ _ R n w Hw Hf) as [H1 H2]. split.
  - apply temporary_spec in Htmp. unfold w_tmp in H1. rewrite Hwp, Htmp in H1. unfold content. by rewrite H1.
  - intros Hu. rewrite <- Hwp, <- Hws. apply H2. intros m w' Hm Hp.
    apply (Hu m (w_pieces w')). rewrite <- Hj. apply list_lookup_fmap_Some. exists w'. split; [done|]. congruence.
Qed.
Print Assumptions C26_finished.

(** Who has opened the file at some moment goes on to see the content of that moment. *)
Theorem C26_readers (f : fs) (jobs : list (str * list str)) (es es' : list event) (path : str) (i : nat) :
  tidy f -> separate jobs -> not_temporary jobs path ->
  fs_names (sys_run (f, start jobs) es).1 !! path = Some i ->
  fs_data (sys_run (f, start jobs) (es ++ es')).1 !! i = content (sys_run (f, start jobs) es).1 path.
Proof.
  intros Ht Hs Hp Hi.
  assert (R : running jobs f (sys_run (f, start jobs) es)).
  { apply running_run; [by apply separate_to_m|by apply running_start]. }
  unfold content. rewrite Hi. unfold sys_run at 1. rewrite fold_left_app.
  apply (settled_run jobs f _ es' i); [by apply separate_to_m|done|].
  destruct (run_tidy _ _ _ R) as [H1 H2]. split; [by eapply H2|].
  intros q Hq. assert (q = path) as -> by by eapply H1. by apply not_temporary_to_m.
Qed.
Print Assumptions C26_readers.

(** The files stay as they were assumed to be, so the same holds for further jobs. *)
Theorem C26_again (f : fs) (jobs : list (str * list str)) (es : list event) :
  tidy f -> separate jobs -> tidy (sys_run (f, start jobs) es).1.
Proof.
  intros Ht Hs. eapply run_tidy. apply running_run; [by apply separate_to_m|by apply running_start].
Qed.
Print Assumptions C26_again.

(** Only files whose names are temporary ones or destinations change. *)
Theorem C26_others (f : fs) (jobs : list (str * list str)) (es : list event) (path : str) :
  tidy f -> separate jobs -> not_temporary jobs path -> (forall j, j ∈ jobs -> j.1 <> path) ->
  content (sys_run (f, start jobs) es).1 path = content f path.
Proof.
  intros Ht Hs Hp Hd. destruct (C26_atomic f jobs es path Ht Hs Hp) as [H|(pieces & Hj & _)]; [done|].
  by destruct (Hd _ Hj).
Qed.
Print Assumptions C26_others.

Definition C26_fs : fs := Fs {[lit "cackle.toml" := 0]} {[0 := lit "old"]}.
Definition C26_jobs : list (str * list str) := [(lit "cackle.toml", [lit "ne"; lit "w"])].

Example C26_ex :
  map (fun es => content (sys_run (C26_fs, start C26_jobs) es).1 (lit "cackle.toml"))
    [[]; [Advance 0]; [Advance 0; Advance 0]; [Advance 0; Advance 0; Advance 0];
     [Advance 0; Advance 0; Advance 0; Advance 0]; [Advance 0; Advance 0; Stop 0; Advance 0; Advance 0]]
  = [Some (lit "old"); Some (lit "old"); Some (lit "old"); Some (lit "old"); Some (lit "new"); Some (lit "old")] /\
  content (sys_run (C26_fs, start C26_jobs) [Advance 0; Advance 0]).1 (lit "cackle.tmp") = Some (lit "ne").
Proof. by vm_compute. Qed.

Lemma C26_tmp_toml : temporary (lit "cackle.toml") (lit "cackle.tmp").
Proof.
  apply (temporary_replaced [] (lit "cackle") (lit "toml")); [by left|done| | | |done];
    apply (bool_decide_unpack _); by vm_compute.
Qed.

Example C26_ex_hypotheses : tidy C26_fs /\ separate C26_jobs /\ not_temporary C26_jobs (lit "cackle.toml").
Proof.
  split; [|split].
  - split; cbn [C26_fs fs_names fs_data].
    + intros p q i [<- _]%lookup_singleton_Some [<- _]%lookup_singleton_Some. done.
    + intros p i [_ <-]%lookup_singleton_Some. exists (lit "old"). apply lookup_singleton.
  - exists [lit "cackle.tmp"]. split; [|split].
    + constructor; [apply C26_tmp_toml|constructor].
    + apply NoDup_singleton.
    + intros tmp j ->%elem_of_list_singleton ->%elem_of_list_singleton. done.
  - intros j ->%elem_of_list_singleton H. apply temporary_spec in H. done.
Qed.

(** C66. Two jobs for the same file at the same time: it can be seen with neither content. *)
Theorem C66_two_writers_refuted :
  exists (f : fs) (path : str) (a b : list str) (es : list event),
    tidy f /\ ~ temporary path path /\
    content (sys_run (f, start [(path, a); (path, b)]) es).1 path <> content f path /\
    content (sys_run (f, start [(path, a); (path, b)]) es).1 path <> Some (concat a) /\
    content (sys_run (f, start [(path, a); (path, b)]) es).1 path <> Some (concat b).
Proof.
  exists C26_fs, (lit "cackle.toml"), [lit "aa"], [lit "bb"], [Advance 0; Advance 0; Advance 1; Advance 0].
  split; [apply C26_ex_hypotheses|]. split; [intros H; by apply temporary_spec in H|].
  split; [|split]; by vm_compute.
Qed.
Print Assumptions C66_two_writers_refuted.

(** Two jobs for files that differ only in the extension: one can get the content of the other. *)
Theorem C66_same_stem_refuted :
  exists (f : fs) (p q : str) (a b : list str) (es : list event),
    tidy f /\ p <> q /\ ~ temporary p p /\ ~ temporary p q /\ ~ temporary q p /\
    finished (sys_run (f, start [(p, a); (q, b)]) es).2 0 /\
    concat a <> concat b /\
    content (sys_run (f, start [(p, a); (q, b)]) es).1 p = Some (concat b).
Proof.
  exists C26_fs, (lit "cackle.toml"), (lit "cackle.json"), [lit "aa"], [lit "bb"],
    [Advance 0; Advance 0; Advance 1; Advance 1; Advance 0].
  split; [apply C26_ex_hypotheses|]. split; [done|].
  split; [intros H; by apply temporary_spec in H|]. split; [intros H; by apply temporary_spec in H|].
  split; [intros H; by apply temporary_spec in H|]. split; [|split; [done|by vm_compute]].
  exists (Writer (lit "cackle.toml") [lit "aa"] Finished). split; by vm_compute.
Qed.
Print Assumptions C66_same_stem_refuted.

(** C67. A file with the extension [tmp] is its own temporary file. *)
Theorem C67_tmp_extension_refuted :
  exists (f : fs) (path : str) (pieces : list str) (es : list event),
    tidy f /\
    content (sys_run (f, start [(path, pieces)]) es).1 path <> content f path /\
    content (sys_run (f, start [(path, pieces)]) es).1 path <> Some (concat pieces).
Proof.
  exists (Fs {[lit "a.tmp" := 0]} {[0 := lit "old"]}), (lit "a.tmp"), [lit "new"], [Advance 0].
  split; [|split; by vm_compute]. split; cbn [fs_names fs_data].
  - intros p q i [<- _]%lookup_singleton_Some [<- _]%lookup_singleton_Some. done.
  - intros p i [_ <-]%lookup_singleton_Some. exists (lit "old"). apply lookup_singleton.
Qed.
Print Assumptions C67_tmp_extension_refuted.

(** C27. What was written is read back, in order, and what follows is left alone. *)
Theorem C27_round_trip {V} (to_string : V -> str) (from_str : str -> option V) (vs : list V) (rest : str) :
  codec to_string from_str ->
  reads from_str (concat (map (write_to_stream to_string) vs) ++ rest) vs rest.
Proof. intros H. by apply reads_written. Qed.
Print Assumptions C27_round_trip.

(** From a stream that ends too early the messages before the end are read, and then an error. *)
Theorem C27_cut {V} (to_string : V -> str) (from_str : str -> option V) (vs : list V) (stream lost : str) :
  codec to_string from_str ->
  concat (map (write_to_stream to_string) vs) = stream ++ lost -> lost <> [] ->
  exists vs1 v vs2 rest, vs = vs1 ++ v :: vs2 /\ reads from_str stream vs1 rest /\
    read_from_stream from_str rest = None.
Proof. intros H. by apply cut_stream. Qed.
Print Assumptions C27_cut.

(** There is only one way to read as many messages. *)
Theorem C27_one_reading {V} (from_str : str -> option V) (s : str) (vs ws : list V) (r : str) :
  reads from_str s vs r -> forall r', reads from_str s ws r' -> length vs = length ws -> vs = ws /\ r = r'.
Proof.
  intros H. revert ws. induction H as [s|s v s1 vs s2 Hr _ IH]; intros ws r' Hw Hl.
  - destruct ws; [|done]. by inversion Hw.
  - destruct ws as [|w ws]; [done|]. inversion Hw as [|s0 v0 s0' vs0 s2' Hr' Hw']; subst.
    rewrite Hr in Hr'. injection Hr' as <- <-. injection Hl as Hl.
    destruct (IH _ _ Hw' Hl) as [-> ->]. done.
Qed.
Print Assumptions C27_one_reading.

Definition C27_write (b : bool) : str := if b then lit "true" else lit "false".
Definition C27_read (s : str) : option bool :=
  if str_eqb s (lit "true") then Some true else if str_eqb s (lit "false") then Some false else None.

Example C27_ex_codec : codec C27_write C27_read.
Proof. intros []; (split; [done|split; [apply utf8_valid_spec|]]); by vm_compute. Qed.

Example C27_ex :
  let stream := write_to_stream C27_write true ++ write_to_stream C27_write false in
  take 9 stream = map ascii_of_nat [4; 0; 0; 0; 0; 0; 0; 0; 116] /\
  read_from_stream C27_read stream = Some (true, write_to_stream C27_write false) /\
  read_from_stream C27_read (take 11 stream) = None /\
  read_from_stream C27_read (take 7 stream) = None.
Proof. by vm_compute. Qed.
