(** Proofs about the files of a linker call. *)
From Verif Require Import Base BaseFacts NamesModel ApiMapModel ConfigModel ProblemModel CheckerModel CheckerSpec
  DepsModel DepsSpec DepsProofs GraphModel GraphSpec CollectModel CollectSpec CollectProofs ArchiveModel ArchiveSpec.

Lemma extension_of (path ext : str) :
  has_extension path ext -> "."%char ∉ ext -> "/"%char ∉ ext -> ext <> [] -> extension path = Some ext.
Proof.
  intros (dir & stem & -> & Hd & Hs & Hn) H1 H2 H3. unfold extension.
  rewrite file_name_plain; [|done| |by destruct stem|].
  - destruct stem as [|c stem]; [done|].
    assert (str_eqb ((c :: stem) ++ lit "." ++ ext) (lit "..") = false) as ->.
    { apply not_true_iff_false. intros E. apply str_eqb_spec in E. cbn in E. injection E as -> E.
      destruct stem as [|c' stem]; cbn in E.
      - injection E as E. by destruct ext.
      - injection E as _ E. by destruct stem. }
    cbn [app]. apply after_last_dot_some. by exists stem.
  - rewrite not_elem_of_app. split; [done|]. rewrite not_elem_of_app. split; [|done].
    apply (bool_decide_unpack _). by vm_compute.
  - intros E. apply (f_equal length) in E. rewrite !app_length in E. destruct stem; [done|]. cbn in E.
    destruct ext; [done|]. cbn in E. lia.
Qed.

Lemma flat_mapM_each {A B : Type} (f : A -> option (list B)) (l : list A) (r : list B) :
  flat_mapM f l = Some r -> forall a, a ∈ l -> exists b, f a = Some b /\ forall x, x ∈ b -> x ∈ r.
Proof.
  unfold flat_mapM. destruct (mapM f l) as [bs|] eqn:H; [|done]. intros [= <-] a Ha.
  apply mapM_Some in H. apply elem_of_list_lookup in Ha as [i Hi].
  destruct (Forall2_lookup_l _ _ _ _ _ H Hi) as (b & Hb & E).
  exists b. split; [done|]. intros x Hx. apply elem_of_list_join. exists b. split; [done|].
  by eapply elem_of_list_lookup_2.
Qed.

Section scan.
  Context (open : str -> option opened) (parse : str -> option obj_file).
  Context (process : obj_file -> option (list reference)).

  Lemma file_holds (path bytes : str) (rs : list reference) :
    process_file open parse process path = Some rs -> holds open path bytes ->
    exists o rs', parse bytes = Some o /\ process o = Some rs' /\ forall r, r ∈ rs' -> r ∈ rs.
  Proof.
    intros H (f & Hf & Hh). unfold process_file in H. rewrite Hf in H. cbn [mbind option_bind] in H.
    destruct Hh as [[He (name & Hin)]|[He Hb]].
    - assert (is_archive path = true) as Ha.
      { unfold is_archive. rewrite (extension_of path (lit "rlib")); [by vm_compute|done| | |done];
          apply (bool_decide_unpack _); by vm_compute. }
      rewrite Ha in H. destruct (flat_mapM_each _ _ _ H _ Hin) as (rs' & E & Hsub).
      cbn [process_entry mbind option_bind] in E. destruct name as [name|]; [|done]. cbn [mbind option_bind] in E.
      destruct (parse bytes) as [o|]; [|done]. cbn [mbind option_bind] in E. by exists o, rs'.
    - assert (is_archive path = false) as Ha.
      { unfold is_archive. rewrite (extension_of path (lit "o")); [by vm_compute|done| | |done];
          apply (bool_decide_unpack _); by vm_compute. }
      rewrite Ha, Hb in H. cbn [mbind option_bind] in H. destruct (parse bytes) as [o|]; [|done].
      cbn [mbind option_bind] in H. by exists o, rs.
  Qed.
End scan.

Lemma object_is_scanned (canonicalize : str -> option str) (target : str) (args : list str)
    (li : DepsModel.link_info) (arg path : str) :
  (forall p, p ∈ args -> plain_path p) -> resolved target -> (forall p q, canonicalize p = Some q -> resolved q) ->
  link_info_from_args args = Some li ->
  arg ∈ drop 1 args -> object_path arg -> canonicalize arg = Some path -> at_or_below target path ->
  path ∈ object_paths_under canonicalize li target.
Proof.
  intros Hp Ht Hc Hli Harg Hobj Hcan Hbelow.
  unfold object_paths_under. apply elem_of_list_filter. split; [by apply below_spec; eauto|].
  apply elem_of_list_omap. exists arg. split; [|done].
  unfold link_info_from_args in Hli. destruct (get_output_file args); [|done]. injection Hli as <-.
  cbn [li_objects]. apply elem_of_list_filter. split; [|done]. apply object_path_spec; [|done].
  apply Hp. rewrite <- (take_drop 1 args). apply elem_of_app. by right.
Qed.

(** Everything that is linked from the target directory is read. *)
Lemma link_read (open : str -> option opened) (parse : str -> option obj_file) (read_binary : str -> option binary)
    (canonicalize : str -> option str) (target : str) (args : list str) (li : DepsModel.link_info) (f : facts)
    (bytes : str) :
  (forall p, p ∈ args -> plain_path p) -> resolved target -> (forall p q, canonicalize p = Some q -> resolved q) ->
  link_info_from_args args = Some li ->
  read_link open parse read_binary canonicalize target li = Some f ->
  linked_from open canonicalize target args bytes ->
  exists b addresses o rs, read_binary (li_output li) = Some b /\ load_symbols (bi_symbols b) ∅ = Some addresses /\
    parse bytes = Some o /\
    object_references addresses (list_to_map (bi_debug b)) (bi_frames b) o = Some rs /\
    forall r, r ∈ rs -> r ∈ fa_references f.
Proof.
  intros Hp Ht Hc Hli Hf (arg & path & Harg & Hobj & Hcan & Hbelow & Hh).
  pose proof (object_is_scanned canonicalize target args li arg path Hp Ht Hc Hli Harg Hobj Hcan Hbelow) as Hin.
  unfold read_link in Hf. destruct (read_binary (li_output li)) as [b|]; [|done]. cbn [mbind option_bind] in Hf.
  destruct (load_symbols (bi_symbols b) ∅) as [addresses|] eqn:Ea; [|done]. cbn [mbind option_bind] in Hf.
  match type of Hf with (flat_mapM ?g ?l ≫= _) = _ => destruct (flat_mapM g l) as [rs|] eqn:E; [|done] end.
  cbn [mbind option_bind] in Hf. injection Hf as <-.
  destruct (flat_mapM_each _ _ _ E path Hin) as (rs' & E' & Hsub).
  destruct (file_holds open parse _ path bytes rs' E' Hh) as (o & rs'' & Ho & Er & Hsub').
  exists b, addresses, o, rs''. split; [done|]. split; [assumption|]. split; [assumption|]. split; [assumption|]. intros r Hr. cbn [fa_references].
  apply elem_of_app. right. auto.
Qed.

Lemma link_inlined (open : str -> option opened) (parse : str -> option obj_file) (read_binary : str -> option binary)
    (canonicalize : str -> option str) (target : str) (li : DepsModel.link_info) (f : facts) :
  read_link open parse read_binary canonicalize target li = Some f ->
  exists b, read_binary (li_output li) = Some b /\
    forall x, x ∈ bi_inlined b -> exists r, inlined_use x r /\ r ∈ fa_references f.
Proof.
  intros Hf. unfold read_link in Hf. destruct (read_binary (li_output li)) as [b|]; [|done]. cbn [mbind option_bind] in Hf.
  destruct (load_symbols (bi_symbols b) ∅) as [addresses|]; [|done]. cbn [mbind option_bind] in Hf.
  match type of Hf with (flat_mapM ?g ?l ≫= _) = _ => destruct (flat_mapM g l) as [rs|]; [|done] end.
  cbn [mbind option_bind] in Hf. injection Hf as <-. exists b. split; [done|]. intros x Hx.
  exists (inlined_reference x). split; [done|]. cbn [fa_references]. apply elem_of_app. left. by apply elem_of_list_fmap_1.
Qed.

Lemma file_unreadable (open : str -> option opened) (parse : str -> option obj_file)
    (process : obj_file -> option (list reference)) (path : str) :
  unreadable open path -> process_file open parse process path = None.
Proof.
  intros [H|(f & Hf & [(He & e & Hin & Hbad)|[He Hb]])].
  - unfold process_file. by rewrite H.
  - unfold process_file. rewrite Hf. cbn [mbind option_bind].
    assert (is_archive path = true) as ->.
    { unfold is_archive. rewrite (extension_of path (lit "rlib")); [by vm_compute|done| | |done];
        apply (bool_decide_unpack _); by vm_compute. }
    destruct (flat_mapM _ _) as [rs|] eqn:E; [|done].
    destruct (flat_mapM_each _ _ _ E _ Hin) as (rs' & E' & _).
    destruct Hbad as [[n ->]|[b ->]]; cbn in E'; [done|]. by destruct b.
  - unfold process_file. rewrite Hf. cbn [mbind option_bind].
    assert (is_archive path = false) as ->.
    { unfold is_archive. rewrite (extension_of path (lit "o")); [by vm_compute|done| | |done];
        apply (bool_decide_unpack _); by vm_compute. }
    by rewrite Hb.
Qed.

Lemma link_unreadable (open : str -> option opened) (parse : str -> option obj_file) (read_binary : str -> option binary)
    (canonicalize : str -> option str) (target : str) (args : list str) (li : DepsModel.link_info) (arg path : str) :
  (forall p, p ∈ args -> plain_path p) -> resolved target -> (forall p q, canonicalize p = Some q -> resolved q) ->
  link_info_from_args args = Some li ->
  arg ∈ drop 1 args -> object_path arg -> canonicalize arg = Some path -> at_or_below target path ->
  unreadable open path -> read_link open parse read_binary canonicalize target li = None.
Proof.
  intros Hp Ht Hc Hli Harg Hobj Hcan Hbelow Hun.
  pose proof (object_is_scanned canonicalize target args li arg path Hp Ht Hc Hli Harg Hobj Hcan Hbelow) as Hin.
  unfold read_link. destruct (read_binary (li_output li)) as [b|]; [|done]. cbn [mbind option_bind].
  destruct (load_symbols (bi_symbols b) ∅) as [addresses|]; [|done]. cbn [mbind option_bind].
  destruct (flat_mapM _ (object_paths_under canonicalize li target)) as [rs|] eqn:E; [|done].
  destruct (flat_mapM_each _ _ _ E path Hin) as (rs' & E' & _). by rewrite file_unreadable in E'.
Qed.
