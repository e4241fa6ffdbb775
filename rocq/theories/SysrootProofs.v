From Verif Require Import Base BaseFacts DepsModel DepsProofs CollectModel BacktraceModel SysrootModel SysrootSpec.

Lemma names_components (cs : list str) :
  cs <> [] -> (forall c, c ∈ cs -> plain_name c) ->
  components (lit "/" ++ join (lit "/") cs) = lit "/" :: cs.
Proof.
  intros Hne H. unfold components.
  change (lit "/" ++ join (lit "/") cs) with ([] ++ "/"%char :: join ["/"%char] cs).
  rewrite split_char_slash. rewrite split_join; [|done|by intros x Hx; apply H].
  cbn [split_char app]. f_equal.
  clear Hne. induction cs as [|c cs IH]; [done|].
  rewrite filter_cons_True by (destruct (H c) as (? & ? & _); [left|done]). f_equal. apply IH.
  intros x Hx. apply H. by right.
Qed.

Lemma library_components (hash : str) (path : list str) :
  plain_name hash -> path <> [] -> (forall c, c ∈ path -> plain_name c) ->
  components (library_source hash path) = lit "/" :: lit "rustc" :: hash :: path.
Proof.
  intros Hh Hne Hp.
  assert (library_source hash path = lit "/" ++ join (lit "/") (lit "rustc" :: hash :: path)) as ->.
  { unfold library_source. destruct path; [done|]. cbn [join]. done. }
  apply names_components; [done|]. intros c [->|[->|Hc]%elem_of_cons]%elem_of_cons; [|done|by apply Hp].
  unfold plain_name. split_and!; [done|done|]. apply (bool_decide_unpack _). vm_compute. exact I.
Qed.

Lemma join_plain (d c : str) : plain_directory d -> plain_name c -> path_join d c = d ++ lit "/" ++ c.
Proof.
  intros (d' & x & -> & Hx) (Hne & _ & Hc). unfold path_join. rewrite last_snoc.
  destruct c as [|a c]; [done|].
  assert (a <> "/"%char) by (intros ->; apply Hc; left).
  assert (forall (A B : str), (match x with "/"%char => A | _ => B end) = B) as E.
  { intros A B. destruct x as [[] [] [] [] [] [] [] []]; done || (exfalso; by apply Hx). }
  rewrite E. destruct a as [[] [] [] [] [] [] [] []]; try done.
Qed.

Lemma name_directory (d c : str) : plain_name c -> plain_directory (d ++ lit "/" ++ c).
Proof.
  intros (Hne & _ & Hc). destruct (exists_last Hne) as (c' & x & ->).
  exists (d ++ lit "/" ++ c'), x. split; [by rewrite <- !app_assoc|]. intros ->. apply Hc. apply elem_of_app. right. left.
Qed.

Lemma fold_join (path : list str) (d : str) :
  plain_directory d -> path <> [] -> (forall c, c ∈ path -> plain_name c) ->
  foldl path_join d path = d ++ lit "/" ++ join (lit "/") path.
Proof.
  revert d. induction path as [|c path IH]; intros d Hd Hne Hp; [done|].
  cbn [foldl]. rewrite join_plain; [|done|apply Hp; left].
  destruct path as [|c' path]; [done|].
  rewrite IH; [|apply name_directory, Hp; left|done|intros; apply Hp; by right].
  cbn [join]. by rewrite <- !app_assoc.
Qed.

Lemma library_moved (sysroot hash : str) (path : list str) (line : nat) (column : option nat) :
  plain_directory sysroot -> plain_name hash -> path <> [] -> (forall c, c ∈ path -> plain_name c) ->
  with_sysroot sysroot (SrcLoc (library_source hash path) line column) =
  SrcLoc (installed_source sysroot path) line column.
Proof.
  intros Hs Hh Hne Hp. unfold with_sysroot, path_starts_with. cbn [sl_file sl_line sl_column].
  rewrite library_components by done.
  assert (components (lit "/rustc/") = [lit "/"; lit "rustc"]) as -> by (vm_compute; reflexivity).
  rewrite bool_decide_true by (exists (hash :: path); done).
  cbn [drop]. f_equal.
  assert (path_join sysroot (lit "lib/rustlib/src/rust") = sysroot ++ lit "/lib/rustlib/src/rust") as ->.
  { destruct Hs as (d & x & -> & Hx). unfold path_join. rewrite last_snoc.
    change (lit "lib/rustlib/src/rust") with ("l"%char :: lit "ib/rustlib/src/rust").
    cbv beta iota.
    assert (forall (A B : str), (match x with "/"%char => A | _ => B end) = B) as E.
    { intros A B. destruct x as [[] [] [] [] [] [] [] []]; done || (exfalso; by apply Hx). }
    rewrite E. done. }
  rewrite fold_join; [|..]; [|by exists (sysroot ++ lit "/lib/rustlib/src/rus"), "t"%char; rewrite <- app_assoc|done|done].
  unfold installed_source. by rewrite <- !app_assoc.
Qed.

Lemma elsewhere_not_rustc (file : str) : elsewhere file -> path_starts_with (lit "/rustc/") file = false.
Proof.
  intros H. unfold path_starts_with. apply bool_decide_eq_false. intros [k Hk].
  assert (components (lit "/rustc/") = [lit "/"; lit "rustc"]) as E by (vm_compute; reflexivity).
  rewrite E in Hk. clear E. cbn [app] in Hk.
  destruct H as [Hrel|(c & rest & Hc & Hn & -> & Hr)].
  - destruct file as [|a f]; [by vm_compute in Hk|].
    unfold components in Hk. cbn [split_char] in Hk.
    destruct (Ascii.eqb_spec a "/"%char) as [->|Ha]; [by destruct (Hrel f)|].
    apply (f_equal (fun l => match l with (x :: _) :: _ => x | _ => a end)) in Hk.
    destruct (split_char "/" f) as [|p ps]; cbn in Hk; by apply Ha.
  - unfold components in Hk. change (lit "/" ++ c ++ rest) with ([] ++ "/"%char :: (c ++ rest)) in Hk.
    rewrite split_char_slash in Hk. cbn [split_char app] in Hk.
    assert (exists l, split_char "/" (c ++ rest) = c :: l) as (l & El).
    { destruct Hc as (_ & _ & Hc). destruct Hr as [->|(r & ->)].
      - rewrite app_nil_r. exists []. by apply split_char_none.
      - exists (split_char "/" r). by apply split_char_app. }
    rewrite El in Hk. rewrite filter_cons_True in Hk by (destruct Hc as (? & ? & _); done).
    apply Hn. exact (f_equal (fun l => match l with _ :: x :: _ => x | _ => [] end) Hk).
Qed.
