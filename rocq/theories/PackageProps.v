(** Packages that cargo lists: procedural macros and the pane with details. *)
From Verif Require Import Base BaseFacts TextModel ConfigModel ReportModel PackageModel PackageSpec PackageProofs.
From Verif Require Import ReportProps.

(** ** C257: every procedural macro that cargo lists *)

Theorem C257_every_macro :
  forall (metadata : list listed) (permitted : str -> bool) (name version : str),
  told_apart metadata ->
  (name, version) ∈ reported_macros metadata permitted <->
  exists p, p ∈ metadata /\ ls_name p = name /\ ls_version p = version /\ ls_macro p = true /\ permitted name = false.
Proof.
  intros metadata permitted name version Ht. rewrite reported_iff. split.
  - intros (i & Hi & Hm & Hp). apply infos_lookup in Hi as (n & p & Hn & [= <- <-] & -> & _).
    exists p. split_and!; try done. by apply elem_of_list_lookup_2 in Hn.
  - intros (p & Hp & <- & <- & Hm & Hn). eexists. split; [by apply infos_own|]. done.
Qed.
Print Assumptions C257_every_macro.

Definition pk_derive (source dir : str) (macro : bool) : listed :=
  Listed (lit "derive") (lit "1.0.0") source dir (Some (lit "Derives things. ")) None macro.
Definition pk_app : listed := Listed (lit "app") (lit "0.1.0") [] (lit "/w") None (Some (lit "https://app")) false.

Lemma pk_one_macro : told_apart [pk_app; pk_derive (lit "registry") (lit "/r/derive") true].
Proof.
  intros i j p q Hi Hj En Ev.
  destruct i as [|[|i]]; cbn in Hi; [| |done]; injection Hi as <-;
  (destruct j as [|[|j]]; cbn in Hj; [| |done]); injection Hj as <-; try done; by vm_compute in En.
Qed.

Example C257_ex :
  told_apart [pk_app; pk_derive (lit "registry") (lit "/r/derive") true] /\
  reported_macros [pk_app; pk_derive (lit "registry") (lit "/r/derive") true] (fun _ => false) =
    [(lit "derive", lit "1.0.0")].
Proof. split; [apply pk_one_macro|by vm_compute]. Qed.

(** ** C258: also if there are two packages of the same name and version *)

(** For all lists: whatever is listed later under the same name and version decides, so the macro is not reported. *)
Theorem C258_overlooked :
  forall (before between after : list listed) (permitted : str -> bool) (macro other : listed),
  ls_macro macro = true -> ls_macro other = false ->
  ls_name other = ls_name macro -> ls_version other = ls_version macro ->
  (forall p, p ∈ after -> ls_name p <> ls_name macro) ->
  (ls_name macro, ls_version macro) ∉ reported_macros (before ++ macro :: between ++ other :: after) permitted.
Proof.
  intros before between after permitted macro other Hm Ho En Ev Ha Hin.
  apply reported_iff in Hin as (i & Hi & Him & _). apply infos_lookup in Hi as (n & p & Hn & Hk & -> & Hlast).
  cbn in Him. injection Hk as Hk1 Hk2.
  set (k := length (before ++ macro :: between)).
  assert (before ++ macro :: between ++ other :: after = (before ++ macro :: between) ++ other :: after) as El
    by (by rewrite <- app_assoc).
  rewrite El in Hn, Hlast.
  assert (k <= n) as Hkn.
  { apply (Hlast k other); [by apply list_lookup_middle|by rewrite En, Ev]. }
  rewrite lookup_app_r in Hn by done. apply elem_of_list_lookup_2 in Hn as Hp.
  destruct (n - k) as [|d] eqn:Ed.
  - fold k in Hn. rewrite Ed in Hn. cbn in Hn. injection Hn as <-. rewrite Ho in Him. done.
  - fold k in Hn. rewrite Ed in Hn. cbn in Hn. apply elem_of_list_lookup_2 in Hn. by destruct (Ha p Hn).
Qed.
Print Assumptions C258_overlooked.

Theorem C258_refuted :
  exists (metadata : list listed) (p : listed),
    cargo_packages metadata /\ p ∈ metadata /\ ls_macro p = true /\
    reported_macros metadata (fun _ => false) = [].
Proof.
  exists [pk_derive (lit "git") (lit "/g/derive") true; pk_derive (lit "registry") (lit "/r/derive") false],
    (pk_derive (lit "git") (lit "/g/derive") true).
  split_and!; [|left|done|by vm_compute].
  intros i j p q Hi Hj _ _ Es.
  destruct i as [|[|i]]; cbn in Hi; [| |done]; injection Hi as <-;
  (destruct j as [|[|j]]; cbn in Hj; [| |done]); injection Hj as <-; try done; by vm_compute in Es.
Qed.
Print Assumptions C258_refuted.

(** ** C259: the pane with details and the tree *)

(** The pane and the tree are about the package that the headline of the selected problem names first. *)
Theorem C259_headline {K : Type} `{EqDecision K} (name_leb : K -> K -> bool) (name_text : K -> str) :
  forall (p : shown_problem K) (pkg : shown_pkg),
  problem_pkg p = Some pkg ->
  exists before kind after,
    display name_leb name_text false p = before ++ sel_display pkg kind ++ after /\
    before ∈ [[]; lit "`"; lit "Package `"; lit "Build script for package `"; lit "Execution of test for package `";
              lit "Execution of binary for package `"].
Proof.
  intros p pkg E.
  destruct p; try discriminate E; injection E as ->; cbn [display]; unfold quoted, pkg_display.
  - exists (lit "`"), Primary. eexists. split; [by rewrite <- !app_assoc|]. set_unfold. tauto.
  - exists (lit "`"), k. eexists. split; [by rewrite <- !app_assoc|]. set_unfold. tauto.
  - exists (lit "`"), k. eexists. split; [by rewrite <- !app_assoc|]. set_unfold. tauto.
  - exists (lit "`"), Primary. eexists. split; [by rewrite <- !app_assoc|]. set_unfold. tauto.
  - exists (lit "`"), Primary. eexists. split; [by rewrite <- !app_assoc|]. set_unfold. tauto.
  - exists (lit "`"), Primary. eexists. split; [by rewrite <- !app_assoc|]. set_unfold. tauto.
  - destruct k; [exists (lit "Execution of binary for package `")|exists (lit "Build script for package `")|
      exists (lit "Execution of test for package `")]; exists Primary; eexists;
      (split; [by rewrite <- !app_assoc|]); set_unfold; tauto.
  - exists [], Primary. eexists. split; [by cbn [app]|]. set_unfold. tauto.
  - exists (lit "Package `"), Primary. eexists. split; [by rewrite <- !app_assoc|]. set_unfold. tauto.
  - exists (lit "Package `"), Primary. eexists. split; [by rewrite <- !app_assoc|]. set_unfold. tauto.
Qed.
Print Assumptions C259_headline.

(** What the pane says is what cargo says about the package, and the tree is asked for this package and version. *)
Theorem C259_details {K : Type} :
  forall (metadata : list listed) (manifest : str) (p : shown_problem K) (pkg : shown_pkg) (m : listed),
  told_apart metadata -> m ∈ metadata -> problem_pkg p = Some pkg -> displayed_as metadata m pkg ->
  (exists title text, package_pane metadata (Some p) = Some (title, text) /\ describes m text /\
     ((forall q, q ∈ metadata -> ls_name q = ls_name m -> q = m) -> title = lit "Details for package " ++ ls_name m) /\
     ((exists q, q ∈ metadata /\ ls_name q = ls_name m /\ q <> m) ->
        title = lit "Details for package " ++ ls_name m ++ lit "[" ++ ls_version m ++ lit "]")) /\
  tree_arguments manifest (Some p) =
    Some [lit "tree"; lit "--manifest-path"; manifest; lit "-i"; ls_name m ++ lit "@" ++ ls_version m].
Proof.
  intros metadata manifest p pkg m Ht Hm Hp (En & Ev & Eu). unfold package_pane, tree_arguments. rewrite Hp.
  rewrite En, Ev, infos_own by done. split; [|done]. do 2 eexists. split; [reflexivity|].
  cbn [in_description in_documentation in_dir]. split; [|split].
  - exists (match ls_description m with Some d => lit "Description: " ++ trim_end d ++ [nl] | None => [] end),
           (match ls_documentation m with Some d => lit "Documentation: " ++ d ++ [nl] | None => [] end).
    split_and!; [done| |by destruct (ls_documentation m)].
    destruct (ls_description m) as [d|]; [|done]. exists (trim_end d). split; [apply trim_end_spec|done].
  - intros Hq. unfold pkg_display, sel_display. rewrite (proj2 Eu Hq), En. cbn [app]. by rewrite app_nil_r.
  - intros (q & Hq & Hn & Hne). unfold pkg_display, sel_display. destruct (sp_unique pkg) eqn:Es.
    + destruct Hne. by apply (proj1 Eu).
    + by rewrite En, Ev.
Qed.
Print Assumptions C259_details.

Example C259_ex :
  let p := RProcMacro (K:=str) (ShownPkg (lit "derive") (lit "1.0.0") true) in
  displayed_as [pk_app; pk_derive (lit "registry") (lit "/r/derive") true] (pk_derive (lit "registry") (lit "/r/derive") true)
    (ShownPkg (lit "derive") (lit "1.0.0") true) /\
  package_pane [pk_app; pk_derive (lit "registry") (lit "/r/derive") true] (Some p) =
    Some (lit "Details for package derive",
          lit "Description: Derives things." ++ [nl] ++ lit "Version: 1.0.0" ++ [nl] ++ lit "Local path: /r/derive" ++ [nl]) /\
  tree_arguments (lit "/w/Cargo.toml") (Some p) =
    Some [lit "tree"; lit "--manifest-path"; lit "/w/Cargo.toml"; lit "-i"; lit "derive@1.0.0"].
Proof.
  cbn zeta. split_and!; [|by vm_compute|by vm_compute].
  split; [done|]. split; [done|]. cbn. split; [|done]. intros _ q Hq En.
  apply elem_of_cons in Hq as [->|Hq]; [by vm_compute in En|]. by apply elem_of_list_singleton in Hq.
Qed.
