(** C28-C30, C68, C69: packages, selectors and the dependency tree. *)
From Coq Require Import NArith.
From Verif Require Import Base BaseFacts TextSpec Utf8Proofs TextModel ConfigModel DemangleSpec DepsSpec IndexModel IndexSpec IndexProofs.

(** C28. A process that cargo runs for a package finds the id under which the package is indexed. *)
Theorem C28_package_id {V : Type} `{Countable V} (parse_version : str -> option V) (show : V -> str)
    (metas : list (meta V)) (m : meta V) (env : str -> option str) :
  (forall v, parse_version (show v) = Some v) ->
  (forall o, o ∈ metas -> proper_name (m_name o)) ->
  m ∈ metas -> is_Some (m_dir m) ->
  cargo_env show m (internal_env metas) env ->
  exists unique : bool,
    id_from_env parse_version env = Some (m_name m, m_version m, unique) /\
    (unique = true <-> only_one metas (m_name m)) /\
    (m_name m, m_version m, unique) ∈ package_ids metas.
Proof.
  intros Hv Hn Hm Hd He. exists (Nat.eqb (name_count metas (m_name m)) 1).
  split; [by apply (id_from_env_spec parse_version show metas m env)|].
  split; [apply (id_unique metas m)|]. apply package_ids_spec. by exists m.
Qed.
Print Assumptions C28_package_id.

Example C28_ex_package_id :
  let metas := [Meta (lit "a") (lit "1.0.0") (Some [lit "w"; lit "a"]);
                Meta (lit "b") (lit "1.0.0") (Some [lit "r"; lit "b1"]);
                Meta (lit "b") (lit "2.0.0") (Some [lit "r"; lit "b2"])] in
  let env name version := fun v =>
    if str_eqb v (lit "CARGO_PKG_NAME") then Some name
    else if str_eqb v (lit "CARGO_PKG_VERSION") then Some version
    else if str_eqb v (lit "CACKLE_MULTIPLE_VERSION_PKG_NAMES") then Some (internal_env metas) else None in
  internal_env metas = lit "b,b" /\
  id_from_env Some (env (lit "b") (lit "2.0.0")) = Some (lit "b", lit "2.0.0", false) /\
  id_from_env Some (env (lit "a") (lit "1.0.0")) = Some (lit "a", lit "1.0.0", true).
Proof. split; [by vm_compute|split; by vm_compute]. Qed.

(** Every kind is read back from its token, and nothing else is a token. *)
Theorem C28_tokens :
  (forall k : crate_kind, from_token (to_token k) = Some k) /\
  (forall (t : str) (k : crate_kind), from_token t = Some k -> t = to_token k).
Proof. split; [exact token_round|exact token_only]. Qed.
Print Assumptions C28_tokens.

Example C28_ex_tokens : from_token (lit "build-script") = Some BuildScript /\ from_token (lit "Test") = None.
Proof. by vm_compute. Qed.

(** Run by cargo, rustc is wrapped under the kind that the crate name and [--test] say. *)
Theorem C28_rustc_kind (env : str -> option str) (args : list str) (crate : str) :
  env (lit "CARGO_CRATE_NAME") = Some crate ->
  env (lit "CACKLE_CRATE_KIND") = None ->
  (lit "--test" ∈ args -> rustc_kind env args = Some TestCrate) /\
  (lit "--test" ∉ args -> (exists rest, crate = lit "build_script_" ++ rest) -> rustc_kind env args = Some BuildScript) /\
  (lit "--test" ∉ args -> (~ exists rest, crate = lit "build_script_" ++ rest) -> rustc_kind env args = Some Primary).
Proof.
  intros Hc Hk. unfold rustc_kind, kind_from_env. rewrite Hc, Hk.
  split; [|split]; intros Ht.
  - apply mem_str_spec in Ht. rewrite Ht. by destruct (starts_with _ _).
  - intros [rest ->].
    assert (E : starts_with (lit "build_script_") (lit "build_script_" ++ rest) = true) by (apply starts_with_spec; by exists rest).
    rewrite E. destruct (mem_str (lit "--test") args) eqn:Em; [by apply mem_str_spec in Em|done].
  - intros Hn. destruct (starts_with (lit "build_script_") crate) eqn:E.
    { destruct Hn. by apply starts_with_spec in E. }
    destruct (mem_str (lit "--test") args) eqn:Em; [by apply mem_str_spec in Em|done].
Qed.
Print Assumptions C28_rustc_kind.

(** The process that stands in for the linker finds the kind under which rustc was wrapped,
    unless a crate whose name begins like that of a build script is compiled as a test. *)
Theorem C28_linker_kind (env : str -> option str) (args : list str) (k : crate_kind) :
  (lit "--test" ∉ args \/ forall rest, env (lit "CARGO_CRATE_NAME") <> Some (lit "build_script_" ++ rest)) ->
  rustc_kind env args = Some k ->
  kind_from_env (rustc_env env k) = Some k.
Proof.
  unfold rustc_kind, kind_from_env, rustc_env. intros Hor.
  assert (E1 : str_eqb (lit "CARGO_CRATE_NAME") (lit "CACKLE_CRATE_KIND") = false) by by vm_compute.
  assert (E2 : str_eqb (lit "CACKLE_CRATE_KIND") (lit "CACKLE_CRATE_KIND") = true) by by vm_compute.
  rewrite E1, E2, token_round.
  destruct (env (lit "CARGO_CRATE_NAME")) as [v|] eqn:Ev; [|done].
  destruct (starts_with (lit "build_script_") v) eqn:Es; [|done].
  apply starts_with_spec in Es as [rest ->]. destruct Hor as [Ht|Hr]; [|by destruct (Hr rest)].
  destruct (mem_str (lit "--test") args) eqn:Em; [by apply mem_str_spec in Em|done].
Qed.
Print Assumptions C28_linker_kind.

Example C28_ex_kind :
  let env := fun v => if str_eqb v (lit "CARGO_CRATE_NAME") then Some (lit "build_script_build") else None in
  rustc_kind env [lit "--crate-name"; lit "build_script_build"] = Some BuildScript /\
  kind_from_env (rustc_env env BuildScript) = Some BuildScript /\
  rustc_kind (fun _ => None) [lit "--test"] = Some TestCrate.
Proof. split; [by vm_compute|split; by vm_compute]. Qed.

(** C68. A crate is treated as a build script because of its name: a library called
    [build_script_utils] is, and its tests are wrapped as tests but linked as a build script. *)
Theorem C68_build_script_name_refuted :
  exists (env : str -> option str),
    env (lit "CARGO_CRATE_NAME") = Some (lit "build_script_utils") /\
    env (lit "CARGO_PKG_NAME") = Some (lit "build-script-utils") /\
    rustc_kind env [lit "--crate-name"; lit "build_script_utils"; lit "--crate-type"; lit "lib"; lit "src/lib.rs"] = Some BuildScript /\
    rustc_kind env [lit "--crate-name"; lit "build_script_utils"; lit "--test"; lit "src/lib.rs"] = Some TestCrate /\
    kind_from_env (rustc_env env TestCrate) = Some BuildScript.
Proof.
  exists (fun v => if str_eqb v (lit "CARGO_CRATE_NAME") then Some (lit "build_script_utils")
                   else if str_eqb v (lit "CARGO_PKG_NAME") then Some (lit "build-script-utils") else None).
  by repeat (split; [by vm_compute|]).
Qed.
Print Assumptions C68_build_script_name_refuted.

(** C29. A path belongs to the package in the nearest enclosing directory. *)
Theorem C29_package_for_path {V : Type} `{Countable V} (metas : list (meta V)) (path : list str) (name : str) (version : V) :
  (exists unique, package_id_for_path (dir_to_id metas) path = Some (name, version, unique)) <->
  exists dir rest m, path = dir ++ rest /\ last_in metas dir m /\ m_name m = name /\ m_version m = version /\
    forall dir' rest', path = dir' ++ rest' -> length dir < length dir' -> forall o, o ∈ metas -> m_dir o <> Some dir'.
Proof.
  split.
  - intros [unique Hp]. apply for_path_spec in Hp as (dir & rest & -> & Hdir & Hmore).
    apply dir_to_id_spec in Hdir as (m & Hm & Hid). injection Hid as -> -> _.
    exists dir, rest, m. split; [done|]. split; [done|]. split; [done|]. split; [done|].
    intros dir' rest' E L o Ho Hd. specialize (Hmore dir' rest' E L).
    destruct (last_in_exists metas dir' o Ho Hd) as [m' Hm'].
    assert (X : dir_to_id metas !! dir' = Some (id_of metas m')) by (apply dir_to_id_spec; by exists m').
    congruence.
  - intros (dir & rest & m & -> & Hm & <- & <- & Hmore).
    exists (Nat.eqb (name_count metas (m_name m)) 1). apply for_path_spec. exists dir, rest. split; [done|].
    split; [apply dir_to_id_spec; by exists m|]. intros dir' rest' E L.
    destruct (dir_to_id metas !! dir') as [id|] eqn:X; [|done].
    apply dir_to_id_spec in X as (m' & (b & a & -> & Hd & _) & _).
    by destruct (Hmore dir' rest' E L m' ltac:(apply elem_of_app; right; left)).
Qed.
Print Assumptions C29_package_for_path.

(** It belongs to no package only if no enclosing directory is that of a package, and the answer
    says whether the name of the package is unique. *)
Theorem C29_none {V : Type} `{Countable V} (metas : list (meta V)) (path : list str) :
  (package_id_for_path (dir_to_id metas) path = None <->
   forall dir rest o, path = dir ++ rest -> o ∈ metas -> m_dir o <> Some dir) /\
  (forall id, package_id_for_path (dir_to_id metas) path = Some id -> (id.2 = true <-> only_one metas id.1.1)).
Proof.
  split.
  - split.
    + intros Hn dir rest o -> Ho Hd.
      destruct (last_in_exists metas dir o Ho Hd) as [m Hm].
      assert (X : dir_to_id metas !! dir = Some (id_of metas m)) by (apply dir_to_id_spec; by exists m).
      apply (for_path_none _ _ Hn dir rest eq_refl) in X. done.
    + intros Hno. destruct (package_id_for_path _ path) as [id|] eqn:E; [|done].
      apply for_path_spec in E as (dir & rest & -> & Hdir & _).
      apply dir_to_id_spec in Hdir as (m & (b & a & -> & Hd & _) & _).
      by destruct (Hno dir rest m eq_refl ltac:(apply elem_of_app; right; left)).
  - intros id E. apply for_path_spec in E as (dir & rest & -> & Hdir & _).
    apply dir_to_id_spec in Hdir as (m & _ & ->). apply (id_unique metas m).
Qed.
Print Assumptions C29_none.

Example C29_ex :
  let metas := [Meta (lit "a") (lit "1.0.0") (Some [lit "w"]);
                Meta (lit "b") (lit "1.0.0") (Some [lit "w"; lit "b"])] in
  package_id_for_path (dir_to_id metas) [lit "w"; lit "b"; lit "src"; lit "lib.rs"] = Some (lit "b", lit "1.0.0", true) /\
  package_id_for_path (dir_to_id metas) [lit "w"; lit "bc"; lit "lib.rs"] = Some (lit "a", lit "1.0.0", true) /\
  package_id_for_path (dir_to_id metas) [lit "x"; lit "w"] = None.
Proof. split; [by vm_compute|split; by vm_compute]. Qed.

(** C30. From the listing of an acyclic graph of known packages, the dependencies recorded for
    a package are the names of the libraries that are reached from it, and nothing is recorded
    for packages that are not in the tree. *)
Theorem C30_transitive {V : Type} `{Countable V} (deps : package_id V -> list (package_id V))
    (lib : package_id V -> option str) (show : V -> str) (parse_version : str -> option V)
    (metas : list (meta V)) (roots : list (package_id V)) (lines : list str) (seen : list (package_id V)) (success : bool) :
  (forall v, parse_version (show v) = Some v) ->
  (forall p, ~ tc (dep deps) p p) ->
  (forall p, in_tree deps roots p -> proper_package lib show p /\ p ∈ package_ids metas) ->
  listing deps lib show 0 [] roots lines seen ->
  is_utf8 (unlines lines) ->
  exists t, build_tree parse_version (name_to_ids metas) success (unlines lines) = Some t /\
    (forall p, in_tree deps roots p -> exists D, lt_deps t !! p = Some D /\
       forall name, name ∈ D <-> exists q, tc (dep deps) p q /\ name = lib_name lib q) /\
    (forall p, ~ in_tree deps roots p -> lt_deps t !! p = None).
Proof.
  intros Hv Ha Hf Hl Hu%utf8_valid_spec.
  destruct (tree_built deps lib show parse_version metas Hv Ha roots lines seen success Hl Hf Hu)
    as (t & Ht & Hd & Hn & _). by exists t.
Qed.
Print Assumptions C30_transitive.

(** A name of a library leads to a package in the tree with that library, for every such name. *)
Theorem C30_lib_names {V : Type} `{Countable V} (deps : package_id V -> list (package_id V))
    (lib : package_id V -> option str) (show : V -> str) (parse_version : str -> option V)
    (metas : list (meta V)) (roots : list (package_id V)) (lines : list str) (seen : list (package_id V)) (success : bool) :
  (forall v, parse_version (show v) = Some v) ->
  (forall p, ~ tc (dep deps) p p) ->
  (forall p, in_tree deps roots p -> proper_package lib show p /\ p ∈ package_ids metas) ->
  listing deps lib show 0 [] roots lines seen ->
  is_utf8 (unlines lines) ->
  exists t, build_tree parse_version (name_to_ids metas) success (unlines lines) = Some t /\
    (forall p, in_tree deps roots p -> is_Some (lt_libs t !! lib_name lib p)) /\
    (forall name p, lt_libs t !! name = Some p -> in_tree deps roots p /\ lib_name lib p = name).
Proof.
  intros Hv Ha Hf Hl Hu%utf8_valid_spec.
  destruct (tree_built deps lib show parse_version metas Hv Ha roots lines seen success Hl Hf Hu)
    as (t & Ht & _ & _ & Hd & Hn). by exists t.
Qed.
Print Assumptions C30_lib_names.

(** [a] needs [b] and [d-e]; [b] needs [c]; [d-e] needs [b], which is not expanded again. *)
Example C30_ex :
  let p n := (lit n, lit "1.0.0", true) in
  let metas := [Meta (lit "a") (lit "1.0.0") (Some [lit "a"]); Meta (lit "b") (lit "1.0.0") (Some [lit "b"]);
                Meta (lit "c") (lit "1.0.0") (Some [lit "c"]); Meta (lit "d-e") (lit "1.0.0") (Some [lit "d"])] in
  let lines := [lit "0  a v1.0.0 (/w/a)"; lit "1 b b v1.0.0"; lit "2 cc c v1.0.0"; lit "1 d_e d-e v1.0.0"; lit "2 b b v1.0.0 (*)"] in
  let t := build_tree Some (name_to_ids metas) true (unlines lines) in
  let deps_of n := t ≫= fun t => elements <$> lt_deps t !! p n in
  let lib_of l := t ≫= fun t => lt_libs t !! lit l in
  deps_of "a"%string = Some [lit "b"; lit "d_e"; lit "cc"] /\
  deps_of "b"%string = Some [lit "cc"] /\
  deps_of "c"%string = Some [] /\
  deps_of "d-e"%string = Some [lit "b"; lit "cc"] /\
  lib_of "cc"%string = Some (p "c"%string) /\ lib_of "a"%string = Some (p "a"%string).
Proof. vm_compute. repeat split. Qed.

(** Those lines are the listing of that graph. *)
Example C30_ex_listing :
  let p n := (lit n, lit "1.0.0", true) in
  let deps := fun q : package_id str =>
    if str_eqb q.1.1 (lit "a") then [p "b"%string; p "d-e"%string]
    else if str_eqb q.1.1 (lit "b") then [p "c"%string]
    else if str_eqb q.1.1 (lit "d-e") then [p "b"%string] else [] in
  let lib := fun q : package_id str =>
    if str_eqb q.1.1 (lit "a") then None
    else if str_eqb q.1.1 (lit "c") then Some (lit "cc")
    else if str_eqb q.1.1 (lit "d-e") then Some (lit "d_e") else Some q.1.1 in
  exists seen, listing deps lib (fun v => v) 0 [] [p "a"%string]
    [lit "0  a v1.0.0 (/w/a)"; lit "1 b b v1.0.0"; lit "2 cc c v1.0.0"; lit "1 d_e d-e v1.0.0"; lit "2 b b v1.0.0 (*)"] seen.
Proof.
  assert (N0 : decimal 0 (lit "0")) by by apply (bool_decide_unpack _).
  assert (N1 : decimal 1 (lit "1")) by by apply (bool_decide_unpack _).
  assert (N2 : decimal 2 (lit "2")) by by apply (bool_decide_unpack _).
  eexists.
  eapply (listing_new _ _ _ _ _ _ _ _ [_; _; _; _] _ []).
  { by apply (bool_decide_unpack _). }
  { exists (lit "0"), (lit " (/w/a)"). split; [done|]. split; [done|]. split; [right; by eexists|].
    split; [by apply (bool_decide_unpack _)|]. split; [by vm_compute|done]. }
  2: constructor.
  eapply (listing_new _ _ _ _ _ _ _ _ [_] _ [_; _]).
  { by apply (bool_decide_unpack _). }
  { exists (lit "1"), []. split; [done|]. split; [done|]. split; [by left|].
    split; [by apply (bool_decide_unpack _)|]. split; [by vm_compute|done]. }
  { eapply (listing_new _ _ _ _ _ _ _ _ [] _ []).
    { by apply (bool_decide_unpack _). }
    { exists (lit "2"), []. split; [done|]. split; [done|]. split; [by left|].
      split; [by apply (bool_decide_unpack _)|]. split; [by vm_compute|done]. }
    { constructor. }
    { constructor. } }
  eapply (listing_new _ _ _ _ _ _ _ _ [_] _ []).
  { by apply (bool_decide_unpack _). }
  { exists (lit "1"), []. split; [done|]. split; [done|]. split; [by left|].
    split; [by apply (bool_decide_unpack _)|]. split; [by vm_compute|done]. }
  2: constructor.
  eapply listing_seen.
  { by apply (bool_decide_unpack _). }
  { exists (lit "2"), (lit " (*)"). split; [done|]. split; [done|]. split; [right; by eexists|].
    split; [by apply (bool_decide_unpack _)|]. split; [by vm_compute|done]. }
  constructor.
Qed.

(** C69. A failed run of [cargo tree] is not noticed: the tree is empty and there is no error. *)
Theorem C69_failed_cargo_tree_refuted :
  exists (metas : list (meta str)) (t : lib_tree str),
    (exists m, m ∈ metas /\ is_Some (m_dir m)) /\
    build_tree Some (name_to_ids metas) false [] = Some t /\ lt_deps t = ∅ /\ lt_libs t = ∅.
Proof.
  exists [Meta (lit "a") (lit "1.0.0") (Some [lit "w"])], empty_tree. split.
  - eexists. split; [left|]. by eexists.
  - split; [by vm_compute|done].
Qed.
Print Assumptions C69_failed_cargo_tree_refuted.
