(** C08-C12, C48-C50: the checker. *)
From Verif Require Import Base ApiMapModel ConfigModel ConfigSpec ConfigProofs ProblemModel
  CheckerModel CheckerSpec CheckerProofs CheckerSysProofs.

(** ** C08: a disallowed usage is never dropped *)

(** In every state that a run can reach: a batch of usages that no loaded
    configuration permits is split completely and without repetition over the
    problems, apart from excused usages; a permitted one yields no problem. An error
    arises only if the source of an off-tree usage cannot be determined. *)
Theorem C08_never_dropped :
  forall (env : environment) (ops : list checker_op) (u : api_usages) (ck' : checker)
         (r : option (list problem)),
  (forall c, OpLoad c ∈ ops -> made_for (en_index env) c) ->
  let ck := checker_run env ops in
  api_used env ck u = (ck', r) ->
  (granted ops (pi_name (au_pkg u), au_scope u) (au_api u) -> r = Some []) /\
  (~ granted ops (pi_name (au_pkg u), au_scope u) (au_api u) ->
   match r with
   | None =>
       exists x path, x ∈ au_usages u /\ (exists owner, reaches_off_tree env (au_pkg u) x owner) /\
         us_outer x = Some path /\ source_unknown env ck path
   | Some ps =>
       (exists rest, concat (map shown ps) ++ rest ≡ₚ au_usages u /\
          forall x, x ∈ rest -> excused env ck (au_pkg u) x) /\
       (forall x, x ∈ concat (map shown ps) -> ~ excused env ck (au_pkg u) x) /\
       (forall p, p ∈ ps ->
          (exists l, p = PDisallowedApiUsage (ApiUsages (au_pkg u) (au_scope u) (au_api u) l) /\ l <> [] /\
             forall x, x ∈ l -> forall owner, ~ reaches_off_tree env (au_pkg u) x owner) \/
          (exists l owner, p = POffTreeApiUsage (ApiUsages (au_pkg u) (au_scope u) (au_api u) l) owner /\ l <> [] /\
             forall x, x ∈ l -> reaches_off_tree env (au_pkg u) x owner))
   end).
Proof. exact usage_never_dropped. Qed.
Print Assumptions C08_never_dropped.

Definition apis_only (apis : list str) : package_config :=
  PackageConfig false false [] apis false None None None sandbox_default None.

Definition ex_pkg : package_config :=
  PackageConfig false false [] [lit "fs"] false
    (Some (apis_only [lit "net"])) None None sandbox_default None.

Definition raw_of (explicit : bool) (pkgs : gmap str package_config) : raw_config :=
  RawConfig 3 explicit [] ∅ pkgs sandbox_default sandbox_default.

Definition ex_idx : crate_index :=
  [Package (lit "foo") [1] true false false; Package (lit "my-dep") [2] false false false].

Definition config_of (rc : raw_config) : config :=
  Config rc (perms_with_inheritance rc ex_idx) (perms_from_config rc).

Lemma config_of_made rc : made_for ex_idx (config_of rc).
Proof. done. Qed.

Definition foo : pkg_id := PkgId (lit "foo") [1].
Definition my_dep : pkg_id := PkgId (lit "my-dep") [2].

Definition ex_env : environment :=
  Environment ex_idx
    (fun p => if bool_decide (p = foo) then Some {[lit "foo"]} else None)
    (fun n => if str_eqb n (lit "my_dep") then Some my_dep else None)
    (fun path => if str_eqb path (lit "/dep/lib.rs") then Some my_dep else None)
    (fun path => starts_with (lit "/rust/") path).

Definition ex_cfg : config := config_of (raw_of false {[lit "foo" := ex_pkg]}).

Definition use_direct : api_usage := ApiUsage [lit "std"; lit "process"; lit "abort"] None 0.
Definition use_off : api_usage := ApiUsage [lit "my_dep"; lit "run"] (Some (lit "/rust/x.rs")) 1.
Definition use_excused : api_usage := ApiUsage [lit "my_dep"; lit "run"] (Some (lit "/dep/lib.rs")) 2.

Example C08_ex :
  (api_used ex_env (checker_run ex_env [OpLoad ex_cfg])
     (ApiUsages foo All (lit "process") [use_direct; use_off; use_excused; use_direct])).2
  = Some [POffTreeApiUsage (ApiUsages foo All (lit "process") [use_off]) my_dep;
          PDisallowedApiUsage (ApiUsages foo All (lit "process") [use_direct; use_direct])].
Proof. by vm_compute. Qed.

Example C08_ex_permitted :
  (api_used ex_env (checker_run ex_env [OpLoad ex_cfg])
     (ApiUsages foo Build (lit "fs") [use_direct; use_off])).2 = Some [] /\
  (api_used ex_env (checker_run ex_env [OpLoad ex_cfg])
     (ApiUsages foo All (lit "net") [use_direct])).2 <> Some [].
Proof. by vm_compute. Qed.

(** ** C09: unused permissions *)

Theorem C09_unused_exact :
  forall (env : environment) (c : config) (ops : list checker_op) (ps : list problem),
  made_for (en_index env) c ->
  (forall c', OpLoad c' ∈ ops -> c' = c) ->
  check_unused env (checker_run env (OpLoad c :: ops)) = Some ps ->
  (forall k apis, PUnusedAllowApi k apis ∈ ps ->
     apis <> [] /\ NoDup apis /\
     forall api, api ∈ apis <-> section_grants c k api /\ ~ used_through c ops k api) /\
  (forall k api, section_grants c k api -> ~ used_through c ops k api ->
     exists apis, PUnusedAllowApi k apis ∈ ps) /\
  (forall k, PUnusedPackageConfig k ∈ ps <->
     is_Some (section (cf_raw c) k.1 k.2) /\ ~ index_selector (en_index env) k.1 k.2) /\
  (forall k, PUnusedSandboxConfiguration k ∈ ps <->
     exists sec, section (cf_raw c) k.1 k.2 = Some sec /\
       sb_kind (pc_sandbox sec) <> None /\ k.2 <> Build /\ k.2 <> Test).
Proof. exact unused_report. Qed.
Print Assumptions C09_unused_exact.

(** Without linker invocations in flight the report is always produced. *)
Theorem C09_reported :
  forall (env : environment) (ops : list checker_op),
  exists ps, check_unused env (checker_run env ops) = Some ps.
Proof. intros env ops. unfold check_unused. rewrite check_unused_ops. eauto. Qed.
Print Assumptions C09_reported.

Example C09_ex :
  check_unused ex_env (checker_run ex_env
    [OpLoad ex_cfg; OpUse (ApiUsages foo Build (lit "fs") [use_direct])])
  = Some [PUnusedAllowApi (lit "foo", Build) [lit "net"]].
Proof. by vm_compute. Qed.

(** An entry that was unused when it was deleted from the file is still reported. *)
Theorem C48_deleted_entry_refuted :
  exists env c c' ps k apis api,
    made_for (en_index env) c /\ made_for (en_index env) c' /\
    check_unused env (checker_run env [OpLoad c; OpLoad c']) = Some ps /\
    PUnusedAllowApi k apis ∈ ps /\ api ∈ apis /\ ~ section_grants c' k api.
Proof.
  exists ex_env, ex_cfg, (config_of (raw_of false ∅)).
  eexists _, (lit "foo", Build), [lit "net"], (lit "net").
  split; [done|]. split; [done|]. split; [by vm_compute|].
  split; [repeat constructor|]. split; [left|].
  by intros (sec & ? & _).
Qed.
Print Assumptions C48_deleted_entry_refuted.

(** ** C10: reloading *)

(** What is in force after any history of loads is exactly the union of the grants of
    all configurations loaded so far. *)
Theorem C10_grants_in_force :
  forall (env : environment) (ops : list checker_op) (k : perm_sel) (api : str),
  (forall c, OpLoad c ∈ ops -> made_for (en_index env) c) ->
  is_allowed (checker_run env ops) k api = true <-> granted ops k api.
Proof. exact grants_accumulate. Qed.
Print Assumptions C10_grants_in_force.

(** In particular a usage permitted by the configuration just loaded is not reported. *)
Theorem C10_new_grants_take_effect :
  forall (env : environment) (ops : list checker_op) (c : config) (u : api_usages),
  (forall c, OpLoad c ∈ ops -> made_for (en_index env) c) ->
  made_for (en_index env) c ->
  permitted c (pi_name (au_pkg u), au_scope u) (au_api u) ->
  (api_used env (checker_run env (ops ++ [OpLoad c])) u).2 = Some [].
Proof.
  intros env ops c u Hm Hc Hp. apply api_used_allowed, grants_accumulate.
  - intros c' [H|H]%elem_of_app; [auto|]. apply elem_of_list_singleton in H. by injection H as ->.
  - exists c. split; [|done]. apply elem_of_app. right. left.
Qed.
Print Assumptions C10_new_grants_take_effect.

Example C10_ex :
  let u := ApiUsages foo All (lit "process") [use_direct] in
  let c' := config_of (raw_of false {[lit "foo" := apis_only [lit "process"]]}) in
  (api_used ex_env (checker_run ex_env [OpLoad ex_cfg]) u).2 <> Some [] /\
  (api_used ex_env (checker_run ex_env [OpLoad ex_cfg; OpLoad c']) u).2 = Some [].
Proof. by vm_compute. Qed.

(** Revoking does not work within a run. *)
Theorem C50_revocation_refuted :
  exists env c c' u,
    made_for (en_index env) c /\ made_for (en_index env) c' /\ au_usages u <> [] /\
    ~ permitted c' (pi_name (au_pkg u), au_scope u) (au_api u) /\
    (api_used env (checker_run env [OpLoad c; OpLoad c']) u).2 = Some [].
Proof.
  exists ex_env, ex_cfg, (config_of (raw_of false ∅)),
    (ApiUsages foo All (lit "fs") [use_direct]).
  split; [done|]. split; [done|]. split; [done|]. split; [|by vm_compute].
  intros (e & He & Ha).
  assert (Hf : match cf_permissions (config_of (raw_of false ∅)) !! (lit "foo", All) with
               | Some e => pc_allow_apis e = [] | None => False end) by by vm_compute.
  unfold usages_perm_sel in He. cbn [au_pkg foo pi_name au_scope] in He. rewrite He in Hf.
  rewrite Hf in Ha. by apply elem_of_nil in Ha.
Qed.
Print Assumptions C50_revocation_refuted.

(** ** C11: explicit_build_scripts *)

(** Once a configuration is loaded, no package of the index that has a build script
    is ever reported, whatever the configuration says: loading adds an entry for it. *)
Theorem C11_never_reported :
  forall (env : environment) (ops : list checker_op) (p : package) (v : list nat),
  (forall c, OpLoad c ∈ ops -> made_for (en_index env) c) ->
  (exists c, OpLoad c ∈ ops) ->
  p ∈ en_index env -> pk_has_build_script p = true ->
  verify_build_script_permitted (checker_run env ops) (PkgId (pk_name p) v) = [].
Proof. exact build_script_never_reported. Qed.
Print Assumptions C11_never_reported.

Theorem C11_explicit_build_scripts_refuted :
  exists env c p,
    made_for (en_index env) c /\ rc_explicit_build_scripts (cf_raw c) = true /\
    p ∈ en_index env /\ pk_has_build_script p = true /\
    section (cf_raw c) (pk_name p) Build = None /\
    verify_build_script_permitted (checker_run env [OpLoad c]) (PkgId (pk_name p) (pk_version p)) = [].
Proof.
  exists ex_env, (config_of (raw_of true ∅)), (Package (lit "foo") [1] true false false).
  split; [done|]. split; [done|]. split; [left|]. split; [done|]. split; [done|].
  by vm_compute.
Qed.
Print Assumptions C11_explicit_build_scripts_refuted.

(** ** C12: linker invocations *)

(** Every recorded invocation is outstanding or has been disposed of, exactly once. *)
Theorem C12_conservation :
  forall env scan requests (es : list event),
  links es ≡ₚ ck_outstanding (sy_checker (after env scan requests es)) ++
              settled (outcomes env scan requests es).
Proof. exact conservation. Qed.
Print Assumptions C12_conservation.

(** A completion takes the oldest outstanding invocation of its crate; if there is
    none it is answered without problems; if problems are found the invocation stays
    outstanding (behind the others). *)
Theorem C12_completion :
  forall env scan requests (es : list event) (i h : nat),
  es !! i = Some (EComplete h) ->
  exists taken log r,
    outcomes env scan requests es !! i = Some (OComplete taken log r) /\
    let before := ck_outstanding (sy_checker (after env scan requests (take i es))) in
    let now := ck_outstanding (sy_checker (after env scan requests (take (S i) es))) in
    match taken with
    | None => (forall x, x ∈ before -> li_sel x <> ro_sel (requests h)) /\
              now = before /\ r = Some [] /\ log = None
    | Some li => exists l1 l2, before = l1 ++ li :: l2 /\ li_sel li = ro_sel (requests h) /\
        (forall x, x ∈ l1 -> li_sel x <> ro_sel (requests h)) /\
        now = l1 ++ l2 ++ match r with Some (_ :: _) => [li] | _ => [] end
    end.
Proof. exact completion_step. Qed.
Print Assumptions C12_completion.

(** If every crate links at most once, a clean answer means that this handler
    scanned that very invocation under the API definitions now in force, and that
    every usage found is permitted or excused. *)
Theorem C12_clean_means_checked :
  forall env scan requests (es : list event) (i h : nat) (li : link_info) log,
  (forall c, ELoad c ∈ es -> made_for (en_index env) c) ->
  NoDup (map li_sel (links es)) ->
  es !! i = Some (EComplete h) ->
  outcomes env scan requests es !! i = Some (OComplete (Some li) log (Some [])) ->
  exists j o ck,
    j <= i /\ es !! j = Some (EComplete h) /\
    (exists r, outcomes env scan requests es !! j = Some (OComplete (Some li) (Some li) r)) /\
    scan ck li = Some o /\
    rc_apis (cf_raw (ck_config ck)) = apis_in_force (after env scan requests (take i es)) /\
    ck_paths ck = ck_paths (sy_checker (after env scan requests (take (S j) es))) /\
    so_base o = [] /\
    (forall u, u ∈ so_usages o -> batch_fine env scan requests (take (S i) es) u).
Proof. exact clean_completion_granted. Qed.
Print Assumptions C12_clean_means_checked.

(** The check for unused permissions runs exactly when all have been disposed of. *)
Theorem C12_unused_refuses :
  forall env scan requests (es : list event),
  is_Some (check_unused env (sy_checker (after env scan requests es))) <->
  links es ≡ₚ settled (outcomes env scan requests es).
Proof. exact unused_refuses. Qed.
Print Assumptions C12_unused_refuses.

(** Two linker invocations of [foo]: one uses an API that the configuration comes to
    permit, the other one that is never permitted. *)
Definition foo_bin : crate_sel := CrateSel foo Primary.
Definition bin_a : link_info := LinkInfo foo_bin 1.
Definition bin_b : link_info := LinkInfo foo_bin 2.
Definition two_bins : scanner := fun _ li =>
  Some (ScanOutputs []
    [ApiUsages foo All (if bool_decide (li = bin_a) then lit "process" else lit "net")
       [use_direct]] []).
Definition fixed_cfg : config :=
  config_of (raw_of false {[lit "foo" := apis_only [lit "process"]]}).
Definition one_request : nat -> rustc_output := fun _ => RustcOutput foo_bin [].

Definition ex_one : list event := [ELoad ex_cfg; ELinker bin_a; EComplete 0; ELoad fixed_cfg; EComplete 0].

Example C12_ex :
  outcomes ex_env two_bins one_request ex_one =
  [ODone; ODone;
   OComplete (Some bin_a) (Some bin_a)
     (Some [PDisallowedApiUsage (ApiUsages foo All (lit "process") [use_direct])]);
   ODone; OComplete (Some bin_a) None (Some [])].
Proof. by vm_compute. Qed.

Definition ex_two : list event :=
  [ELoad ex_cfg; ELinker bin_a; ELinker bin_b; EComplete 0; ELoad fixed_cfg; EComplete 0; EComplete 1].

Lemma ex_cfg_foo : match cf_permissions ex_cfg !! (lit "foo", All) with
  | Some e => pc_allow_apis e = [lit "fs"] | None => False end.
Proof. by vm_compute. Qed.
Lemma fixed_cfg_foo : match cf_permissions fixed_cfg !! (lit "foo", All) with
  | Some e => pc_allow_apis e = [lit "process"] | None => False end.
Proof. by vm_compute. Qed.

(** With two linker invocations of one crate (two binaries of a package), one of them
    can be settled without ever having been scanned, although it uses an API that is
    never permitted; everything is answered cleanly in the end. *)
Theorem C49_every_invocation_scanned_refuted :
  exists env scan requests es li u,
    (forall c, ELoad c ∈ es -> made_for (en_index env) c) /\
    li ∈ settled (outcomes env scan requests es) /\
    (forall taken scanned r,
       OComplete taken scanned r ∈ outcomes env scan requests es ->
       scanned <> Some li /\ r <> None) /\
    (forall ck, exists o, scan ck li = Some o /\ u ∈ so_usages o /\ au_usages u <> []) /\
    ~ granted_by es (pi_name (au_pkg u), au_scope u) (au_api u) /\
    (forall x, x ∈ au_usages u -> forall owner, ~ reaches_off_tree env (au_pkg u) x owner) /\
    is_Some (check_unused env (sy_checker (after env scan requests es))).
Proof.
  exists ex_env, two_bins, one_request, ex_two, bin_b, (ApiUsages foo All (lit "net") [use_direct]).
  split.
  { intros c Hc. unfold ex_two in Hc. rewrite !elem_of_cons, elem_of_nil in Hc.
    destruct Hc as [H|[H|[H|[H|[H|[H|[H|[]]]]]]]]; try discriminate H; injection H as ->;
      apply config_of_made. }
  assert (Ho : outcomes ex_env two_bins one_request ex_two =
    [ODone; ODone; ODone;
     OComplete (Some bin_a) (Some bin_a)
       (Some [PDisallowedApiUsage (ApiUsages foo All (lit "process") [use_direct])]);
     ODone; OComplete (Some bin_b) None (Some []);
     OComplete (Some bin_a) (Some bin_a) (Some [])]) by by vm_compute.
  rewrite Ho. split; [left|]. split.
  { intros t s r Hin. rewrite !elem_of_cons, elem_of_nil in Hin.
    destruct Hin as [H|[H|[H|[H|[H|[H|[H|[]]]]]]]]; try discriminate H; injection H as -> -> ->;
      (split; [|discriminate]); intros Hs; try discriminate Hs; injection Hs as Hs; discriminate Hs. }
  split; [intros ck; eexists; split; [done|]; split; [left|done]|].
  split.
  { intros (c & Hc & e & He & Ha). unfold ex_two in Hc. rewrite !elem_of_cons, elem_of_nil in Hc.
    pose proof ex_cfg_foo as Hf. pose proof fixed_cfg_foo as Hg.
    unfold usages_perm_sel in He. cbn [au_pkg foo pi_name au_scope] in He.
    cbn [au_api] in Ha.
    destruct Hc as [H|[H|[H|[H|[H|[H|[H|[]]]]]]]]; try discriminate H; injection H as ->.
    - clear Hg. rewrite He in Hf. rewrite Hf in Ha. by apply elem_of_list_singleton in Ha.
    - clear Hf. rewrite He in Hg. rewrite Hg in Ha. by apply elem_of_list_singleton in Ha. }
  split.
  { intros x Hx owner (deps & first & rest & H1 & H2 & H3 & H4).
    apply elem_of_list_singleton in Hx as ->. cbn in H2. injection H2 as <- <-.
    vm_compute in H4. done. }
  vm_compute. by eexists.
Qed.
Print Assumptions C49_every_invocation_scanned_refuted.
