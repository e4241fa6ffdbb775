(** C13-C15, C51: the problem store. *)
From Verif Require Import Base BaseFacts ApiMapModel ConfigModel ProblemModel
  StoreModel StoreSpec StoreProofs.

(** ** C13: each waiter gets exactly one outcome, and the right one *)

(** In every history in which each client submits once: the client of a submission has
    received nothing, or exactly one outcome. It is "continue" exactly if at some moment
    all its problems and everything they were replaced by had been resolved, without an
    abort between the submission and that moment. It is "give up" exactly if the first
    abort after the submission found one of them still open. *)
Theorem C13_outcomes :
  forall (s : store) (es es1 es2 : list store_event) (e : store_event) (c : nat) (ps : list problem),
  history s es -> NoDup (clients es) ->
  es = es1 ++ e :: es2 -> se_op e = SAdd c ps ->
  (received es c = [] \/ received es c = [Continue] \/ received es c = [GiveUp]) /\
  (received es c = [Continue] <->
     exists a b, es2 = a ++ b /\ no_abort a /\ all_closed (es1 ++ e :: a) (se_ids e)) /\
  (received es c = [GiveUp] <->
     exists a x b, es2 = a ++ x :: b /\ no_abort a /\ se_op x = SAbort /\
       ~ all_closed (es1 ++ e :: a) (se_ids e)).
Proof. intros s es es1 es2 e c ps. apply outcomes. Qed.
Print Assumptions C13_outcomes.

Definition crab1 : problem := PUsesBuildScript (PkgId (lit "crab1") [1]).
Definition crab2 : problem := PUsesBuildScript (PkgId (lit "crab2") [1]).
Definition crab3 : problem := PUsesBuildScript (PkgId (lit "crab3") [1]).

(** Two clients share a problem; it is replaced by another one, which is then resolved. *)
Definition ex_ops : list store_op :=
  [SAdd 0 [crab1]; SAdd 1 [crab1; crab2]; SReplace 0 [crab3]; SReplace 2 []; SAbort].

Example C13_ex :
  match store_run store_init ex_ops with
  | Some (_, es) =>
      received es 0 = [Continue] /\ received es 1 = [GiveUp] /\ NoDup (clients es) /\
      map se_ids es = [[0]; [0; 1]; [2]; []; []] /\
      received (take 3 es) 0 = []
  | None => False
  end.
Proof.
  vm_compute. split; [done|]. split; [done|]. split; [|done].
  repeat (apply NoDup_cons; split; [set_solver|]). apply NoDup_nil_2.
Qed.

(** ** C14: deduplication and stable ids *)

(** Open problems are pairwise different. A problem that is submitted while the same
    problem is open gets its id; every submitted problem is shown under its id until
    that is resolved; and an id is used for the same problem always. *)
Theorem C14_dedup :
  forall (s : store) (es : list store_event), history s es ->
  (forall id id' p p', is_open s id p -> is_open s id' p' -> same_problem p p' -> id = id') /\
  (forall p id, got_id es p id -> ~ closed es id -> exists q, is_open s id q /\ same_problem q p) /\
  (forall p p' id, got_id es p id -> got_id es p' id -> same_problem p p') /\
  (forall id q, is_open s id q -> ~ closed es id).
Proof.
  intros s es Hh. split_and!.
  - intros id id' p p' H H' Hs%same_problem_iff. by eapply distinct_keys.
  - intros p id Hg Hc. destruct (open_unless_closed s es id Hh) as [q Hq]; [by exists p|done|].
    exists q. split; [done|]. apply same_problem_iff.
    destruct (ids_stable s es Hh) as (_ & H & _). apply is_open_iff in Hq. by apply (H _ _ _ Hg Hq).
  - intros p p' id H H'. apply same_problem_iff. destruct (ids_stable s es Hh) as (_ & _ & Hs).
    by eapply Hs.
  - intros id q Hq%is_open_iff. rewrite (closed_iff s es id Hh). congruence.
Qed.
Print Assumptions C14_dedup.

(** One operation: a problem joins the same problem if that is open; a resolved id is
    never handed out or shown again; other problems stay open; problems that appear
    come after all those that were open. *)
Theorem C14_step :
  forall (s s' : store) (es : list store_event) (e : store_event),
  history s es -> store_step s (se_op e) = Some (s', e) ->
  (forall k p id j q, submitted (se_op e) !! k = Some p -> se_ids e !! k = Some id ->
     is_open s j q -> same_problem q p -> id = j) /\
  length (se_ids e) = length (submitted (se_op e)) /\
  (forall id, closed es id -> id ∉ se_ids e /\ forall q, ~ is_open s' id q) /\
  (forall id q, is_open s id q -> (forall ps, se_op e <> SReplace id ps) ->
     exists q', is_open s' id q' /\ same_problem q' q) /\
  (forall id q, is_open s' id q ->
     (exists q0, is_open s id q0) \/ forall j q0, is_open s j q0 -> j < id).
Proof.
  intros s s' es e Hh Hstep. split_and!.
  - intros k p id j q Hp Hid Hj Hs. by eapply (joins_open s es s' e k p id).
  - by eapply ids_length.
  - intros id Hc. by eapply never_reused.
  - intros id q Hq Hne. apply is_open_iff in Hq.
    destruct (step_problems _ _ _ _ Hh Hstep) as (s0 & s1 & H0 & (_ & _ & _ & G & _) & Heq & _).
    assert (Hq0 : st_problems s0 !! id = Some (Some q)).
    { destruct (replaced_id (se_op e)) as [i|] eqn:Ei; [|by rewrite H0].
      destruct H0 as [_ H0]. rewrite H0. rewrite list_lookup_insert_ne; [done|].
      intros ->. destruct (se_op e) eqn:Eop; try done. cbn in Ei. injection Ei as ->.
      by apply (Hne replacement). }
    destruct (G _ _ Hq0) as (q' & Hq' & Hk & _). exists q'.
    split; [apply is_open_iff; congruence|by apply same_problem_iff].
  - intros id q. by eapply new_ids_at_end.
Qed.
Print Assumptions C14_step.

(** What the user interface iterates over is in order of the ids, and the counters
    agree with it. *)
Theorem C14_iteration :
  forall s : store,
  StronglySorted lt (store_open s).*1 /\ store_len s = length (store_open s) /\
  (store_is_empty s = true <-> store_open s = []).
Proof.
  intros s. split; [apply open_from_sorted|]. split; [apply store_len_spec|apply store_is_empty_spec].
Qed.
Print Assumptions C14_iteration.

Definition some_usage (n : nat) : api_usage := ApiUsage [lit "std"; lit "fs"] None n.
Definition fs_usage (l : list nat) : problem :=
  PDisallowedApiUsage (ApiUsages (PkgId (lit "foo") [1]) All (lit "fs") (map some_usage l)).

Example C14_ex :
  match store_run store_init
          [SAdd 0 [fs_usage [1]; crab1]; SAdd 1 [fs_usage [2; 3]]; SReplace 1 []; SAdd 2 [crab1]] with
  | Some (s, es) =>
      map se_ids es = [[0; 1]; [0]; []; [2]] /\
      store_open s = [(0, fs_usage [1; 2; 3]); (2, crab1)]
  | None => False
  end.
Proof. by vm_compute. Qed.

(** ** C15: crashes, and merging *)

(** An operation of the store crashes exactly if it submits nothing, replaces a problem
    that is not open, or replaces an open problem by the same problem. *)
Theorem C15_crashes :
  forall (s : store) (es : list store_event) (op : store_op), history s es ->
  store_step s op = None <->
  (exists c, op = SAdd c []) \/
  (exists id ps, op = SReplace id ps /\
     ((forall q, ~ is_open s id q) \/
      exists q p, is_open s id q /\ p ∈ ps /\ same_problem p q)).
Proof. intros s es op. setoid_rewrite <- same_problem_iff. apply panics_iff. Qed.
Print Assumptions C15_crashes.

(** An open problem mentions exactly the usages of the reports that were joined into it. *)
Theorem C15_usages :
  forall (s : store) (es : list store_event) (id : nat) (q : problem) (u : api_usage),
  history s es -> is_open s id q ->
  u ∈ usages_in q <-> exists p, got_id es p id /\ u ∈ usages_in p.
Proof. intros s es id q u. apply usages_exact. Qed.
Print Assumptions C15_usages.

Example C15_ex :
  exists s es, history s es /\ is_open s 0 (fs_usage [1; 2; 2]) /\
    store_step s (SReplace 0 [crab1; crab2]) <> None /\
    store_step s (SReplace 1 []) = None.
Proof.
  destruct (store_run store_init [SAdd 0 [fs_usage [1]]; SAdd 1 [fs_usage [2; 2]]])
    as [[s es]|] eqn:E; [|discriminate E].
  exists s, es. split; [by eexists|]. vm_compute in E. injection E as <- <-.
  split; [vm_compute; left|]. done.
Qed.

(** ** C51: replacing an open problem by any list *)

(** Refuted: a replacement that contains the same problem, e.g. the same API usage with
    the remaining references, crashes the process. *)
Theorem C51_replace_never_crashes_refuted :
  exists (s : store) (es : list store_event) (id : nat) (q : problem) (ps : list problem),
    history s es /\ is_open s id q /\ store_step s (SReplace id ps) = None.
Proof.
  destruct (store_run store_init [SAdd 0 [fs_usage [1; 2]]]) as [[s es]|] eqn:E; [|discriminate E].
  exists s, es, 0, (fs_usage [1; 2]), [fs_usage [2]]. split; [by eexists|].
  vm_compute in E. injection E as <- <-. split; [vm_compute; left|done].
Qed.
Print Assumptions C51_replace_never_crashes_refuted.
