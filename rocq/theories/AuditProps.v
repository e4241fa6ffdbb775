(** C281, C282: what the log tells of problems. *)
From Verif Require Import Base BaseFacts ApiMapModel ConfigModel ProblemModel StoreModel StoreSpec StoreProofs.
From Verif Require Import AuditModel AuditSpec AuditProofs.

(** ** C281: the log accounts for everybody who was told to continue *)

(** Whatever level was asked for: if the one who reported [ps] is told to continue, the log has a line for each of [ps], and
    behind these lines one for each that says that it was resolved, naming at least the usages that were reported. *)
Theorem C281_settled :
  forall (f : level_filter) (before after : list store_op) (c : nat) (ps : list problem) (s : store) (es : list store_event),
  store_run store_init (before ++ SAdd c ps :: after) = Some (s, es) -> NoDup (clients es) ->
  received es c = [Continue] ->
  exists rest,
    audit f store_init (before ++ SAdd c ps :: after) = audit f store_init before ++ map Reported ps ++ rest /\
    forall p, p ∈ ps -> settled_in rest p.
Proof. intros f before after c ps s es. apply settled. Qed.
Print Assumptions C281_settled.

(** What the log says was resolved, with all the usages it names, had been reported in earlier lines or been put in the
    place of another problem by an earlier operation. *)
Theorem C281_resolved :
  forall (f : level_filter) (ops : list store_op) (s : store) (es : list store_event) (l1 l2 : list log_line) (q : problem),
  store_run store_init ops = Some (s, es) -> audit f store_init ops = l1 ++ Resolved q :: l2 ->
  exists before op after, ops = before ++ op :: after /\ l1 = audit f store_init before /\
  (exists p, brought_up l1 before p /\ same_problem p q) /\
  forall u, u ∈ usages_in q -> exists p, brought_up l1 before p /\ same_problem p q /\ u ∈ usages_in p.
Proof. intros f ops s es l1 l2 q. apply resolved_source. Qed.
Print Assumptions C281_resolved.

Definition c281_a : problem := PUsesBuildScript (PkgId (lit "crab1") [1]).
Definition c281_b : problem := PUsesBuildScript (PkgId (lit "crab2") [1]).
Definition c281_ops : list store_op := [SAdd 0 [c281_a]; SAdd 1 [c281_a; c281_b]; SReplace 0 []; SReplace 1 []].

(** Two reports of one problem, which is resolved once, for both. *)
Example C281_example :
  exists s es, store_run store_init c281_ops = Some (s, es) /\ received es 0 = [Continue] /\ received es 1 = [Continue] /\
    audit FInfo store_init c281_ops =
      [Reported c281_a; Reported c281_a; Reported c281_b; Resolved c281_a; Resolved c281_b].
Proof.
  destruct (store_run store_init c281_ops) as [[s es]|] eqn:E; [|discriminate E]. exists s, es.
  vm_compute in E. injection E as <- <-. vm_compute. done.
Qed.

(** ** C282: everything the user is asked is in the log *)

(** Refuted: what takes the place of another problem is shown to the user, and later said to be resolved, without having
    been reported. After the missing configuration the question for the sandbox is an example. *)
Definition c282_ops : list store_op := [SAdd 0 [PMissingConfiguration (lit "cackle.toml")]; SReplace 0 [PSelectSandbox]].
Theorem C282_refuted :
  exists s es id, store_run store_init c282_ops = Some (s, es) /\ is_open s id PSelectSandbox /\
    forall f, never_reported (audit f store_init (c282_ops ++ [SReplace id []])) PSelectSandbox /\
      Resolved PSelectSandbox ∈ audit f store_init (c282_ops ++ [SReplace id []]).
Proof.
  destruct (store_run store_init c282_ops) as [[s es]|] eqn:E; [|discriminate E]. exists s, es, 1.
  split; [done|]. vm_compute in E. injection E as <- <-. split; [vm_compute; left|].
  intros f. assert (audit f store_init (c282_ops ++ [SReplace 1 []]) =
    [Reported (PMissingConfiguration (lit "cackle.toml")); Resolved (PMissingConfiguration (lit "cackle.toml"));
     Resolved PSelectSandbox]) as -> by (destruct f; vm_compute; reflexivity).
  split; [|set_solver]. intros p Hp Hs. apply elem_of_cons in Hp as [Hp|Hp].
  - injection Hp as ->. inversion Hs.
  - apply elem_of_cons in Hp as [Hp|Hp]; [discriminate Hp|]. apply elem_of_list_singleton in Hp. discriminate Hp.
Qed.
Print Assumptions C282_refuted.
