(** What clients of the problem store may rely on, in terms of the history of
    operations, the ids handed out and the messages sent. *)
From Verif Require Import Base ApiMapModel ConfigModel ProblemModel StoreModel.

(** A history without a panic, from an empty store. *)
Definition history (s : store) (es : list store_event) : Prop :=
  exists ops, store_run store_init ops = Some (s, es).

(** Problem [id] was replaced (or resolved, by nothing). *)
Definition closed (es : list store_event) (id : nat) : Prop :=
  exists e ps, e ∈ es /\ se_op e = SReplace id ps.

(** Problem [id'] is one of those that replaced [id]. *)
Definition replaced_by (es : list store_event) (id id' : nat) : Prop :=
  exists e ps, e ∈ es /\ se_op e = SReplace id ps /\ id' ∈ se_ids e.

(** [id] is one of [ids], or replaced one of them, directly or in several steps. *)
Definition stems_from (es : list store_event) (ids : list nat) (id : nat) : Prop :=
  exists s, s ∈ ids /\ rtc (replaced_by es) s id.

Definition all_closed (es : list store_event) (ids : list nat) : Prop :=
  forall id, stems_from es ids id -> closed es id.

Definition received (es : list store_event) (client : nat) : list outcome :=
  omap (fun m : message => if bool_decide (m.1 = client) then Some m.2 else None)
    (concat (map se_sent es)).

Definition no_abort (es : list store_event) : Prop := forall e, e ∈ es -> se_op e <> SAbort.

(** The clients in order of their submissions. *)
Definition clients (es : list store_event) : list nat :=
  omap (fun e => match se_op e with SAdd c _ => Some c | _ => None end) es.

(** The problems an operation submits. *)
Definition submitted (op : store_op) : list problem :=
  match op with SAdd _ ps => ps | SReplace _ ps => ps | SAbort => [] end.

(** The problem [p] was submitted and got the id [id]. *)
Definition got_id (es : list store_event) (p : problem) (id : nat) : Prop :=
  exists e k, e ∈ es /\ submitted (se_op e) !! k = Some p /\ se_ids e !! k = Some id.

(** Open problems with their ids, as the user interface sees them. *)
Definition is_open (s : store) (id : nat) (p : problem) : Prop := (id, p) ∈ store_open s.

(** The individual usages that a problem mentions. *)
Definition usages_in (p : problem) : list api_usage :=
  match p with
  | PDisallowedApiUsage u => au_usages u
  | POffTreeApiUsage u _ => au_usages u
  | _ => []
  end.

(** Two reports are about the same thing: they are equal, or they are disallowed usages
    of one API by one package in one scope, or they say that one package may export an
    API of one name. *)
Inductive same_problem : problem -> problem -> Prop :=
| same_refl p : same_problem p p
| same_usage u v :
    au_pkg u = au_pkg v -> au_scope u = au_scope v -> au_api u = au_api v ->
    same_problem (PDisallowedApiUsage u) (PDisallowedApiUsage v)
| same_export pkg api sym sym' :
    same_problem (PPossibleExportedApi pkg api sym) (PPossibleExportedApi pkg api sym').
