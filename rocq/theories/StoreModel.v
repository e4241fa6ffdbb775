(** The problem store: /repo/src/problem_store.rs.
    Every operation holds the mutex throughout (problem_store.rs:37-53), so a history
    is a list of operations. *)
From Verif Require Import Base ApiMapModel ConfigModel ProblemModel.

(** outcome.rs *)
Inductive outcome := Continue | GiveUp.

Global Instance outcome_eq_dec : EqDecision outcome.
Proof. solve_decision. Defined.

(** [NotificationEntry] (problem_store.rs:202-205). The channel is named by the number
    of the client that waits on it; [ne_sender] says whether the sender is still there. *)
Record notification := Notification {
  ne_ids : gset nat;
  ne_client : nat;
  ne_sender : bool }.

(** [ProblemStore] (problem_store.rs:23-31), without the event channel. The hash map
    from keys to ids is an association list without repeated keys. *)
Record store := Store {
  st_problems : list (option problem);
  st_entries : list notification;
  st_ids : list (problem * nat);
  st_aborted : bool }.

(** problem_store.rs:57-65 *)
Definition store_init : store := Store [] [] [] false.

Fixpoint key_get (k : problem) (l : list (problem * nat)) : option nat :=
  match l with
  | [] => None
  | (k', id) :: l' => if bool_decide (k = k') then Some id else key_get k l'
  end.

Definition key_remove (k : problem) (l : list (problem * nat)) : list (problem * nat) :=
  filter (fun e => e.1 <> k) l.

Definition set_problems (s : store) (ps : list (option problem)) : store :=
  Store ps (st_entries s) (st_ids s) (st_aborted s).

(** [add_problem] (problem_store.rs:177-199). [None] is a panic: line 186, the index
    of line 184, or inside [merge]. *)
Definition add_problem (s : store) (p : problem) : option (store * nat) :=
  match key_get (dedup_key p) (st_ids s) with
  | Some id =>
      match st_problems s !! id with
      | Some (Some existing) =>
          if bool_decide (p = existing) then Some (s, id)
          else match merge_problem existing p with
               | Some merged => Some (set_problems s (<[id := Some merged]> (st_problems s)), id)
               | None => None
               end
      | _ => None
      end
  | None =>
      let id := length (st_problems s) in
      Some (Store (st_problems s ++ [Some p]) (st_entries s)
              ((dedup_key p, id) :: st_ids s) (st_aborted s), id)
  end.

Fixpoint add_problems (s : store) (ps : list problem) : option (store * list nat) :=
  match ps with
  | [] => Some (s, [])
  | p :: ps' =>
      match add_problem s p with
      | None => None
      | Some (s', id) =>
          match add_problems s' ps' with
          | None => None
          | Some (s'', ids) => Some (s'', id :: ids)
          end
      end
  end.

(** A value sent on the channel of a client. *)
Notation message := (nat * outcome)%type.

(** [add] (problem_store.rs:70-86); [None] is the panic of line 74. *)
Definition store_add (s : store) (client : nat) (ps : list problem)
    : option (store * list nat) :=
  match ps with
  | [] => None
  | _ =>
      match add_problems s ps with
      | None => None
      | Some (s', ids) =>
          Some (Store (st_problems s')
                  (st_entries s' ++ [Notification (list_to_set ids) client true])
                  (st_ids s') (st_aborted s'), ids)
      end
  end.

(** [NotificationEntry::replace_problem] (problem_store.rs:208-219). *)
Definition replace_in_entry (id : nat) (replacements : list nat) (e : notification)
    : notification * list message :=
  if bool_decide (id ∈ ne_ids e) then
    let ids := (ne_ids e ∖ {[id]}) ∪ list_to_set replacements in
    if bool_decide (ids = ∅) && ne_sender e
    then (Notification ids (ne_client e) false, [(ne_client e, Continue)])
    else (Notification ids (ne_client e) (ne_sender e), [])
  else (e, []).

(** [replace] (problem_store.rs:143-164). [None] is a panic: line 147 or 149, or inside
    [add_problem]. *)
Definition store_replace (s : store) (id : nat) (replacement : list problem)
    : option (store * list nat * list message) :=
  match st_problems s !! id with
  | Some (Some p) =>
      match add_problems (set_problems s (<[id := None]> (st_problems s))) replacement with
      | None => None
      | Some (s', ids) =>
          let rs := map (replace_in_entry id ids) (st_entries s') in
          Some (Store (st_problems s') (map fst rs) (key_remove (dedup_key p) (st_ids s'))
                  (st_aborted s'), ids, concat (map snd rs))
      end
  | _ => None
  end.

(** [abort] (problem_store.rs:166-173). *)
Definition store_abort (s : store) : store * list message :=
  (Store (st_problems s) [] (st_ids s) true,
   concat (map (fun e => if ne_sender e then [(ne_client e, GiveUp)] else []) (st_entries s))).

(** [deduplicated_into_iter] (problem_store.rs:124-129, 222-242). *)
Fixpoint open_from (id : nat) (l : list (option problem)) : list (nat * problem) :=
  match l with
  | [] => []
  | Some p :: l' => (id, p) :: open_from (S id) l'
  | None :: l' => open_from (S id) l'
  end.
Definition store_open (s : store) : list (nat * problem) := open_from 0 (st_problems s).

(** problem_store.rs:131-137 *)
Definition store_is_empty (s : store) : bool :=
  forallb (fun p => match p with None => true | Some _ => false end) (st_problems s).
Definition store_len (s : store) : nat :=
  length (filter (fun p : option problem => is_Some p) (st_problems s)).

(** ** Histories *)

(** [resolve] (problem_store.rs:139-141) is [OpReplace id []]. *)
Inductive store_op :=
| SAdd (client : nat) (ps : list problem)
| SReplace (id : nat) (replacement : list problem)
| SAbort.

(** What is visible of one operation: itself, the ids its problems got, and the
    messages it sent. *)
Record store_event := StoreEvent {
  se_op : store_op;
  se_ids : list nat;
  se_sent : list message }.

Definition store_step (s : store) (op : store_op) : option (store * store_event) :=
  match op with
  | SAdd c ps =>
      match store_add s c ps with
      | Some (s', ids) => Some (s', StoreEvent op ids [])
      | None => None
      end
  | SReplace id ps =>
      match store_replace s id ps with
      | Some (s', ids, sent) => Some (s', StoreEvent op ids sent)
      | None => None
      end
  | SAbort => let '(s', sent) := store_abort s in Some (s', StoreEvent op [] sent)
  end.

Fixpoint store_run (s : store) (ops : list store_op) : option (store * list store_event) :=
  match ops with
  | [] => Some (s, [])
  | op :: ops' =>
      match store_step s op with
      | None => None
      | Some (s', e) =>
          match store_run s' ops' with
          | None => None
          | Some (s'', es) => Some (s'', e :: es)
          end
      end
  end.
