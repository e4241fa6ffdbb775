(** Model of the API table: /repo/src/checker/api_map.rs and the first part of
    [Checker::update_config] (/repo/src/checker.rs:167-194). *)
From Verif Require Import Base.

(** [names::split_simple] (/repo/src/names.rs:452-456): [value.split("::")].
    The pieces between successive leftmost occurrences of two colons. *)
Fixpoint split_simple (s : str) : list str :=
  match s with
  | [] => [[]]
  | a :: s' =>
      match a, s' with
      | ":"%char, ":"%char :: s'' => [] :: split_simple s''
      | _, _ =>
          match split_simple s' with
          | p :: ps => (a :: p) :: ps
          | [] => [[a]]
          end
      end
  end.

(** [struct ApiMap] (api_map.rs:16-19). The [FxHashMap] of children is an
    association list; its order is never observable through [get]. *)
Inductive api_map : Type :=
| Node : gset str -> list (str * api_map) -> api_map.

Definition node_apis (t : api_map) : gset str := match t with Node a _ => a end.
Definition node_children (t : api_map) : list (str * api_map) :=
  match t with Node _ c => c end.

(** [Default::default()], and the effect of [clear] (api_map.rs:68-71). *)
Definition api_map_empty : api_map := Node ∅ [].

(** [FxHashMap::get]. *)
Fixpoint child_get (k : str) (l : list (str * api_map)) : option api_map :=
  match l with
  | [] => None
  | (k', t) :: l' => if str_eqb k k' then Some t else child_get k l'
  end.

(** [ApiMap::get] (api_map.rs:25-31). *)
Fixpoint am_get (t : api_map) (key : list str) : gset str :=
  match key with
  | [] => node_apis t
  | k :: key' =>
      match child_get k (node_children t) with
      | Some sub => am_get sub key'
      | None => node_apis t
      end
  end.

(** [self.map.entry(key).or_default()] followed by an update in place. *)
Fixpoint child_upsert (k : str) (f : api_map -> api_map)
    (l : list (str * api_map)) : list (str * api_map) :=
  match l with
  | [] => [(k, f api_map_empty)]
  | (k', t) :: l' =>
      if str_eqb k k' then (k', f t) :: l' else (k', t) :: child_upsert k f l'
  end.

(** [ApiMap::create_entry] (api_map.rs:35-42). *)
Fixpoint create_entry (key : list str) (t : api_map) : api_map :=
  match key with
  | [] => t
  | k :: key' =>
      Node (node_apis t) (child_upsert k (create_entry key') (node_children t))
  end.

(** [ApiMap::update_subtree] (api_map.rs:61-66). *)
Fixpoint update_subtree (f : gset str -> gset str) (t : api_map) : api_map :=
  match t with
  | Node a c => Node (f a) (map (fun p => (p.1, update_subtree f p.2)) c)
  end.

(** [self.map.get_mut(key)] followed by an update in place; [None] when the key
    is absent. *)
Fixpoint child_modify (k : str) (f : api_map -> option api_map)
    (l : list (str * api_map)) : option (list (str * api_map)) :=
  match l with
  | [] => None
  | (k', t) :: l' =>
      if str_eqb k k' then
        match f t with Some t' => Some ((k', t') :: l') | None => None end
      else
        match child_modify k f l' with
        | Some l'' => Some ((k', t) :: l'')
        | None => None
        end
  end.

(** [mut_tree(key).update_subtree(f)] (api_map.rs:46-66 as used at
    checker.rs:178-182 and 188-192). [None] is the panic of [expect]. *)
Fixpoint update_at (key : list str) (f : gset str -> gset str) (t : api_map)
    : option api_map :=
  match key with
  | [] => Some (update_subtree f t)
  | k :: key' =>
      match child_modify k (update_at key' f) (node_children t) with
      | Some c => Some (Node (node_apis t) c)
      | None => None
      end
  end.

(** An [ApiConfig] (config.rs:109-120): include and exclude path prefixes, and the
    packages for which exports of the API are not to be suggested. *)
Record api_config := ApiConfig {
  ac_include : list str;
  ac_exclude : list str;
  ac_no_auto_detect : list str }.

Global Instance api_config_eq_dec : EqDecision api_config.
Proof. solve_decision. Defined.

(** The inner loops of checker.rs:175-184 and 185-194. *)
Fixpoint update_paths (f : gset str -> gset str) (paths : list str) (t : api_map)
    : option api_map :=
  match paths with
  | [] => Some t
  | p :: ps =>
      match update_at (split_simple p) f t with
      | Some t' => update_paths f ps t'
      | None => None
      end
  end.

Fixpoint update_all (paths : api_config -> list str)
    (f : str -> gset str -> gset str) (apis : list (str * api_config))
    (t : api_map) : option api_map :=
  match apis with
  | [] => Some t
  | (name, api) :: rest =>
      match update_paths (f name) (paths api) t with
      | Some t' => update_all paths f rest t'
      | None => None
      end
  end.

(** checker.rs:169-174: entries for every include and exclude path. *)
Definition create_all (apis : list (str * api_config)) (t : api_map) : api_map :=
  fold_left
    (fun t d =>
       fold_left (fun t p => create_entry (split_simple p) t)
         (ac_include d.2 ++ ac_exclude d.2) t)
    apis t.

(** checker.rs:168-194. [config.raw.apis] is a [BTreeMap]; here the list of its
    entries in any order. *)
Definition load_apis (apis : list (str * api_config)) : option api_map :=
  match update_all ac_include (fun api s => {[api]} ∪ s) apis
          (create_all apis api_map_empty) with
  | Some t => update_all ac_exclude (fun api s => s ∖ {[api]}) apis t
  | None => None
  end.

(** [Checker::apis_for_name_iterator] (checker.rs:407-412), as observed after
    loading; [None] is a panic while loading. *)
Definition apis_for_name (apis : list (str * api_config)) (name : list str)
    : option (gset str) :=
  match load_apis apis with
  | Some t => Some (am_get t name)
  | None => None
  end.
