(** The log file, as far as it tells of problems: /repo/src/logging.rs:10-70 and the lines that
    /repo/src/problem_store.rs:71-73 and 158 write. *)
From Verif Require Import Base ApiMapModel ConfigModel ProblemModel StoreModel.

(** [log::Level], from the most to the least important, and our own filter (logging.rs:12-18). *)
Inductive level := LError | LWarn | LInfo | LDebug | LTrace.
Inductive level_filter := FInfo | FDebug | FTrace.

(** The order of [log::Level] and [log::LevelFilter]. *)
Definition level_rank (l : level) : nat :=
  match l with LError => 1 | LWarn => 2 | LInfo => 3 | LDebug => 4 | LTrace => 5 end.

(** [From<LevelFilter>] (logging.rs:62-70). *)
Definition max_level (f : level_filter) : level :=
  match f with FInfo => LInfo | FDebug => LDebug | FTrace => LTrace end.

(** [FileLogger::enabled] (logging.rs:38-40) with the maximum that [init] sets (28). *)
Definition log_enabled (f : level_filter) (l : level) : bool :=
  Nat.leb (level_rank l) (level_rank (max_level f)).

(** The lines about problems, by the problem they show; the time and the level before them (logging.rs:48-54) are
    left out. *)
Inductive log_line := Reported (p : problem) | Resolved (p : problem).

(** [FileLogger::log] (logging.rs:42-55), for a file that can be written: the lines that get into the file. *)
Fixpoint written (f : level_filter) (l : list (level * log_line)) : list log_line :=
  match l with
  | [] => []
  | (v, x) :: l' => if log_enabled f v then x :: written f l' else written f l'
  end.

(** What an operation of the store has to say: [add] (problem_store.rs:71-73) before anything else, [replace] (158)
    once nothing can fail any more. The further line of [resolve_problems_with_empty_diff] (108-110), which comes before
    the line of [replace], is left out. *)
Definition op_lines (s : store) (op : store_op) : list (level * log_line) :=
  match op with
  | SAdd _ ps => map (fun p => (LInfo, Reported p)) ps
  | SReplace id ps =>
      match store_replace s id ps, st_problems s !! id with
      | Some _, Some (Some p) => [(LInfo, Resolved p)]
      | _, _ => []
      end
  | SAbort => []
  end.

(** The log of a list of operations, up to a panic. *)
Fixpoint audit (f : level_filter) (s : store) (ops : list store_op) : list log_line :=
  match ops with
  | [] => []
  | op :: ops' =>
      written f (op_lines s op) ++
      match store_step s op with
      | Some (s', _) => audit f s' ops'
      | None => []
      end
  end.
