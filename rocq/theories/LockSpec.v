(** Nobody waits for ever for a mutex. *)
From Verif Require Import Base LockModel.

(** A thread has something left to do. *)
Definition unfinished (s : lock_state) (t : nat) : Prop := exists a l, lk_threads s !! t = Some (a :: l).

(** Everybody who has something to do waits for a mutex. *)
Definition deadlocked (s : lock_state) : Prop :=
  (exists t, unfinished s t) /\ forall t, lock_step s t = None.

(** The thread holds a mutex. *)
Definition holds (s : lock_state) (m : mutex) (t : nat) : Prop := holder s m = Some t.
