(** What the answers of programs mean. *)
From Verif Require Import Base TextSpec SubprocessModel FrontSpec.

(** The program was run and exited with success; it printed this. *)
Definition printed (run : option proc_output) (out : str) : Prop :=
  exists err, run = Some (ProcOutput (Some 0%Z) out err).

Definition worked (run : option proc_output) : Prop := exists out, printed run out.

(** The program was run and answered with this text, up to white space around it. *)
Definition answered (run : option proc_output) (text : str) : Prop :=
  exists out, printed run out /\ is_utf8 out /\ trims_to out text.
