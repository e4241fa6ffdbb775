(** Absurd messages, the shown command line of the sandbox, and the output of cargo.
    Sources: /repo/src/proxy/rpc.rs:150-158, /repo/src/sandbox/bubblewrap.rs:20-44, 92-97, 107-126,
    /repo/src/proxy.rs:174-197, 267-298. *)
From Coq Require Import NArith.
From Verif Require Import Base TextModel IoModel SandboxModel.

(** ** Messages *)

(** [read_from_stream] (rpc.rs:150-158) with the buffer that is allocated before the message is read. *)
Inductive reading (V : Type) := Got (v : V) (rest : str) | Failed | Died.
Arguments Got {V}. Arguments Failed {V}. Arguments Died {V}.

(** [vec![0u8; len]] ends the process if more than [memory] bytes are asked for; [memory] is less than 2^63,
    from where on Rust itself refuses. *)
Definition read_message {V} (memory : N) (from_str : str -> option V) (stream : str) : reading V :=
  match read_exact 8 stream with
  | None => Failed
  | Some (len, rest) =>
      if N.ltb memory (from_le_bytes len) then Died
      else match read_exact (from_le_bytes len) rest with
           | None => Failed
           | Some (buf, rest) =>
               if utf8_valid buf then match from_str buf with Some v => Got v rest | None => Failed end
               else Failed
           end
  end.

(** ** The command line of the sandbox *)

(** Digits of [char::escape_unicode], for numbers below 256: no leading zeros. *)
Definition hex_digit (n : nat) : ascii := default "0"%char (lit "0123456789abcdef" !! n).
Definition hex (n : nat) : str :=
  if Nat.ltb n 16 then [hex_digit n] else [hex_digit (Nat.div n 16); hex_digit (Nat.modulo n 16)].

(** One character as [str]'s [Debug] prints it. Characters above ASCII are taken to be printable. *)
Definition debug_char (c : ascii) : str :=
  let n := nat_of_ascii c in
  if Nat.eqb n 0 then lit "\0"
  else if Nat.eqb n 9 then lit "\t"
  else if Nat.eqb n 10 then lit "\n"
  else if Nat.eqb n 13 then lit "\r"
  else if Nat.eqb n 34 then ["092"%char; c]
  else if Nat.eqb n 92 then ["092"%char; c]
  else if Nat.ltb n 32 || Nat.eqb n 127 then lit "\u{" ++ hex n ++ lit "}"
  else [c].

Definition debug_text (s : str) : str := ["034"%char] ++ concat (map debug_char s) ++ ["034"%char].

(** [CommandDisplay::fmt] (bubblewrap.rs:111-126); all texts are valid UTF-8. *)
Definition show_arg (arg : str) : str :=
  if existsb (fun c => Ascii.eqb c " "%char) arg || existsb (fun c => Ascii.eqb c "034"%char) arg || str_eqb arg []
  then [" "%char] ++ debug_text arg
  else [" "%char] ++ arg.

Definition show_command (program : str) (args : list str) : str := program ++ concat (map show_arg args).

(** [display_to_run] (bubblewrap.rs:92-96). *)
Definition display_to_run (args : list str) (envs : list (str * option str)) (program : str) (cmd_args : list str) : str :=
  show_command (lit "bwrap") (bwrap_args args envs program cmd_args).

(** ** The output of cargo *)

(** The two threads that pass on the output of cargo. *)
Inductive channel := Stdout | Stderr.
Global Instance channel_eq_dec : EqDecision channel.
Proof. solve_decision. Defined.

(** A pipe: what has been written and not been read, whether its writing end is closed; and the thread that reads
    it: what it has read and not passed on, whether it has ended. *)
Record pipe := Pipe { pi_waiting : str; pi_closed : bool; pi_held : option str; pi_ended : bool }.

(** [os_locked]: the terminal belongs to the user interface (full_term.rs:76). [os_shown]: what has been written to
    the terminal, in pieces. *)
Record output_state := OutputState {
  os_pipe : channel -> pipe;
  os_locked : bool;
  os_shown : list (channel * str) }.

Definition output_init : output_state := OutputState (fun _ => Pipe [] false None false) false [].

Definition set_pipe (t : channel) (p : pipe) (s : output_state) : output_state :=
  OutputState (fun t' => if decide (t' = t) then p else os_pipe s t') (os_locked s) (os_shown s).

Inductive output_event :=
| Printed (t : channel) (bytes : str)
| Closed (t : channel)
| TakeLock
| GiveLock
| ReadPipe (t : channel) (size : nat)
| PassOn (t : channel)
| SeeEnd (t : channel).

(** One event; [None] if it cannot happen now. [Printed] and [Closed] are cargo's; [ReadPipe], [PassOn] and [SeeEnd]
    are the loop of [start_output_pass_through_thread] (proxy.rs:278-298). A read gives between one byte and 64,
    or none if the pipe is closed and empty. *)
Definition output_step (s : output_state) (e : output_event) : option output_state :=
  match e with
  | Printed t bytes =>
      let p := os_pipe s t in
      if pi_closed p then None
      else Some (set_pipe t (Pipe (pi_waiting p ++ bytes) false (pi_held p) (pi_ended p)) s)
  | Closed t =>
      let p := os_pipe s t in Some (set_pipe t (Pipe (pi_waiting p) true (pi_held p) (pi_ended p)) s)
  | TakeLock => if os_locked s then None else Some (OutputState (os_pipe s) true (os_shown s))
  | GiveLock => if os_locked s then Some (OutputState (os_pipe s) false (os_shown s)) else None
  | ReadPipe t size =>
      let p := os_pipe s t in
      match pi_held p with
      | None =>
          if negb (pi_ended p) && Nat.leb 1 size && Nat.leb size 64 && Nat.leb size (length (pi_waiting p))
          then Some (set_pipe t (Pipe (drop size (pi_waiting p)) (pi_closed p) (Some (take size (pi_waiting p))) false) s)
          else None
      | Some _ => None
      end
  | PassOn t =>
      let p := os_pipe s t in
      match pi_held p with
      | Some bytes =>
          if os_locked s then None
          else Some (set_pipe t (Pipe (pi_waiting p) (pi_closed p) None (pi_ended p))
                       (OutputState (os_pipe s) false (os_shown s ++ [(t, bytes)])))
      | None => None
      end
  | SeeEnd t =>
      let p := os_pipe s t in
      match pi_held p, pi_waiting p with
      | None, [] => if pi_closed p && negb (pi_ended p) then Some (set_pipe t (Pipe [] true None true) s) else None
      | _, _ => None
      end
  end.

Definition output_run (es : list output_event) : option output_state :=
  fold_left (fun s e => s ← s; output_step s e) es (Some output_init).

(** [wait_for_output] (proxy.rs:267-276) returns when both threads have ended. *)
Definition output_waited (s : output_state) : bool := pi_ended (os_pipe s Stdout) && pi_ended (os_pipe s Stderr).
