(** Messages between processes and files written in one step.
    Source: /repo/src/proxy/rpc.rs, /repo/src/fs.rs. *)
From Coq Require Import NArith.
From Verif Require Import Base TextModel DepsModel.

(** ** Messages *)

(** [usize::to_le_bytes], with [k] bytes. *)
Fixpoint to_le_bytes (k : nat) (n : N) : str :=
  match k with
  | 0 => []
  | S k => ascii_of_N (n mod 256) :: to_le_bytes k (n / 256)
  end.

(** [usize::from_le_bytes]. *)
Fixpoint from_le_bytes (s : str) : N :=
  match s with
  | [] => 0
  | c :: s => N_of_ascii c + 256 * from_le_bytes s
  end.

(** [write_to_stream] (rpc.rs:142-147): what is written for a value. [to_string] stands for
    [serde_json::to_string]. *)
Definition write_to_stream {V} (to_string : V -> str) (v : V) : str :=
  to_le_bytes 8 (N.of_nat (length (to_string v))) ++ to_string v.

(** [Read::read_exact]: [None] if the stream ends first. *)
Definition read_exact (n : N) (stream : str) : option (str * str) :=
  if N.leb n (N.of_nat (length stream)) then
    Some (take (N.to_nat n) stream, drop (N.to_nat n) stream)
  else None.

(** [read_from_stream] (rpc.rs:150-158): the value and the rest of the stream. [from_str] stands
    for [serde_json::from_str]. The buffer for an absurd length is in
    [WireModel.read_message]. *)
Definition read_from_stream {V} (from_str : str -> option V) (stream : str) : option (V * str) :=
  match read_exact 8 stream with
  | Some (len, stream) =>
      match read_exact (from_le_bytes len) stream with
      | Some (buf, stream) =>
          if utf8_valid buf then
            match from_str buf with
            | Some v => Some (v, stream)
            | None => None
            end
          else None
      | None => None
      end
  | None => None
  end.

(** ** Files *)

(** A file system: names lead to files, files have content. There are no symbolic links. *)
Record fs := Fs {
  fs_names : gmap str nat;
  fs_data : gmap nat str
}.

Definition content (f : fs) (path : str) : option str :=
  match fs_names f !! path with
  | Some i => fs_data f !! i
  | None => None
  end.

(** Splits a path after its last slash. *)
Fixpoint split_name (path : str) : str * str :=
  match path with
  | [] => ([], [])
  | c :: path =>
      let '(dir, name) := split_name path in
      if Ascii.eqb c "/"%char then (c :: dir, name)
      else match dir with
           | [] => ([], c :: name)
           | _ => (c :: dir, name)
           end
  end.

(** [Path::with_extension], for paths that end neither in a slash nor in a slash and a dot (for
    those the standard library looks at the component before). *)
Definition with_extension (path ext : str) : str :=
  let '(dir, name) := split_name path in
  if mem_str name [[]; lit "."; lit ".."] then path
  else match after_last_dot (tl name) with
       | Some e => dir ++ take (length name - length e - 1) name ++ lit "." ++ ext
       | None => dir ++ name ++ lit "." ++ ext
       end.

(** [write_atomic] (fs.rs:8-20) as seen by the operating system: the temporary file is opened
    and truncated, written in pieces through the open file, and renamed. *)
Inductive progress :=
| NotStarted
| Writing (file offset : nat) (rest : list str)
| Finished
| Stopped.

Record writer := Writer {
  w_path : str;
  w_pieces : list str;
  w_progress : progress
}.

Definition w_tmp (w : writer) : str := with_extension (w_path w) (lit "tmp").

(** [open] with [O_CREAT] and [O_TRUNC]. *)
Definition fs_create (f : fs) (path : str) : nat * fs :=
  match fs_names f !! path with
  | Some i => (i, Fs (fs_names f) (<[i := []]> (fs_data f)))
  | None =>
      let i := fresh (dom (fs_data f) ∪ list_to_set (map snd (map_to_list (fs_names f)))) in
      (i, Fs (<[path := i]> (fs_names f)) (<[i := []]> (fs_data f)))
  end.

(** [write] at an offset. *)
Definition write_at (old : str) (offset : nat) (piece : str) : str :=
  take offset old ++ replicate (offset - length old) (ascii_of_nat 0) ++ piece ++
  drop (offset + length piece) old.

Definition fs_write (f : fs) (i offset : nat) (piece : str) : fs :=
  Fs (fs_names f) (<[i := write_at (default [] (fs_data f !! i)) offset piece]> (fs_data f)).

(** [rename]; [None] if there is nothing to rename. *)
Definition fs_rename (f : fs) (from to : str) : option fs :=
  match fs_names f !! from with
  | Some i => Some (if bool_decide (from = to) then f
                    else Fs (<[to := i]> (delete from (fs_names f))) (fs_data f))
  | None => None
  end.

(** The next system call of a writer. *)
Definition w_step (f : fs) (w : writer) : fs * writer :=
  match w_progress w with
  | NotStarted =>
      let '(i, f) := fs_create f (w_tmp w) in
      (f, Writer (w_path w) (w_pieces w) (Writing i 0 (w_pieces w)))
  | Writing i offset (piece :: rest) =>
      (fs_write f i offset piece,
       Writer (w_path w) (w_pieces w) (Writing i (offset + length piece) rest))
  | Writing i offset [] =>
      match fs_rename f (w_tmp w) (w_path w) with
      | Some f => (f, Writer (w_path w) (w_pieces w) Finished)
      | None => (f, Writer (w_path w) (w_pieces w) Stopped)
      end
  | Finished | Stopped => (f, w)
  end.

(** What can happen: a writer goes on, or stops (a system call fails, or the process is killed). *)
Inductive event := Advance (n : nat) | Stop (n : nat).

Definition sys_step (s : fs * list writer) (e : event) : fs * list writer :=
  match e with
  | Advance n =>
      match s.2 !! n with
      | Some w => let '(f, w) := w_step s.1 w in (f, <[n := w]> s.2)
      | None => s
      end
  | Stop n =>
      match s.2 !! n with
      | Some w => match w_progress w with
                  | Finished => s
                  | _ => (s.1, <[n := Writer (w_path w) (w_pieces w) Stopped]> s.2)
                  end
      | None => s
      end
  end.

Definition sys_run (s : fs * list writer) (es : list event) : fs * list writer := fold_left sys_step es s.

(** Writers that have not started. *)
Definition start (jobs : list (str * list str)) : list writer :=
  map (fun j => Writer j.1 j.2 NotStarted) jobs.
