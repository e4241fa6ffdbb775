(** The programs that cackle runs to find out about its surroundings: bwrap, rustup and rustc.
    Sources: /repo/src/sandbox.rs:222-242, /repo/src/sandbox/bubblewrap.rs:99-105, /repo/src/proxy.rs:146, 243-261,
    /repo/src/main.rs:554-563. *)
From Verif Require Import Base TextModel ConfigModel SubprocessModel.
From Verif Require Import FrontModel.

(** [ExitStatus::success]. *)
Definition success (o : proc_output) : bool := bool_decide (po_code o = Some 0%Z).

(** [has_bwrap] (bubblewrap.rs:99-105): [bwrap] is what running [bwrap --version] gives, [None] if it cannot be run. *)
Definition has_bwrap (bwrap : option proc_output) : bool :=
  match bwrap with Some o => success o | None => false end.

(** [available_kind] (sandbox.rs:222-228). *)
Definition available_kind (bwrap : option proc_output) : sandbox_kind :=
  if has_bwrap bwrap then Bubblewrap else Disabled.

(** [verify_kind] (sandbox.rs:230-242): [false] is the error. *)
Definition verify_kind (bwrap : option proc_output) (kind : sandbox_kind) : bool :=
  negb (bool_decide (kind = Bubblewrap) && match bwrap with None => true | Some _ => false end).

(** [rustup_rustc_path] (proxy.rs:247-261). [rustup] is what [rustup which rustc] gives when run in a directory; no
    directory is set, so it is that in which cackle was started. As in FrontModel.v, [trim] knows the white space of ASCII
    only. *)
Inductive rustup_path := RustupPath (path : str) | RustupError | RustupPanic.

Definition rustup_rustc_path (rustup : str -> option proc_output) (exists_path : str -> bool) (cwd : str) : rustup_path :=
  match rustup cwd with
  | None => RustupError
  | Some o =>
      if negb (success o) then RustupError
      else if negb (utf8_valid (po_stdout o)) then RustupError
      else
        let path := trim (po_stdout o) in
        if exists_path path then RustupPath path else RustupPanic
  end.

(** proxy.rs:146: [None] is the panic. *)
Definition rustc_for_build (rustup : str -> option proc_output) (exists_path : str -> bool) (cwd : str) : option str :=
  match rustup_rustc_path rustup exists_path cwd with
  | RustupPath path => Some path
  | RustupError => Some (lit "rustc")
  | RustupPanic => None
  end.

(** [determine_sysroot] (main.rs:554-563): [rustc] is what [rustc --print sysroot] gives in a directory; [None] is an
    error. *)
Definition determine_sysroot (rustc : str -> option proc_output) (root : str) : option str :=
  match rustc root with
  | None => None
  | Some o => if utf8_valid (po_stdout o) then Some (trim (po_stdout o)) else None
  end.
