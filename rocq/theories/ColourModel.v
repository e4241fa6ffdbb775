(** Whether output has colours.
    Sources: /repo/src/colour.rs, /repo/src/main.rs:105-107, 218-219, /repo/src/proxy/cargo.rs:37-39, /repo/src/proxy.rs:81-96, 115-173. *)
From Verif Require Import Base LaunchModel.

(** [Colour] (colour.rs:4-10). *)
Inductive colour := Auto | Always | Never.
Global Instance colour_eq_dec : EqDecision colour.
Proof. solve_decision. Defined.

(** [should_use_colour] (colour.rs:13-19); [None] is a panic. *)
Definition should_use_colour (c : colour) : option bool :=
  match c with Auto => None | Always => Some true | Never => Some false end.

(** [detect] (colour.rs:23-41), with the override that is set for our own messages. *)
Definition detect (c : colour) (stdout_is_terminal : bool) : colour * option bool :=
  match c with
  | Auto => (if stdout_is_terminal then Always else Never, None)
  | Always => (Always, Some true)
  | Never => (Never, Some false)
  end.

(** Our own messages: the override, or what the library decides by itself, from variables and the terminal. *)
Definition own_colours (c : colour) (stdout_is_terminal library : bool) : bool :=
  default library (detect c stdout_is_terminal).2.

(** The arguments of cargo for a build; [None] is a panic. *)
Definition coloured_build (c : colour) (stdout_is_terminal : bool) (dir tmpdir target_dir exe rustc names : str) (a : launch_args)
    (b : build_config) : option (list str) :=
  colour ← should_use_colour (detect c stdout_is_terminal).1;
  Some (cc_args (build_call dir tmpdir target_dir exe rustc names
    (LaunchArgs colour (la_command a) (la_profile a) (la_target a) (la_features a) (la_packages a)) b)).
