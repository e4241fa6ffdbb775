(** Colours. *)
From Verif Require Import Base LaunchModel ColourModel ColourSpec ColourProofs.

(** C278: cargo is told to use colours exactly if --colour=always is given or, by default, if the standard output is a terminal.
    With --colour=always our own messages have colours, with --colour=never they have none, whatever the terminal and the variables. *)
Theorem C278_cargo (dir tmpdir target_dir exe rustc names : str) (a : launch_args) (b : build_config) (c : colour) (tty : bool) :
  exists ws, coloured_build c tty dir tmpdir target_dir exe rustc names a b = Some ws /\
    (told_always ws <-> c = Always \/ c = Auto /\ tty = true).
Proof. apply build_told. Qed.
Print Assumptions C278_cargo.

Theorem C278_own (c : colour) (tty library : bool) :
  (c = Always -> own_colours c tty library = true) /\ (c = Never -> own_colours c tty library = false).
Proof. by destruct c. Qed.
Print Assumptions C278_own.

Definition c278_args : launch_args := LaunchArgs false None None None None [].
Definition c278_config : build_config := BuildConfig None [] None.

Example C278_example :
  option_map (take 2) (coloured_build Auto true [] [] [] [] [] [] c278_args c278_config) = Some [lit "--color=always"; lit "build"].
Proof. vm_compute. reflexivity. Qed.
Example C278_example_never :
  option_map (take 1) (coloured_build Never true [] [] [] [] [] [] c278_args c278_config) = Some [lit "build"].
Proof. vm_compute. reflexivity. Qed.

(** C279: with --colour=never the output of cargo has colours all the same if it goes to a terminal, since cargo is told nothing; and
    by default it has colours in a file that stderr was redirected to. *)
Theorem C279_refuted :
  exists ws, coloured_build Never true [] [] [] [] [] [] c278_args c278_config = Some ws /\ cargo_colours ws true.
Proof.
  eexists. split; [vm_compute; reflexivity|]. right. split; [|done]. unfold told_never. cbn [head].
  apply (bool_decide_unpack _). vm_compute. exact I.
Qed.
Print Assumptions C279_refuted.

Theorem C279_refuted_file :
  exists ws, coloured_build Auto true [] [] [] [] [] [] c278_args c278_config = Some ws /\ cargo_colours ws false.
Proof. eexists. split; [vm_compute; reflexivity|]. by left. Qed.
Print Assumptions C279_refuted_file.
