(** Proofs about colours. *)
From Verif Require Import Base LaunchModel ColourModel ColourSpec.

Lemma call_words (dir tmpdir target_dir exe rustc names : str) (a : launch_args) (b : build_config) :
  exists sub rest, sub <> lit "--color=always" /\
    cc_args (build_call dir tmpdir target_dir exe rustc names a b) =
    (if la_colour a then [lit "--color=always"] else []) ++ sub :: rest.
Proof.
  unfold build_call, cargo_command.
  destruct (la_command a) as [[|remaining|remaining|]|]; cbn [cc_args]; eexists; eexists; rewrite <- !app_assoc;
    (split; [|reflexivity]); apply (bool_decide_unpack _); vm_compute; exact I.
Qed.

Section colours.
  Context (dir tmpdir target_dir exe rustc names : str) (a : launch_args) (b : build_config).
  Notation words c tty := (coloured_build c tty dir tmpdir target_dir exe rustc names a b).

  Lemma build_told (c : colour) (tty : bool) :
    exists ws, words c tty = Some ws /\ (told_always ws <-> c = Always \/ c = Auto /\ tty = true).
  Proof.
    unfold coloured_build. destruct c, tty; cbn [detect fst should_use_colour]; cbn [mbind option_bind];
      (eexists; split; [reflexivity|]);
      match goal with |- context [build_call _ _ _ _ _ _ ?x _] =>
        destruct (call_words dir tmpdir target_dir exe rustc names x b) as (sub & rest & Hs & ->) end;
      cbn [la_colour]; unfold told_always; cbn [app head]; split; intros H; try done;
      try (by left); try (by right); try (injection H as H; done); try (by destruct H as [H|[H ?]]).
  Qed.
End colours.
