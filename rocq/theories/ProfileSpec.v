(** What the analysis needs of the profile that is built. *)
From Verif Require Import Base LaunchModel LaunchSpec ArchiveModel.

(** The command line of cargo gives the setting [key] of the profile [p] the value [v]: of several settings the
    last one counts. *)
Definition profile_setting (p key v : str) : str := lit "profile." ++ p ++ lit "." ++ key ++ lit "=" ++ v.
Definition given (call : cargo_call) (p key v : str) : Prop :=
  exists before after, settings call = before ++ profile_setting p key v :: after /\
    forall v', profile_setting p key v' ∉ after.

(** A word that tells rustc how much debug information to make, in any of the ways of writing it. *)
Definition about_debuginfo (w : str) : Prop :=
  w = lit "-g" \/ exists v, w ∈ [lit "debuginfo=" ++ v; lit "-Cdebuginfo=" ++ v; lit "--codegen=debuginfo=" ++ v].

(** What is left of a binary after [-C strip=symbols]: it has neither symbols nor debug information. *)
Definition stripped (b b' : binary) : Prop :=
  bi_symbols b' = [] /\ bi_debug b' = [] /\ bi_inlined b' = [] /\ forall a, bi_frames b' a = Some (None, None).
