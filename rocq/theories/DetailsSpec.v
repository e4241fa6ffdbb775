(** What a user can read about a problem in the full-screen interface. *)
From Verif Require Import Base TextModel ConfigModel ReportModel ReportSpec.

Section details.
  Context {K : Type}.

  (** Problems with single uses, which have a list of their own (C168). *)
  Definition has_uses (p : shown_problem K) : Prop :=
    is_Some (uses_of p) \/ is_Some (places_of p).

  (** Problems for which the pane has a text of its own. *)
  Definition has_own_text (p : shown_problem K) : Prop :=
    (exists path, p = RMissingConfiguration path) \/ (exists v, p = RNewVersion v).
End details.

(** The changes that came with a version, as told to users. *)
Inductive notes_for : N -> str -> Prop :=
| notes_2 : notes_for 2 (lit "rustc.sandbox.kind now inherits from sandbox.kind. So if you have a default sandbox configured, updating to version 2 or higher will mean that rustc will now be sandboxed.")
| notes_3 : notes_for 3 (lit "Added field allow_extern").
