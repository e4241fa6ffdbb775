(** What the preview of a fix should show. *)
From Verif Require Import Base DiffModel DiffSpec.

Definition changes (script : list diff_line) : Prop := exists d, d ∈ script /\ is_change d = true.

(** What comes before the changes: what the fix does, why it cannot be applied, a heading if there are changes. *)
Inductive introduction (help : str) : option str -> list diff_line -> list str -> Prop :=
| intro_nothing script : ~ changes script -> introduction help None script [help]
| intro_changes script : changes script ->
    introduction help None script [help; []; lit "=== Diff of cackle.toml ==="]
| intro_failed error script : ~ changes script -> introduction help (Some error) script [help; []; error]
| intro_failed_changes error script : changes script ->
    introduction help (Some error) script [help; []; error; []; lit "=== Diff of cackle.toml ==="].
