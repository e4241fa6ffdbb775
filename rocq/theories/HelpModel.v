(** The help that is shown for a fix. Source: /repo/src/config_editor.rs. Only the help of the fix that
    allows the use of an API depends on the fix; the other texts that promise something about later
    runs are quoted in HelpProps beside the theorems about them. *)
From Verif Require Import Base ConfigModel ProblemModel EditorModel ReportModel TitleModel.

Section help.
  Context (version_text : list nat -> str) (unique : pkg_id -> bool).

  (** [help] of [AllowApiUsage] (config_editor.rs:829-849); [p] is the package of the usage, the scope is
      that of the fix (config_editor.rs:352-365). *)
  Definition allow_help (p : pkg_id) (api : str) (s : scope) : str :=
    let pkg := pkg_display (shown_id version_text unique p) in
    lit "Allow " ++ quoted pkg ++ lit " to use " ++ quoted api ++ lit " API" ++
    match s with
    | All => lit " in any binary"
    | Build => lit ", but only in its own build script"
    | Test => lit ", but only in its own tests"
    | FromBuild => lit ", but only from build scripts"
    | FromTest => lit ", but only from tests"
    end.
End help.
