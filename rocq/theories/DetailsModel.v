(** The pane with details in the full-screen interface.
    Sources: /repo/src/ui/full_term/problems_ui.rs:443-463, 1063-1097, /repo/src/config/versions.rs:24-62. *)
From Verif Require Import Base TextModel ConfigModel ReportModel.

(** The numbers and notes of [VERSIONS] (versions.rs:24-62). *)
Definition versions : list (N * str) :=
  [(0%N, []); (1%N, []);
   (2%N, lit "rustc.sandbox.kind now inherits from sandbox.kind. So if you have a default sandbox configured, updating to version 2 or higher will mean that rustc will now be sandboxed.");
   (3%N, lit "Added field allow_extern")].

Section details.
  Context {K : Type} `{EqDecision K} (name_leb : K -> K -> bool) (name_text : K -> str).

  (** [problem_details] (problems_ui.rs:1063-1097). Versions are never negative ([as usize]). *)
  Definition problem_details (p : shown_problem K) : str :=
    match p with
    | RUnsafe _ _ _ | RExtern _ _ _ | RApi _ _ _ _ => lit "Press 'd' to see details of each usage"
    | RMissingConfiguration _ =>
        lit "This user interface can guide you through creating an initial cackle.toml. Press 'h' at any time to see what keys are available."
    | ROffTree p _ api _ non_dep =>
        lit "Although " ++ quoted (pkg_display p) ++ lit " doesn't depend on " ++ quoted (pkg_display non_dep) ++
        lit ", we found code that used the " ++ quoted api ++
        lit " API. Most likely there's a generic parameter being used that allows access to this API, but which hasn't been declared as belonging to this API. It can also be due to a false-positive when a macro defines a symbol, then an inlined function references that symbol."
    | RNewVersion v =>
        lit "A newer config version " ++ number v ++ lit " is available" ++ [nl; nl] ++
        match versions !! N.to_nat v with Some x => snd x | None => [] end
    | _ => display name_leb name_text true p
    end.

  (** [render_details] (problems_ui.rs:443-463): what the pane says, without the layout. *)
  Definition pane (p : option (shown_problem K)) : str :=
    match p with
    | None => []
    | Some p =>
        let details := problem_details p in
        if str_eqb (display name_leb name_text false p) details then [] else details
    end.
End details.
