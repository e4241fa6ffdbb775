(** The packages that cargo lists, what is reported about them and the pane with their details.
    Sources: /repo/src/crate_index.rs:77-154, 178-204, /repo/src/checker.rs:217-230,
    /repo/src/problem.rs:214-235, /repo/src/ui/full_term/problems_ui.rs:615-675. *)
From Verif Require Import Base TextModel ConfigModel ReportModel.

(** A package of [cargo metadata]. The source is where cargo gets it from; nothing of the code below reads it. *)
Record listed := Listed {
  ls_name : str; ls_version : str; ls_source : str; ls_dir : str;
  ls_description : option str; ls_documentation : option str; ls_macro : bool }.

(** [PackageInfo] (crate_index.rs:61-66) *)
Record info := Info { in_dir : str; in_description : option str; in_documentation : option str; in_macro : bool }.

(** [package_infos] (crate_index.rs:124-132): a later package with the same key replaces an earlier one. The third
    field of [PackageId], whether the name is unique (86-96), is determined by the name and left out of the key. All
    manifests have a directory. *)
Definition package_infos (metadata : list listed) : gmap (str * str) info :=
  foldl (fun m p => <[(ls_name p, ls_version p) := Info (ls_dir p) (ls_description p) (ls_documentation p) (ls_macro p)]> m)
    ∅ metadata.

(** [proc_macros] (crate_index.rs:196-204) and [base_problems] (checker.rs:217-230): the packages that are reported,
    where [permitted] says whether the configuration permits a package of this name to be a procedural macro. *)
Definition reported_macros (metadata : list listed) (permitted : str -> bool) : list (str * str) :=
  omap (fun e : (str * str) * info => if in_macro e.2 && negb (permitted e.1.1) then Some e.1 else None)
    (map_to_list (package_infos metadata)).

(** White space in ASCII. *)
Definition is_white (c : ascii) : bool := bool_decide (c ∈ [" "; "009"; "010"; "011"; "012"; "013"]%char).

(** [str::trim_end] *)
Fixpoint trim_end (s : str) : str :=
  match s with
  | [] => []
  | c :: s => match trim_end s with
              | [] => if is_white c then [] else [c]
              | s => c :: s
              end
  end.

Section pane.
  Context {K : Type}.

  (** [Problem::pkg_id] (problem.rs:214-235) *)
  Definition problem_pkg (p : shown_problem K) : option shown_pkg :=
    match p with
    | RUsesBuildScript p | RProcMacro p => Some p
    | RUnsafe p _ _ | RExtern p _ _ => Some p
    | RApi p _ _ _ | ROffTree p _ _ _ _ => Some p
    | RExecutionFailed p _ _ _ _ => Some p
    | RInstruction p _ => Some p
    | RAvailable p _ | RPossible p _ _ => Some p
    | _ => None
    end.

  (** [render_package_details] (problems_ui.rs:615-638): the title and the text of the pane, without its layout. *)
  Definition package_pane (metadata : list listed) (selected : option (shown_problem K)) : option (str * str) :=
    match match selected with Some p => problem_pkg p | None => None end with
    | None => None
    | Some p =>
        Some (lit "Details for package " ++ pkg_display p,
              match package_infos metadata !! (sp_name p, sp_version p) with
              | Some i =>
                  match in_description i with Some d => lit "Description: " ++ trim_end d ++ [nl] | None => [] end ++
                  lit "Version: " ++ sp_version p ++ [nl] ++
                  match in_documentation i with Some d => lit "Documentation: " ++ d ++ [nl] | None => [] end ++
                  lit "Local path: " ++ in_dir i ++ [nl]
              | None => []
              end)
    end.

  (** [package_tree_text] (problems_ui.rs:648-669): the arguments of cargo; [None] if there is no package. *)
  Definition tree_arguments (manifest : str) (selected : option (shown_problem K)) : option (list str) :=
    match match selected with Some p => problem_pkg p | None => None end with
    | None => None
    | Some p => Some [lit "tree"; lit "--manifest-path"; manifest; lit "-i"; sp_name p ++ lit "@" ++ sp_version p]
    end.
End pane.
