(** Which packages should be reported and described. *)
From Verif Require Import Base TextModel ConfigModel ReportModel PackageModel.

(** No two packages have the same name and version: that is possible only if they come from different sources. *)
Definition told_apart (metadata : list listed) : Prop :=
  forall i j p q, metadata !! i = Some p -> metadata !! j = Some q ->
    ls_name p = ls_name q -> ls_version p = ls_version q -> i = j.

(** As cargo allows it: of one source there is only one package of a name and a version. *)
Definition cargo_packages (metadata : list listed) : Prop :=
  forall i j p q, metadata !! i = Some p -> metadata !! j = Some q ->
    ls_name p = ls_name q -> ls_version p = ls_version q -> ls_source p = ls_source q -> i = j.

(** A package as it is displayed. *)
Definition displayed_as (metadata : list listed) (p : listed) (s : shown_pkg) : Prop :=
  sp_name s = ls_name p /\ sp_version s = ls_version p /\
  (sp_unique s = true <-> forall q, q ∈ metadata -> ls_name q = ls_name p -> q = p).

(** The text without white space at its end. *)
Definition white (c : ascii) : Prop := c ∈ [" "; "009"; "010"; "011"; "012"; "013"]%char.
Definition trimmed (s t : str) : Prop :=
  exists rest, s = t ++ rest /\ Forall white rest /\ (forall c, last t = Some c -> ~ white c).

(** The lines that describe a package. *)
Definition describes (p : listed) (text : str) : Prop :=
  exists description documentation,
    text = description ++ lit "Version: " ++ ls_version p ++ [nl] ++ documentation ++ lit "Local path: " ++ ls_dir p ++ [nl] /\
    match ls_description p with
    | Some d => exists t, trimmed d t /\ description = lit "Description: " ++ t ++ [nl]
    | None => description = []
    end /\
    match ls_documentation p with
    | Some d => documentation = lit "Documentation: " ++ d ++ [nl]
    | None => documentation = []
    end.
