(** Specification of what is reported about packages themselves: procedural macros, APIs they may export,
    the files they are made of, and the version of the configuration. *)
From Verif Require Import Base ApiMapModel ConfigModel ConfigSpec ProblemModel CheckerModel CheckerSpec.

(** The section of the package permits that it is a procedural macro. *)
Definition may_be_macro (rc : raw_config) (pkg : str) : Prop :=
  exists sec, rc_packages rc !! pkg = Some sec /\ pc_allow_proc_macro sec = true.

(** The file says which APIs to import from the package, perhaps none. *)
Definition imports_stated (rc : raw_config) (pkg : str) : Prop :=
  exists sec, rc_packages rc !! pkg = Some sec /\ pc_import sec <> None.

(** The API already covers the module of that name of the package, or is told to leave it. *)
Definition export_settled (apis : gmap str api_config) (pkg api : str) : Prop :=
  exists a, apis !! api = Some a /\
    (pkg ∈ ac_no_auto_detect a \/ pkg ++ lit "::" ++ api ∈ ac_include a).

(** rustc was run for the package with the file as one of its sources. *)
Definition compiled_for (requests : nat -> rustc_output) (es : list event) (path : str) (p : pkg_id)
    : Prop :=
  exists h, EComplete h ∈ es /\ path ∈ ro_paths (requests h) /\ cs_pkg (ro_sel (requests h)) = p.
