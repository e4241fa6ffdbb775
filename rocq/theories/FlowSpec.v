(** What the processes of a build should know of the configuration. *)
From Verif Require Import Base ConfigModel FlowModel.

(** JSON that is printed can be parsed. *)
Definition reads_back (print : json -> str) (parse : str -> option json) : Prop :=
  forall j, parse (print j) = Some j.

(** A process decides as the configuration says: permissions for unsafe code, extern declarations and the
    sandbox of every crate, and the sandbox of rustc. *)
Definition decides_like (s : sub_config) (c : config) : Prop :=
  (forall pkg kind,
     unsafe_permitted (sc_permissions s) pkg kind = unsafe_permitted (cf_permissions c) pkg kind /\
     extern_permitted (sc_permissions s) (cm_version (sc_common s)) pkg kind =
       extern_permitted (cf_permissions c) (rc_version (cf_raw c)) pkg kind) /\
  (forall sel, pc_sandbox <$> sc_permissions s !! sel = pc_sandbox <$> cf_permissions c !! sel) /\
  sc_rustc s = rc_rustc_sandbox (cf_raw c).

Section reloads.
  Context {doc : Type}.

  (** What the file contained at some time from [s] to [s']. *)
  Definition contents_since (s s' : flow (doc := doc)) (d : doc) : Prop :=
    exists saved, fl_file s' = saved ++ fl_file s /\ (d ∈ saved \/ head (fl_file s) = Some d).
End reloads.

(** Whether anybody saved the file. *)
Definition no_save {doc : Type} (es : list (flow_event (doc := doc))) : Prop := forall d, FSave d ∉ es.
