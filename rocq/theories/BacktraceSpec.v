(** What a backtrace should be. *)
From Verif Require Import Base CollectModel BacktraceModel.

(** [calls] lists where references are and what addresses they refer to. Each location of a chain refers to the
    symbol that the one before lies in. *)
Inductive chain (calls : list (bin_loc * nat)) : list bin_loc -> Prop :=
| chain_one l : chain calls [l]
| chain_more l caller p :
    (caller, bl_start l) ∈ calls -> chain calls (caller :: p) -> chain calls (l :: caller :: p).

(** Nothing refers to the symbol that the location lies in. *)
Definition entry_point (calls : list (bin_loc * nat)) (l : bin_loc) : Prop :=
  forall caller, (caller, bl_start l) ∉ calls.

(** A chain from a location to another. *)
Definition leads (calls : list (bin_loc * nat)) (from to : bin_loc) (p : list bin_loc) : Prop :=
  chain calls p /\ head p = Some from /\ last p = Some to.

(** An address belongs to one location. *)
Definition one_location (calls : list (bin_loc * nat)) (query : bin_loc) : Prop :=
  forall l l', l ∈ query :: map fst calls -> l' ∈ query :: map fst calls -> bl_address l = bl_address l' -> l = l'.

(** The frames shown for an address: its functions, all but the outermost marked as inlined. *)
Definition frames_shown (fs : list (str * option src_loc)) (shown : list frame) : Prop :=
  length shown = length fs /\
  forall i f, shown !! i = Some f -> fs !! i = Some (fm_name f, fm_location f) /\
    (fm_inlined f = true <-> S i < length fs).
