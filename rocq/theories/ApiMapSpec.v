(** What "the APIs of a name" means, independently of the table. *)
From Verif Require Import Base ApiMapModel.

(** A path of a configuration file is written as its components joined by
    two colons. *)
Definition written (components : list str) : str := join (lit "::") components.

(** Components as they occur in Rust paths: no colon in them. *)
Definition plain_path (components : list str) : Prop :=
  components <> [] /\ forall c, c ∈ components -> ":"%char ∉ c.

(** An API definition given by component lists, and its text in the
    configuration file. *)
Record api_def := ApiDef {
  ad_name : str;
  ad_include : list (list str);
  ad_exclude : list (list str) }.

Definition in_file (d : api_def) : str * api_config :=
  (ad_name d, ApiConfig (map written (ad_include d)) (map written (ad_exclude d)) []).

Definition well_formed_def (d : api_def) : Prop :=
  (forall p, p ∈ ad_include d -> plain_path p) /\
  (forall p, p ∈ ad_exclude d -> plain_path p).

(** [name] belongs to [api]: below some included path and below no excluded
    path of the same API. *)
Definition belongs (defs : list api_def) (name : list str) (api : str) : Prop :=
  (exists d p, d ∈ defs /\ ad_name d = api /\ p ∈ ad_include d /\ p `prefix_of` name) /\
  ~ (exists d p, d ∈ defs /\ ad_name d = api /\ p ∈ ad_exclude d /\ p `prefix_of` name).

(** A path of a configuration file in its components: it is cut at the first two colons, then at the next ones,
    and so on. *)
Inductive cut_at_colons : str -> list str -> Prop :=
| cut_last s : (forall a b, s <> a ++ lit "::" ++ b) -> cut_at_colons s [s]
| cut_first s rest l :
    (forall a b, s ++ lit ":" <> a ++ lit "::" ++ b) -> cut_at_colons rest l ->
    cut_at_colons (s ++ lit "::" ++ rest) (s :: l).

(** The path covers the name: its components come first in it. *)
Definition covers (path : str) (name : list str) : Prop :=
  exists components, cut_at_colons path components /\ components `prefix_of` name.

(** The name belongs to the API under these definitions. *)
Definition owned (defs : gmap str api_config) (name : list str) (api : str) : Prop :=
  exists x, defs !! api = Some x /\ (exists p, p ∈ ac_include x /\ covers p name) /\
    ~ (exists p, p ∈ ac_exclude x /\ covers p name).
