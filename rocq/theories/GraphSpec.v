(** What a relocation refers to. *)
From Verif Require Import Base GraphModel.

(** [s] gives a name to a place in section [i]. *)
Definition defines (s : obj_symbol) (i : nat) : Prop :=
  os_name s <> [] /\ os_definition s = true /\ os_section s = Some i.

(** The symbol of section [i] with the lowest address; the one that comes first in the table if there are
    several. *)
Definition first_of (symbols : list obj_symbol) (i : nat) (s : obj_symbol) : Prop :=
  exists l1 l2, symbols = l1 ++ s :: l2 /\ defines s i /\
    (forall s', s' ∈ l1 -> defines s' i -> os_address s < os_address s') /\
    (forall s', s' ∈ l2 -> defines s' i -> os_address s <= os_address s').

(** [s] is in the linked binary. *)
Definition linked (bin : gmap str nat) (s : str) : Prop := is_Some (bin !! s).

(** The symbol [sym] speaks for itself: it has a name, and this is in the binary or it is not defined in this
    file. *)
Definition known (bin : gmap str nat) (sym : obj_symbol) : Prop :=
  os_name sym <> [] /\ (linked bin (os_name sym) \/ os_section sym = None).

(** The target is the symbol [s]: itself, or the first symbol of the section it lies in. *)
Definition stands_for (o : obj_file) (bin : gmap str nat) (t : rel_target) (s : str) : Prop :=
  exists n sym, t = TargetSymbol n /\ of_symbols o !! n = Some sym /\
    ((known bin sym /\ s = os_name sym) \/
     (~ known bin sym /\ exists i first, os_section sym = Some i /\ first_of (of_symbols o) i first /\
        linked bin (os_name first) /\ s = os_name first)).

(** The target is in section [i], which has no symbol in the binary. *)
Definition anonymous (o : obj_file) (bin : gmap str nat) (t : rel_target) (i : nat) : Prop :=
  exists n sym, t = TargetSymbol n /\ of_symbols o !! n = Some sym /\ ~ known bin sym /\
    os_section sym = Some i /\
    forall first, first_of (of_symbols o) i first -> ~ linked bin (os_name first).

Definition section_at (o : obj_file) (i : nat) (sec : obj_section) : Prop :=
  sec ∈ of_sections o /\ sc_index sec = i.

(** From one target to another through the relocations of such sections. *)
Inductive leads_to (o : obj_file) (bin : gmap str nat) : rel_target -> rel_target -> Prop :=
| leads_here t : leads_to o bin t t
| leads_through t i sec off t' t'' :
    anonymous o bin t i -> section_at o i sec -> (off, t') ∈ sc_relocations sec ->
    leads_to o bin t' t'' -> leads_to o bin t t''.

(** The symbols that are meant. *)
Definition refers_to (o : obj_file) (bin : gmap str nat) (t : rel_target) (s : str) : Prop :=
  exists t', leads_to o bin t t' /\ stands_for o bin t' s.

(** A target that is neither a symbol nor in a section of the file. *)
Definition broken (o : obj_file) (bin : gmap str nat) (t : rel_target) : Prop :=
  (forall s, ~ stands_for o bin t s) /\ (forall i sec, anonymous o bin t i -> ~ section_at o i sec).

(** Sections have different indices, and every definition is in a section of the file. *)
Definition well_formed (o : obj_file) : Prop :=
  NoDup (map sc_index (of_sections o)) /\
  forall s i, s ∈ of_symbols o -> defines s i -> exists sec, section_at o i sec.
