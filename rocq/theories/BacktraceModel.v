(** Backtraces.
    Source: /repo/src/symbol_graph/backtrace.rs:12-122, /repo/src/symbol_graph.rs:372-377.
    The debug information (what functions there are at an address, by the crate [addr2line]), the demangling of
    names for display and the sysroot in displayed places are inputs. *)
From Verif Require Import Base CollectModel.

(** [add_reference] (backtrace.rs:38-43) for a list of calls. *)
Definition back_references (calls : list (bin_loc * nat)) : gmap nat (list bin_loc) :=
  foldl (fun m c => <[c.2 := default [] (m !! c.2) ++ [c.1]]> m) ∅ calls.

(** [find_frames] (backtrace.rs:102-122); [fuel] bounds the depth of the recursion. *)
Fixpoint find_frames (fuel : nat) (refs : gmap nat (list bin_loc)) (candidate : list nat) (loc : bin_loc)
    (out : list nat) (visited : gset nat) : option (list nat * gset nat) :=
  match fuel with
  | 0 => None
  | S fuel =>
      if bool_decide (bl_address loc ∈ visited) then Some (out, visited)
      else
        let visited := {[bl_address loc]} ∪ visited in
        let candidate := candidate ++ [bl_address loc] in
        match refs !! bl_start loc with
        | Some references =>
            foldl (fun r reference =>
                     match r with
                     | Some (out, visited) => find_frames fuel refs candidate reference out visited
                     | None => None
                     end) (Some (out, visited)) references
        | None => Some (if Nat.ltb (length out) (length candidate) then candidate else out, visited)
        end
  end.

(** The addresses of a backtrace (backtrace.rs:49-56). *)
Definition backtrace_addresses (calls : list (bin_loc * nat)) (query : bin_loc) : option (list nat) :=
  match find_frames (S (S (length calls))) (back_references calls) [] query [] ∅ with
  | Some (out, _) => Some out
  | None => None
  end.

(** [Frame] (backtrace.rs:21-26) *)
Record frame := Frame { fm_name : str; fm_location : option src_loc; fm_inlined : bool }.

Definition mark_last (bt : list frame) : list frame :=
  match last bt with
  | Some f => removelast bt ++ [Frame (fm_name f) (fm_location f) true]
  | None => bt
  end.

(** The functions of one address, the innermost first (backtrace.rs:74-95). *)
Fixpoint push_frames (first : bool) (bt : list frame) (fs : list (str * option src_loc)) : list frame :=
  match fs with
  | [] => bt
  | (name, loc) :: fs =>
      push_frames false ((if first then bt else mark_last bt) ++ [Frame name loc false]) fs
  end.

(** backtrace.rs:71-97; [None] is an error in the debug information. *)
Fixpoint show_frames (frames_at : nat -> option (list (str * option src_loc))) (bt : list frame)
    (addresses : list nat) : option (list frame) :=
  match addresses with
  | [] => Some bt
  | a :: addresses =>
      match frames_at a with
      | Some fs => show_frames frames_at (push_frames true bt fs) addresses
      | None => None
      end
  end.

(** [backtrace] (backtrace.rs:49-98) *)
Definition backtrace (frames_at : nat -> option (list (str * option src_loc))) (calls : list (bin_loc * nat))
    (query : bin_loc) : option (list frame) :=
  match backtrace_addresses calls query with
  | Some addresses => show_frames frames_at [] addresses
  | None => None
  end.

(** The calls of [add_reference] for the references of the object files (symbol_graph.rs:372-377). *)
Definition recorded_calls (bin : gmap str nat) (rs : list reference) : list (bin_loc * nat) :=
  omap (fun r => match sn_symbol (rf_target r) with
                 | Some s => match bin !! s with Some a => Some (rf_bin r, a) | None => None end
                 | None => None
                 end) rs.
