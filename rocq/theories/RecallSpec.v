(** What users of the comment prompt may rely on. *)
From Verif Require Import Base TermModel TermSpec.

(** The texts that were confirmed, the latest first; each at its last time only. *)
Fixpoint latest_first (confirmed : list str) : list str :=
  match confirmed with
  | [] => []
  | c :: before => c :: filter (fun x => x <> c) (latest_first before)
  end.

(** Places of the prompt: 0 is the empty prompt, 1 the latest comment, and so on. Up goes to the one before it
    and stays at the earliest, Down goes back. *)
Definition move (earlier : list str) (n : nat) (up : bool) : nat :=
  if up then Nat.min (S n) (length earlier) else Nat.pred n.
Definition text_at (earlier : list str) (n : nat) : str :=
  match n with 0 => [] | S m => default [] (earlier !! m) end.

Section spec.
  Context (o : outside).

  (** The keys that the interface took during a run, and the states in which it did. *)
  Fixpoint taken (s : term o) (l : list (step o)) : list (term o * key) :=
    match l with
    | [] => []
    | a :: l' =>
        match a with
        | TGo (PollKey k) =>
            match ts_at s, ts_error s with AtKey, false => [(s, k)] | _, _ => [] end
        | _ => []
        end ++
        match term_step o s a with
        | Stepped s' _ => taken s' l'
        | _ => []
        end
    end.

  (** The comments that were confirmed, the latest first. *)
  Definition confirmed (l : list (term o * key)) : list str :=
    rev (omap (fun e : term o * key =>
                 match on_top o e.1, e.2 with
                 | Some (SetComment i), KEnter => match in_value i with [] => None | c => Some c end
                 | _, _ => None
                 end) l).

  (** The text in the prompt. *)
  Definition prompt (s : term o) : option str :=
    match on_top o s with Some (SetComment i) => Some (in_value i) | _ => None end.
End spec.
