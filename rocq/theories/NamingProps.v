(** Names and the details of a use. *)
From Verif Require Import Base CollectModel NamingModel NamingSpec NamingProofs.

(** C276: a function known from debug information is written as its modules and its name, with two colons in between, and so is the
    name that was matched. If no part has a colon, the same text means the same function. *)
Theorem C276_written (d : debug_name) : path_text (dn_namespace d ++ [dn_name d]) (debug_display d).
Proof. apply debug_path. Qed.
Print Assumptions C276_written.

Theorem C276_matched (parts : list str) : parts <> [] -> path_text parts (name_display parts).
Proof. apply join_path. Qed.
Print Assumptions C276_matched.

Theorem C276_same (d e : debug_name) :
  Forall colonless (dn_namespace d ++ [dn_name d]) -> Forall colonless (dn_namespace e ++ [dn_name e]) ->
  debug_display d = debug_display e -> d = e.
Proof. apply debug_inj. Qed.
Print Assumptions C276_same.

Example C276_ex : debug_display (DebugName [lit "std"; lit "fs"] (lit "read")) = lit "std::fs::read".
Proof. vm_compute. reflexivity. Qed.
Example C276_ex_top : debug_display (DebugName [] (lit "main")) = lit "main".
Proof. vm_compute. reflexivity. Qed.
Example C276_ex_colonless : Forall colonless (dn_namespace (DebugName [lit "std"; lit "fs"] (lit "read")) ++ [lit "read"]).
Proof. unfold colonless. repeat constructor; apply (bool_decide_unpack _); vm_compute; exact I. Qed.

(** C277: the details of a use are a table: whatever the keys and values, each line starts with its key, and all values start in the
    same column, behind at least one space. Making the table never crashes. *)
Theorem C277_table (details : list (str * str)) :
  exists lines column, details_lines details = Some lines /\
    Forall2 (table_of column) details (map (fun l : str * str => l.1 ++ l.2) lines).
Proof. apply details_table. Qed.
Print Assumptions C277_table.

Example C277_ex :
  details_lines (use_details (fun s => s) (FromSymbol (lit "main")) (FromDebug (DebugName [lit "std"; lit "fs"] (lit "read")))
                   [lit "std"; lit "fs"; lit "read"]) =
  Some [(lit "From         ", lit "main"); (lit "To           ", lit "std::fs::read"); (lit "Matched name ", lit "std::fs::read")].
Proof. vm_compute. reflexivity. Qed.
