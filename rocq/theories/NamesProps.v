(** C19, C59-C61: the names found in symbols and debug names. *)
From Verif Require Import Base BaseFacts TextModel TextSpec Utf8Proofs DemangleModel DemangleSpec BuildScriptSpec.
From Verif Require Import NamesModel NamesSpec NamesProofs.

(** ** C19 *)

(** Reading all names always ends. *)
Theorem C19_terminates : forall ts : list dtoken, names_of ts <> OutOfCalls.
Proof. exact names_of_ends. Qed.
Print Assumptions C19_terminates.

(** Nothing is made up: every part of every name is a text of the symbol. *)
Theorem C19_parts :
  forall (ts : list dtoken) (ns : list (list str)) (u : list str) (e : option str),
  names_of ts = Found ns u e ->
  (forall name s, name ∈ ns -> s ∈ name -> TText s ∈ ts) /\ (forall s, s ∈ u -> TText s ∈ ts).
Proof. intros ts ns u e H. by eapply find_names_from; [| |exact H]. Qed.
Print Assumptions C19_parts.

(** The names are exactly those of the specification, ... *)
Theorem C19_names :
  forall (ts : list dtoken) (ns : list (list str)), names_in [] 0 ts ns -> names_are ts ns.
Proof. exact names_in_are. Qed.
Print Assumptions C19_names.

(** ... which gives names to everything without qualified paths and bad escapes. *)
Theorem C19_total :
  forall ts : list dtoken, no_as ts -> no_escapes ts -> exists ns, names_in [] 0 ts ns.
Proof. intros ts. by apply names_in_total. Qed.
Print Assumptions C19_total.

(** Without qualified paths every run of texts is a name of its own. *)
Theorem C19_runs :
  forall (ts x : list dtoken) (r : list str) (y : list dtoken) (ks : list str),
  no_as ts -> no_escapes ts -> ts = x ++ map TText r ++ y ->
  (x = [] \/ exists x' a, x = x' ++ [TChar a]) ->
  (y = [] /\ (forall r' h, r = r' ++ [h] -> ~ hash h) \/ exists b y', y = TChar b :: y') ->
  counting (braces x) r ks -> ks <> [] ->
  exists ns, names_are ts ns /\ ks ∈ ns.
Proof.
  intros ts x r y ks Ha He E Hx Hy Hk Hn. destruct (names_in_total ts [] 0 Ha He) as [ns H].
  exists ns. split; [by apply names_in_are|]. eapply run_is_name; [exact H|done|exact E| |exact Hy| |done].
  - destruct Hx as [->|Hx]; [by left|by right].
  - by rewrite Z.add_0_l.
Qed.
Print Assumptions C19_runs.

(** With them too, no text that counts is lost. *)
Theorem C19_nothing_lost :
  forall (ts : list dtoken) (ns : list (list str)) (x : list dtoken) (t : str) (y : list dtoken),
  names_in [] 0 ts ns -> ts = x ++ TText t :: y -> significant (braces x) t ->
  ~ (t = lit "as" /\ exists r, y = TChar 32 :: r) -> (hash t -> y <> []) ->
  names_are ts ns /\ exists name, name ∈ ns /\ t ∈ name.
Proof.
  intros ts ns x t y H E Hs Ha Hh. split; [by apply names_in_are|].
  eapply names_in_nothing_lost; [exact H|exact E|by rewrite Z.add_0_l|exact Ha|exact Hh].
Qed.
Print Assumptions C19_nothing_lost.

(** The crate and the module of a symbol are its first and second text, and symbols are
    looked through exactly if they start with [core::ops::function]. *)
Theorem C19_crate_and_module :
  forall (sym : str) (ts : list dtoken), is_utf8 sym -> demangled sym ts ->
  (exists c, crate_name sym = Some c /\ forall t, c = Some t <-> exists ts', ts = TText t :: ts') /\
  (ts <> [] -> exists m, module_name sym = Some m /\
     forall t, m = Some t <-> exists c ts', ts = TText c :: TText t :: ts') /\
  (exists b, is_look_through sym = Some b /\
     (b = true <-> [TText (lit "core"); TText (lit "ops"); TText (lit "function")] `prefix_of` ts)).
Proof.
  intros sym ts Hv%utf8_valid_spec H. split; [|split].
  - eexists. split; [by apply crate_name_spec|]. intros t. split.
    + destruct ts as [|[s|c|e] ts]; try done. intros [= ->]. by eexists.
    + by intros [ts' ->].
  - destruct ts as [|t0 ts]; [done|]. intros _. eexists. split; [by apply module_name_spec|]. intros t. split.
    + destruct t0 as [s|c|e]; try done. destruct ts as [|[s'|c|e] ts]; try done. intros [= ->]. by eexists _, _.
    + intros (c & ts' & [= -> ->]). done.
  - unfold is_look_through. rewrite Hv. by apply (look_through_spec [lit "core"; lit "ops"; lit "function"]).
Qed.
Print Assumptions C19_crate_and_module.

(** Texts that are not UTF-8 have neither crate nor module. *)
Theorem C19_not_text :
  forall sym : str, ~ is_utf8 sym ->
  crate_name sym = Some None /\ module_name sym = Some None /\ is_look_through sym = Some false.
Proof. intros sym H%utf8_invalid_spec. unfold crate_name, module_name, is_look_through. by rewrite H. Qed.
Print Assumptions C19_not_text.

Notation T s := (TText (lit s)).

Lemma counted d t : significant d t -> (fun (t k : str) => significant d t /\ k = t) t t.
Proof. by intros. Qed.

Ltac sig := split; [done|split; [first [by vm_compute|vm_compute; discriminate]|rewrite <- parses_i64_spec; by vm_compute]].
Ltac count := repeat (apply gathered_take; [split; [sig|reflexivity]|]); apply gathered_nil.

(** [<a::A as b::B>::c] *)
Definition ex_qualified : list dtoken :=
  [TChar 60; T "a"; T "A"; TChar 32; T "as"; TChar 32; T "b"; T "B"; TChar 62; T "c"; T "h0123456789abcdef"].

Lemma no_as_short (ts : list dtoken) :
  forallb (fun t => match t with TText s => negb (str_eqb s (lit "as")) | _ => true end) ts = true -> no_as ts.
Proof.
  intros H x y ->. rewrite forallb_app in H. apply andb_true_iff in H as [_ H]. cbn in H. done.
Qed.

Example C19_ex_names :
  names_in [] 0 ex_qualified [[lit "a"; lit "A"]; [lit "b"; lit "B"; lit "c"]] /\
  names_of ex_qualified = Found [[lit "a"; lit "A"]; [lit "b"; lit "B"; lit "c"]] [] None /\
  ex_qualified <> [].
Proof.
  split; [|split; [by vm_compute|done]].
  eapply (in_char [] 0 [] [] 60 _ [[lit "a"; lit "A"]; [lit "b"; lit "B"; lit "c"]]).
  { constructor. }
  { intros _. by apply no_as_short. }
  eapply (in_char [] _ [lit "a"; lit "A"] [lit "a"; lit "A"] 32 _ [[lit "b"; lit "B"; lit "c"]]).
  { count. }
  { intros _. by apply no_as_short. }
  eapply (in_as _ [lit "b"; lit "B"] [lit "b"; lit "B"] [] (lit "c") [T "h0123456789abcdef"]).
  { done. }
  { count. }
  { split; [done|]. split; [by apply no_as_short|]. split; [intros e H; by apply not_elem_of_nil in H|].
    split; [done|]. split; [|done]. intros x y E. by destruct x. }
  { by apply no_as_short. }
  { done. }
  cbn [after_trait]. apply (in_last [lit "b"; lit "B"; lit "c"] _ [lit "h0123456789abcdef"] [] []).
  - left. exists (lit "h0123456789abcdef"). split; [done|]. apply is_hash_spec. by vm_compute.
  - constructor.
Qed.

Example C19_ex_runs :
  let ts := [T "core"; T "ptr"; TChar 60; T "mut"; T "std"; T "fs"; TChar 62; T "x"; T "h0123456789abcdef"] in
  names_of ts = Found [[lit "core"; lit "ptr"]; [lit "std"; lit "fs"]; [lit "x"]] [] None /\
  no_as ts /\ no_escapes ts /\ ts = [T "core"; T "ptr"; TChar 60] ++ map TText [lit "mut"; lit "std"; lit "fs"] ++
    [TChar 62; T "x"; T "h0123456789abcdef"] /\
  counting (braces [T "core"; T "ptr"; TChar 60]) [lit "mut"; lit "std"; lit "fs"] [lit "std"; lit "fs"].
Proof.
  split; [by vm_compute|]. split; [by apply no_as_short|]. split.
  { intros e H. repeat (apply elem_of_cons in H as [H|H]; [discriminate|]). by apply not_elem_of_nil in H. }
  split; [done|]. apply gathered_skip; [by intros b [[H _] _]|]. count.
Qed.

Example C19_ex_crate :
  demangled (lit "_RNvNtC4core3ops1f") [T "core"; T "ops"; T "f"] /\
  crate_name (lit "_RNvNtC4core3ops1f") = Some (Some (lit "core")) /\
  module_name (lit "_RNvNtC4core3ops1f") = Some (Some (lit "ops")) /\
  is_look_through (lit "_ZN4core3ops8function2Fn17h0123456789abcdefE") = Some true /\
  is_look_through (lit "_ZN4core3ops4func2Fn17h0123456789abcdefE") = Some false.
Proof. split; [exists 9; by vm_compute|]. by vm_compute. Qed.

(** ** C59: paths in a trait's arguments *)

(** [<m::S as k::T<std::fs::File>>::f]: the path [std::fs::File] does not start any name, it
    is glued to the end of the name of the method. *)
Theorem C59_paths_kept_refuted :
  exists (sym : str) (ts x y : list dtoken) (r : list str) (ns : list (list str)),
  demangled sym ts /\ no_escapes ts /\
  ts = x ++ TChar 60 :: map TText r ++ TChar 62 :: y /\ counting (braces x) r r /\ r <> [] /\
  names_are ts ns /\ forall name, name ∈ ns -> ~ r `prefix_of` name.
Proof.
  exists (lit "_ZN50_$LT$m..S$u20$as$u20$k..T$LT$std..fs..File$GT$$GT$1f17h0123456789abcdefE").
  eexists _, [TChar 60; T "m"; T "S"; TChar 32; T "as"; TChar 32; T "k"; T "T"],
    [TChar 62; T "f"; T "h0123456789abcdef"], [lit "std"; lit "fs"; lit "File"], _.
  split; [exists 60; vm_compute; reflexivity|]. split.
  { intros e H. repeat (apply elem_of_cons in H as [H|H]; [discriminate|]). by apply not_elem_of_nil in H. }
  split; [by vm_compute|]. split; [count|]. split; [done|]. split; [vm_compute; reflexivity|].
  intros name H. repeat (apply elem_of_cons in H as [->|H]; [intros [z Hz]; vm_compute in Hz; discriminate|]).
  by apply not_elem_of_nil in H.
Qed.
Print Assumptions C59_paths_kept_refuted.

(** ** C60: qualified paths inside a trait's arguments *)

(** [<a::A as b::B<<std::fs::File as c::C>::D>>::e]: [File] is in no name. *)
Theorem C60_no_text_lost_refuted :
  exists (ts x y : list dtoken) (t : str) (ns : list (list str)),
  no_escapes ts /\ ts = x ++ TText t :: TChar 32 :: y /\ significant (braces x) t /\
  names_are ts ns /\ forall name, name ∈ ns -> t ∉ name.
Proof.
  eexists _, [TChar 60; T "a"; T "A"; TChar 32; T "as"; TChar 32; T "b"; T "B"; TChar 60; TChar 60; T "std"; T "fs"],
    [T "as"; TChar 32; T "c"; T "C"; TChar 62; T "D"; TChar 62; TChar 62; T "e"; T "h0123456789abcdef"],
    (lit "File"), _.
  split; [|split; [reflexivity|split; [sig|split; [vm_compute; reflexivity|]]]].
  - intros e H. cbn [app] in H. repeat (apply elem_of_cons in H as [H|H]; [discriminate|]). by apply not_elem_of_nil in H.
  - intros name H. repeat (apply elem_of_cons in H as [->|H]; [rewrite <- mem_str_spec; by vm_compute|]).
    by apply not_elem_of_nil in H.
Qed.
Print Assumptions C60_no_text_lost_refuted.

(** ** C61: generic arguments in v0 symbols *)

(** [a::f::<std::fs::File>] and [<m::X as std::net::T>::f] become one name each: neither the
    argument nor the trait starts a name. *)
Theorem C61_v0_arguments_refuted :
  (exists ts ns, demangled (lit "_RINvC1a1fNtNtC3std2fs4FileE") ts /\
     names_are ts [ns] /\ ~ [lit "std"; lit "fs"; lit "File"] `prefix_of` ns) /\
  (exists ts ns, demangled (lit "_RNvYNtC1m1XNtNtC3std3net1T1f") ts /\
     names_are ts [ns] /\ ~ [lit "std"; lit "net"; lit "T"] `prefix_of` ns).
Proof.
  split; eexists _, _.
  - split; [exists 30; vm_compute; reflexivity|].
    split; [vm_compute; reflexivity|]. intros [z Hz]. by vm_compute in Hz.
  - split; [exists 30; vm_compute; reflexivity|].
    split; [vm_compute; reflexivity|]. intros [z Hz]. by vm_compute in Hz.
Qed.
Print Assumptions C61_v0_arguments_refuted.
