(** C42: what a relocation refers to. *)
From Verif Require Import Base NamesModel GraphModel GraphSpec GraphProofs.

(** The symbols found for a relocation are exactly those it refers to: its own symbol, or, if that is not in the
    binary, the first symbol of the section it lies in, or, if that is not in the binary either, whatever the
    relocations of that section refer to. This holds for every graph of sections, also with cycles. There is no
    result only if a target is met that is neither a symbol nor in a section of the file. *)
Theorem C42_followed :
  forall (o : obj_file) (bin : gmap str nat) (t : rel_target),
  well_formed o ->
  exists infos, object_index o = Some infos /\
    match target_symbols o infos bin t with
    | TOk symbols _ => (forall s, s ∈ symbols <-> refers_to o bin t s) /\
                       forall t', leads_to o bin t t' -> ~ broken o bin t'
    | TError => exists t', leads_to o bin t t' /\ broken o bin t'
    | TFuel => False
    end.
Proof.
  intros o bin t Hwf. destruct (object_index_total o Hwf) as [infos E]. exists infos. split; [done|].
  by apply target_symbols_ok.
Qed.
Print Assumptions C42_followed.

(** The symbols taken to be in the binary are those of its symbol table, without the functions of
    [core::ops::function], which are looked through. *)
Theorem C42_binary :
  forall (syms : list (str * nat)) (bin : gmap str nat),
  load_symbols syms ∅ = Some bin ->
  forall s, linked bin s <-> exists a, (s, a) ∈ syms /\ is_look_through s = Some false.
Proof.
  intros syms bin H s. rewrite (load_symbols_spec syms ∅ bin H s). unfold linked. rewrite lookup_empty.
  split; [intros [[? ?]|?]; [done|done]|by right].
Qed.
Print Assumptions C42_binary.

(** Two sections without symbols that refer to each other; one of them to a function. *)
Definition ex_obj : obj_file :=
  ObjFile [ObjSymbol [] false None 0;
           ObjSymbol (lit "main") true (Some 1) 0;
           ObjSymbol [] true (Some 2) 0;
           ObjSymbol [] true (Some 3) 0;
           ObjSymbol (lit "write") false None 0;
           ObjSymbol (lit ".Llocal") true (Some 1) 8]
          [ObjSection 1 [(4, TargetSymbol 2); (9, TargetSymbol 5)];
           ObjSection 2 [(0, TargetSymbol 3); (8, TargetSymbol 5)];
           ObjSection 3 [(0, TargetSymbol 2); (8, TargetSymbol 4)]].
Definition ex_bin : gmap str nat := <[lit "main" := 4096]> ∅.

Example C42_ex :
  well_formed ex_obj /\ (exists infos, object_index ex_obj = Some infos /\
    (exists v, target_symbols ex_obj infos ex_bin (TargetSymbol 2) = TOk [lit "write"; lit "main"] v) /\
    (exists v, target_symbols ex_obj infos ex_bin (TargetSymbol 5) = TOk [lit "main"] v) /\
    target_symbols ex_obj infos ex_bin (TargetSymbol 0) = TError).
Proof.
  split.
  - split; [apply (bool_decide_unpack _); vm_compute; exact I|].
    intros s i Hs (Hn & Hd & Hi). exists (ObjSection 1 [(4, TargetSymbol 2); (9, TargetSymbol 5)]).
    assert (i = 1) as ->; [|split; [left|done]].
    repeat (apply elem_of_cons in Hs as [->|Hs]); [done|by injection Hi|done|done|done|by injection Hi|].
    by apply elem_of_nil in Hs.
  - destruct (object_index ex_obj) as [infos|] eqn:E; [|vm_compute in E; done]. exists infos. split; [done|].
    vm_compute in E. injection E as <-. split_and!; [eexists; vm_compute; reflexivity|eexists; vm_compute; reflexivity|].
    vm_compute. reflexivity.
Qed.

Example C42_binary_ex :
  exists bin, load_symbols [(lit "main", 16); (lit "_ZN4core3ops8function2Fn17h0123456789abcdefE", 32)] ∅ = Some bin /\
    bin !! lit "main" = Some 16 /\ bin !! lit "_ZN4core3ops8function2Fn17h0123456789abcdefE" = None.
Proof. eexists. split; [vm_compute; reflexivity|]. split; vm_compute; reflexivity. Qed.
