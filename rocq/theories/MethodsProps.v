(** C249 to C251: methods in v0 symbols. *)
From Verif Require Import Base BaseFacts TextModel TextSpec Utf8Proofs DemangleModel DemangleSpec DemangleProofs
  DemangleProps NamesModel NamesSpec NamesProofs NamesProps ApiMapModel ConfigModel ProblemModel CheckerModel CollectModel CollectSpec
  CollectProps MethodsSpec MethodsProofs.

(** ** C249: methods of traits, and of the first implementation in a module *)

Lemma crate_and_module (sym : str) (ws : list str) (ts : list dtoken) :
  ascii_text sym -> ws <> [] -> demangled sym (map TText ws ++ ts) ->
  NamesModel.crate_name sym = Some (head ws) /\ (2 <= length ws -> module_name sym = Some (ws !! 1)).
Proof.
  intros Ha Hne Hd. destruct (C19_crate_and_module sym _ (proj1 (utf8_valid_spec _) (ascii_valid _ Ha)) Hd)
    as ((c & Hc & Hc') & Hm & _).
  destruct ws as [|w ws]; [done|]. split.
  - rewrite Hc. f_equal. apply Hc'. by eexists.
  - intros Hl. destruct ws as [|w' ws]; [cbn in Hl; lia|]. destruct Hm as (m & Hm & Hm'); [done|].
    rewrite Hm. f_equal. apply Hm'. by eexists _, _.
Qed.

(** Of the symbol of a trait's method, numbered or not, the path of the module of the implementation comes first,
    so its crate and its module are found. *)
Theorem C249_trait_methods :
  forall (number module rest : str) (ws : list str),
  disambiguator number -> v0_path false ws module -> ascii_text rest ->
  let sym := trait_method_symbol number module rest in
  (exists ts, demangled sym (map TText ws ++ ts) /\ demangled (lit "_R" ++ rest) ts) /\
  NamesModel.crate_name sym = Some (head ws) /\ (2 <= length ws -> module_name sym = Some (ws !! 1)).
Proof.
  intros number module rest ws Hn Hm Hr sym. destruct (vnext_total rest Hr) as [ts Hts].
  pose proof (trait_tokens number module rest ws ts Hn Hm Hr Hts) as Hd.
  split; [exists ts; split; [done|by apply from_vnext]|].
  apply (crate_and_module _ _ ts); [|by destruct Hm; [|destruct ws]|done].
  unfold sym, trait_method_symbol. rewrite !ascii_app.
  split_and!; [by repeat constructor|by apply number_ascii|by eapply v0_path_ascii|done].
Qed.
Print Assumptions C249_trait_methods.

(** So do those of the first implementation in a module that is not the top of its crate. *)
Theorem C249_first_methods :
  forall (module rest : str) (ws : list str),
  v0_path false ws module -> 2 <= length ws -> ascii_text rest ->
  let sym := method_symbol [] module rest in
  (exists ts, demangled sym (map TText ws ++ ts) /\ demangled (lit "_R" ++ rest) ts) /\
  NamesModel.crate_name sym = Some (head ws) /\ module_name sym = Some (ws !! 1).
Proof.
  intros module rest ws Hm Hl Hr sym. destruct (vnext_total rest Hr) as [ts Hts].
  pose proof (first_tokens module rest ws ts Hm Hl Hr Hts) as Hd.
  split; [exists ts; split; [done|by apply from_vnext]|].
  destruct (crate_and_module sym ws ts) as [H1 H2]; [|intros ->; cbn in Hl; lia|done|auto].
  unfold sym, method_symbol. rewrite !ascii_app.
  split_and!; [by repeat constructor|constructor|by eapply v0_path_ascii|done].
Qed.
Print Assumptions C249_first_methods.

(** The module [std::fs]. *)
Lemma me_std : v0_path false [lit "std"] (lit "C3std").
Proof.
  apply (v0_crate false (lit "std") (lit "3std")).
  apply (letter_identifier false [] [] (lit "3") "s" (lit "td")); try identifier; done.
Qed.
Lemma me_fs : v0_path false [lit "std"; lit "fs"] (lit "NtC3std2fs").
Proof.
  apply (v0_nested false (lit "t") [lit "std"] (lit "fs") (lit "C3std") (lit "2fs")); [by left|exact me_std|].
  apply (letter_identifier false [] [] (lit "2") "f" (lit "s")); try identifier; done.
Qed.
Lemma me_number : numbered (lit "s_").
Proof. split; [|done]. apply (some_disambiguator []). constructor. Qed.

(** [<std::fs::File as std::io::Read>::read], [std::fs::File::create] in the first implementation. *)
Example C249_ex :
  demangled (trait_method_symbol (lit "s_") (lit "NtC3std2fs") (lit "NtB4_4FileNtNtB6_2io4Read4read"))
    (map TText [lit "std"; lit "fs"; lit "File"; lit "io"; lit "Read"; lit "read"]) /\
  demangled (method_symbol [] (lit "NtC3std2fs") (lit "NtB2_4File6create"))
    (map TText [lit "std"; lit "fs"; lit "File"; lit "create"]) /\
  module_name (method_symbol [] (lit "NtC3std2fs") (lit "NtB2_4File6create")) = Some (Some (lit "fs")).
Proof. split; [exists 20; by vm_compute|]. split; [exists 20; by vm_compute|]. by vm_compute. Qed.

(** ** C250: methods of the other implementations *)

(** Nothing is found in the symbol of a method of an implementation that has a number, whatever the module. *)
Theorem C250_no_names :
  forall (number module rest : str) (ws : list str),
  numbered number -> v0_path false ws module -> ascii_text rest ->
  let sym := method_symbol number module rest in
  demangled sym [] /\ NamesModel.crate_name sym = Some None /\
  forall (apis_for : list str -> gset str) (pkgs_of : str -> option (list pkg_id)) (r : reference) pkg api name source
         location,
    rf_target r = SymAndName (Some sym) None -> ~ charged apis_for pkgs_of r pkg api name source location.
Proof.
  intros number module rest ws Hn Hm Hr sym. pose proof (numbered_tokens number module rest ws Hn Hm Hr) as Hd.
  split; [done|]. split.
  - destruct (C19_crate_and_module sym [] ) as ((c & Hc & Hc') & _); [|done|].
    + apply utf8_valid_spec, ascii_valid. unfold sym, method_symbol. rewrite !ascii_app.
      split_and!; [by repeat constructor|by apply number_ascii; destruct Hn|by eapply v0_path_ascii|done].
    + rewrite Hc. f_equal. destruct c as [c|]; [|done]. destruct (proj1 (Hc' c) eq_refl) as [ts' ?]. done.
  - intros apis_for pkgs_of r pkg api name source location Ht (Ha & _). rewrite Ht in Ha.
    destruct Ha as [[(d & ns & u & Hd' & _) _]|(_ & (s & ns & u & Hs & (_ & ts & Hts & Hns) & Hin & _) & _)]; [done|].
    cbn in Hs. injection Hs as <-. rewrite (produces_fun _ _ _ _ Hts Hd) in Hns.
    assert (Hempty : names_of [] = Found [] [] None) by by vm_compute.
    rewrite Hempty in Hns. injection Hns as <- <-. by apply elem_of_nil in Hin.
Qed.
Print Assumptions C250_no_names.

(** So a package that creates a file is not charged with the API, although it is if the standard library was
    compiled with the other mangling. *)
Definition me_legacy : str := lit "_ZN3std2fs4File6create17h0123456789abcdefE".
Definition me_v0 : str := method_symbol (lit "s_") (lit "NtC3std2fs") (lit "NtB4_4File6create").
Definition me_use (sym : str) : reference := ref (lit "main") 10 (SymAndName (Some sym) None).

Theorem C250_refuted :
  exists (sym : str) (ws : list str) (number module rest : str),
    ws = [lit "std"; lit "fs"] /\ v0_path false ws module /\ disambiguator number /\
    sym = method_symbol number module rest /\ demangled sym [] /\
    collect_usages ex_apis ex_pkgs app_bin [] [me_use sym] = Some [] /\
    exists out, collect_usages ex_apis ex_pkgs app_bin [] [me_use me_legacy] = Some out /\
      map (fun o => (ou_pkg o, ou_api o)) out = [(app, lit "fs")].
Proof.
  exists me_v0, [lit "std"; lit "fs"], (lit "s_"), (lit "NtC3std2fs"), (lit "NtB4_4File6create").
  split; [done|]. split; [exact me_fs|]. split; [apply me_number|]. split; [done|].
  split; [exists 20; by vm_compute|]. split; [by vm_compute|].
  eexists. split; [vm_compute; reflexivity|]. by vm_compute.
Qed.
Print Assumptions C250_refuted.

(** ** C251: methods at the top of a crate *)

(** The tokens are those of what follows the crate; its name is not among them. *)
Theorem C251_no_crate :
  forall (crate t rest : str), v0_identifier false crate t -> ascii_text rest ->
  forall ts, demangled (method_symbol [] (lit "C" ++ t) rest) ts <-> demangled (lit "_R" ++ rest) ts.
Proof.
  intros crate t rest Hi Hr ts. destruct (vnext_total rest Hr) as [ts' Hts].
  pose proof (root_tokens crate t rest ts' Hi Hr Hts) as H1. pose proof (from_vnext rest ts' Hts) as H2.
  split; intros H.
  - by rewrite (produces_fun _ _ _ _ H H1).
  - by rewrite (produces_fun _ _ _ _ H H2).
Qed.
Print Assumptions C251_no_crate.

(** [foo::Foo::bar] becomes [Foo::bar]. *)
Theorem C251_refuted :
  exists (crate module rest : str) (ts : list dtoken),
    v0_path false [crate] module /\ demangled (method_symbol [] module rest) ts /\
    names_are ts [[lit "Foo"; lit "bar"]] /\ ~ TText crate ∈ ts /\
    NamesModel.crate_name (method_symbol [] module rest) = Some (Some (lit "Foo")).
Proof.
  exists (lit "foo"), (lit "C3foo"), (lit "NtB2_3Foo3bar"), [TText (lit "Foo"); TText (lit "bar")].
  split.
  { apply (v0_crate false (lit "foo") (lit "3foo")).
    apply (letter_identifier false [] [] (lit "3") "f" (lit "oo")); try identifier; done. }
  split; [exists 20; by vm_compute|]. split; [by vm_compute|]. split; [|by vm_compute].
  rewrite !elem_of_cons, elem_of_nil. intros [H|[H|[]]]; by injection H.
Qed.
Print Assumptions C251_refuted.
