(** A successful run of [cargo acl]. *)
From Verif Require Import Base BaseFacts NamesModel ApiMapModel ConfigModel ConfigSpec ProblemModel StoreModel StoreSpec
  CheckerModel CheckerSpec CheckerProps DepsModel DepsSpec DepsProps GraphModel GraphSpec GraphProps CollectModel CollectSpec
  CollectProofs CollectProps ArchiveModel ArchiveSpec ArchiveProofs ArchiveProps UiModel UiSpec UiProps WholeModel WholeSpec WholeProofs.

(** ** C205: success means that everything linked was judged *)

(** If [cargo acl] exits with success, then for every call of the linker in the build, every object that it was given
    from the target directory was read, and every use of an API in an examined section of it is granted in a
    configuration that was loaded before its check ended, or what is shown for it is excused. *)
Theorem C205_success :
  forall (open : str -> option opened) (parse : str -> option obj_file) (read_binary : str -> option binary)
         (canonicalize : str -> option str) (target : str) (details : CheckerModel.link_info -> DepsModel.link_info)
         (enc : full_usage -> nat) (ui_ok : bool) (w : whole_run) (sent : list store_event)
         (li : CheckerModel.link_info) (args : list str) (bytes : str),
  let env := wr_env w in let es := wr_events w in let requests := wr_requests w in
  let read := fun l => read_link open parse read_binary canonicalize target (details l) in
  let scan := graph_scan env enc read in
  fits w sent -> succeeded ui_ok w -> wr_scan w = scan ->
  (forall c, ELoad c ∈ es -> made_for (en_index env) c) ->
  NoDup (map li_sel (links es)) ->
  (forall f, read li = Some f -> one_debug_name (map fst (fa_debug f)) (fa_references f)) ->
  ELinker li ∈ es ->
  (forall p, p ∈ args -> plain_path p) -> link_info_from_args args = Some (details li) ->
  DepsSpec.resolved target -> (forall p q, canonicalize p = Some q -> DepsSpec.resolved q) ->
  linked_from open canonicalize target args bytes ->
  exists i h, es !! i = Some (EComplete h) /\
  exists f b bin o, read li = Some f /\ read_binary (li_output (details li)) = Some b /\
    load_symbols (bi_symbols b) ∅ = Some bin /\ parse bytes = Some o /\
    (well_formed o ->
     forall sec first a d off t s, examined o bin (list_to_map (bi_debug b)) sec first a d ->
       (off, t) ∈ sc_relocations sec -> refers_to o bin t s ->
     exists nm loc r, bi_frames b (a + off - os_address first) = Some (nm, loc) /\
       reference_at (list_to_map (bi_debug b)) first a d off nm loc s r /\
     exists j, j <= i /\ es !! j = Some (EComplete h) /\
       forall apis, classifies (apis_in_force (after env scan requests (take i es))) apis ->
       let pkgs := pkg_ids_for_source env (sy_checker (after env scan requests (take (S j) es))) in
       forall pkg api name src loc from sc,
         charged apis pkgs r pkg api name src loc ->
         CollectSpec.shown_as (nd_names (rf_from r)) from -> scope_in (li_sel li) pkg sc ->
         granted_by (take (S i) es) (pi_name pkg, sc) api \/
         exists r' name' src' outer' rest, r' ∈ fa_references f /\ charged apis pkgs r' pkg api name' src' loc /\
           CollectSpec.shown_as (nd_names (rf_from r')) from /\ no_longer src' src /\ outer_file r' outer' /\
           excused env (sy_checker (after env scan requests (take (S i) es))) pkg (ApiUsage name' outer' rest)).
Proof.
  intros open parse read_binary canonicalize target details enc ui_ok w sent li args bytes env es requests read scan
    F S Hscan Hmade Hnd Hone Hli Hp Hargs Ht Hc Hl.
  destruct (whole_analysed ui_ok w sent li F S Hli) as (i & h & log & Hi & Ho).
  exists i, h. split; [exact Hi|].
  unfold wr_outcomes in Ho. rewrite Hscan in Ho.
  exact (C197_judged open parse read_binary canonicalize target details env enc requests es i h li log args bytes
    Hmade Hnd Hi Ho Hone Hp Hargs Ht Hc Hl).
Qed.
Print Assumptions C205_success.

(** Calls that the compiler has inlined leave no relocation; they are judged by the debug information of the binary. *)
Theorem C205_inlined :
  forall (open : str -> option opened) (parse : str -> option obj_file) (read_binary : str -> option binary)
         (canonicalize : str -> option str) (target : str) (details : CheckerModel.link_info -> DepsModel.link_info)
         (enc : full_usage -> nat) (ui_ok : bool) (w : whole_run) (sent : list store_event)
         (li : CheckerModel.link_info),
  let env := wr_env w in let es := wr_events w in let requests := wr_requests w in
  let read := fun l => read_link open parse read_binary canonicalize target (details l) in
  let scan := graph_scan env enc read in
  fits w sent -> succeeded ui_ok w -> wr_scan w = scan ->
  (forall c, ELoad c ∈ es -> made_for (en_index env) c) ->
  NoDup (map li_sel (links es)) ->
  (forall f, read li = Some f -> one_debug_name (map fst (fa_debug f)) (fa_references f)) ->
  ELinker li ∈ es ->
  exists i h, es !! i = Some (EComplete h) /\
  exists f b, read li = Some f /\ read_binary (li_output (details li)) = Some b /\
    forall x, x ∈ bi_inlined b ->
    exists r, inlined_use x r /\
    exists j, j <= i /\ es !! j = Some (EComplete h) /\
      forall apis, classifies (apis_in_force (after env scan requests (take i es))) apis ->
      let pkgs := pkg_ids_for_source env (sy_checker (after env scan requests (take (S j) es))) in
      forall pkg api name src loc from sc,
        charged apis pkgs r pkg api name src loc ->
        CollectSpec.shown_as (nd_names (rf_from r)) from -> scope_in (li_sel li) pkg sc ->
        granted_by (take (S i) es) (pi_name pkg, sc) api \/
        exists r' name' src' outer' rest, r' ∈ fa_references f /\ charged apis pkgs r' pkg api name' src' loc /\
          CollectSpec.shown_as (nd_names (rf_from r')) from /\ no_longer src' src /\ outer_file r' outer' /\
          excused env (sy_checker (after env scan requests (take (S i) es))) pkg (ApiUsage name' outer' rest).
Proof.
  intros open parse read_binary canonicalize target details enc ui_ok w sent li env es requests read scan
    F S Hscan Hmade Hnd Hone Hli.
  destruct (whole_analysed ui_ok w sent li F S Hli) as (i & h & log & Hi & Ho).
  exists i, h. split; [exact Hi|].
  unfold wr_outcomes in Ho. rewrite Hscan in Ho.
  exact (C206_inlined open parse read_binary canonicalize target details env enc requests es i h li log Hmade Hnd Hi Ho Hone).
Qed.
Print Assumptions C205_inlined.

(** The same with any scanner: every usage that is found is granted or excused, and nothing else is wrong. *)
Theorem C205_checked :
  forall (ui_ok : bool) (w : whole_run) (sent : list store_event) (li : CheckerModel.link_info),
  fits w sent -> succeeded ui_ok w ->
  (forall c, ELoad c ∈ wr_events w -> made_for (en_index (wr_env w)) c) ->
  NoDup (map li_sel (links (wr_events w))) ->
  ELinker li ∈ wr_events w ->
  exists i o ck, wr_scan w ck li = Some o /\ so_base o = [] /\
    forall u, u ∈ so_usages o -> batch_fine (wr_env w) (wr_scan w) (wr_requests w) (take (S i) (wr_events w)) u.
Proof.
  intros ui_ok w sent li F S Hmade Hnd Hli.
  destruct (whole_analysed ui_ok w sent li F S Hli) as (i & h & log & Hi & Ho).
  destruct (C12_clean_means_checked (wr_env w) (wr_scan w) (wr_requests w) (wr_events w) i h li log Hmade Hnd Hi Ho)
    as (j & o & ck & _ & _ & _ & Hs & _ & _ & Hb & Hu).
  by exists i, o, ck.
Qed.
Print Assumptions C205_checked.

(** A run in which the use of [std::fs] is first a problem and then granted. *)
Definition wh_store : store * list store_event :=
  default (store_init, []) (store_run store_init [SAdd 0 [ar_problem]; SReplace 0 []]).
Definition wh_run : whole_run :=
  WholeRun (run_ex (Some 0%Z) false) wh_store.1 ex_env (ar_scan ar_entries (lit "/t")) foo_request ar_events.

Example C205_ex : fits wh_run wh_store.2 /\ succeeded true wh_run /\ ELinker bin_a ∈ wr_events wh_run.
Proof.
  split; [|split; [done|right; left]]. constructor.
  - exists [SAdd 0 [ar_problem]; SReplace 0 []]. vm_compute. reflexivity.
  - vm_compute. reflexivity.
  - done.
  - done.
  - intros _. unfold wr_system. eexists. vm_compute. reflexivity.
  - intros t l Hin. exfalso. unfold wr_outcomes in Hin. pose proof C197_ex as E. unfold outcomes in E.
    cbn [wh_run wr_env wr_scan wr_requests wr_events] in Hin. rewrite E in Hin.
    repeat (apply elem_of_cons in Hin as [Hin|Hin]; [congruence|]). by apply elem_of_nil in Hin.
Qed.

(** A call of the linker that was not checked keeps the run from succeeding, in every run that fits: with the events
    before the first completion there is no success. *)
Example C205_ex_unchecked :
  check_unused ex_env (sy_checker (after ex_env (ar_scan ar_entries (lit "/t")) foo_request (take 3 ar_events))) = None.
Proof. vm_compute. reflexivity. Qed.
