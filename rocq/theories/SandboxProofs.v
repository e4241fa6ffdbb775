(** Proofs about the sandbox. *)
From Verif Require Import Base BaseFacts TextSpec Utf8Proofs TextModel TextFacts ConfigModel DepsModel DepsSpec DepsProofs NamesProofs SandboxModel SandboxSpec.

(** ** Paths *)

Lemma components_slash a b : components (a ++ "/"%char :: b) = components a ++ components b.
Proof. unfold components. by rewrite split_char_slash, filter_app. Qed.

Lemma components_nil : components [] = [].
Proof. done. Qed.

Lemma components_name n : n <> [] -> n <> lit "." -> "/"%char ∉ n -> components n = [n].
Proof. intros H1 H2 H3. unfold components. rewrite split_char_none by done. by rewrite filter_cons_True. Qed.

Lemma components_last a : last a = Some "/"%char -> forall b, components (a ++ b) = components a ++ components b.
Proof.
  intros [x ->]%last_Some b. rewrite <- app_assoc. cbn [app]. rewrite !components_slash.
  by rewrite components_nil, app_nil_r.
Qed.

Lemma components_join base n :
  n <> [] -> n <> lit "." -> "/"%char ∉ n -> components (path_join base n) = components base ++ [n].
Proof.
  intros H1 H2 H3.
  assert (Hh : head n <> Some "/"%char) by (destruct n; [done|]; cbn; intros [= ->]; apply H3; left).
  destruct (path_join_file base n H1 Hh) as [[-> ->]|[(d & -> & ->)|(Hb & Hl & ->)]].
  - rewrite components_nil. by apply components_name.
  - change (lit "/" ++ n) with ("/"%char :: n). change (lit "/") with ["/"%char].
    rewrite !components_slash, components_nil, app_nil_r. by rewrite (components_name n).
  - change (lit "/" ++ n) with ("/"%char :: n). rewrite components_slash. by rewrite (components_name n).
Qed.

Lemma components_slashes s n : components (s ++ repeat "/"%char n) = components s.
Proof.
  induction n as [|n IH]; [by rewrite app_nil_r|]. cbn [repeat].
  rewrite components_slash. rewrite <- (app_nil_r (components s)) at 2. f_equal.
  clear IH. induction n as [|n IH]; [done|]. cbn [repeat].
  change ("/"%char :: repeat "/"%char n) with ([] ++ "/"%char :: repeat "/"%char n).
  by rewrite components_slash, IH.
Qed.

Lemma drop_slashes_spec s : exists n, s = repeat "/"%char n ++ drop_slashes s /\ head (drop_slashes s) <> Some "/"%char.
Proof.
  induction s as [|c s (n & E & Hh)]; [by exists 0|]. cbn [drop_slashes].
  destruct (Ascii.eqb c "/") eqn:Ec.
  - apply ascii_eqb_spec in Ec as ->. exists (S n). cbn. by rewrite <- E.
  - exists 0. split; [done|]. cbn. intros [= ->]. by rewrite Ascii.eqb_refl in Ec.
Qed.

Lemma drop_name_spec s : exists name, s = name ++ drop_name s /\ "/"%char ∉ name /\
  (drop_name s = [] \/ head (drop_name s) = Some "/"%char).
Proof.
  induction s as [|c s (name & E & Hn & Hh)].
  { exists []. split; [done|]. split; [apply not_elem_of_nil|by left]. }
  cbn [drop_name]. destruct (Ascii.eqb c "/") eqn:Ec.
  - apply ascii_eqb_spec in Ec as ->. exists []. split; [done|]. split; [apply not_elem_of_nil|by right].
  - exists (c :: name). split; [cbn; by rewrite <- E|]. split; [|done].
    rewrite not_elem_of_cons. split; [|done]. intros <-. by rewrite Ascii.eqb_refl in Ec.
Qed.

Lemma reverse_repeat {A} (x : A) n : reverse (repeat x n) = repeat x n.
Proof.
  induction n as [|n IH]; [done|]. cbn [repeat]. rewrite reverse_cons, IH.
  clear IH. induction n as [|n IH]; [done|]. cbn. by rewrite IH.
Qed.

Lemma dotless_app a b : dotless (a ++ "/"%char :: b) -> dotless a /\ dotless b.
Proof. unfold dotless. rewrite split_char_slash, not_elem_of_app. done. Qed.

Lemma dotless_slashes s n : dotless (s ++ repeat "/"%char n) -> dotless s.
Proof. destruct n as [|n]; [by rewrite app_nil_r|]. cbn [repeat]. by intros [? _]%dotless_app. Qed.

Lemma parent_spec p d : dotless p -> path_parent p = Some d -> dotless d /\ exists name, components p = components d ++ [name].
Proof.
  intros Hdot. unfold path_parent.
  destruct (drop_slashes_spec (reverse p)) as (n & E & Hh).
  destruct (drop_slashes (reverse p)) as [|c rev] eqn:Er; [done|].
  assert (Ep : p = reverse (c :: rev) ++ repeat "/"%char n).
  { rewrite <- (reverse_involutive p), E, reverse_app. by rewrite reverse_repeat. }
  destruct (drop_name_spec (c :: rev)) as (name & En & Hn & Hd).
  assert (Hne : name <> []).
  { intros ->. cbn [app] in En. destruct Hd as [Hd|Hd]; [by rewrite Hd in En|]. rewrite <- En in Hd. done. }
  assert (Hdot1 : dotless (reverse (c :: rev))) by (rewrite Ep in Hdot; by apply dotless_slashes in Hdot).
  assert (Hrn : reverse name <> []).
  { intros X. apply Hne. rewrite <- (reverse_involutive name), X. done. }
  assert (Hrs : "/"%char ∉ reverse name) by by rewrite elem_of_reverse.
  assert (Cp : components p = components (reverse (drop_name (c :: rev)) ++ reverse name)).
  { rewrite Ep, components_slashes. rewrite <- reverse_app, <- En. done. }
  destruct (drop_name (c :: rev)) as [|c2 rev2] eqn:Ed.
  - intros [= <-]. split; [unfold dotless; by apply (bool_decide_unpack _)|]. exists (reverse name).
    rewrite Cp. cbn [app]. change (reverse []) with (@nil ascii). cbn [app]. rewrite components_nil. apply components_name; try done.
    intros X. apply Hdot1. rewrite En, reverse_app. rewrite X. rewrite app_nil_r in *. change (reverse []) with (@nil ascii). cbn [app].
    rewrite split_char_none; [left|]. by rewrite <- X.
  - destruct Hd as [Hd|Hd]; [done|]. injection Hd as ->.
    assert (Cn : components (reverse name) = [reverse name]).
    { apply components_name; try done. intros X. rewrite En, reverse_app in Hdot1.
      rewrite reverse_cons, <- app_assoc in Hdot1. cbn [app] in Hdot1. apply dotless_app in Hdot1 as [_ H2].
      apply H2. rewrite split_char_none by done. rewrite X. left. }
    assert (C2 : components p = components (reverse ("/"%char :: rev2)) ++ [reverse name]).
    { rewrite Cp, reverse_cons, components_last by by rewrite last_snoc. by rewrite Cn. }
    assert (Hdot2 : dotless (reverse rev2)).
    { rewrite En, reverse_app, reverse_cons, <- app_assoc in Hdot1. cbn [app] in Hdot1. by apply dotless_app in Hdot1 as [? _]. }
    rewrite reverse_cons in C2. change (reverse rev2 ++ ["/"%char]) with (reverse rev2 ++ repeat "/"%char 1) in C2.
    rewrite components_slashes in C2.
    cbn [drop_slashes]. rewrite Ascii.eqb_refl.
    destruct (drop_slashes_spec rev2) as (m & E2 & _).
    assert (C3 : components (reverse rev2) = components (reverse (drop_slashes rev2))).
    { rewrite E2 at 1. by rewrite reverse_app, reverse_repeat, components_slashes. }
    assert (D3 : dotless (reverse (drop_slashes rev2))).
    { rewrite E2 in Hdot2. rewrite reverse_app, reverse_repeat in Hdot2. by apply dotless_slashes in Hdot2. }
    destruct (drop_slashes rev2) as [|x y] eqn:Ey.
    + intros [= <-]. split; [|exists (reverse name); by rewrite C2, C3]. unfold dotless. by apply (bool_decide_unpack _).
    + intros [= <-]. split; [done|]. exists (reverse name). by rewrite C2, C3.
Qed.

Lemma parent_none p : path_parent p = None -> components p = [].
Proof.
  unfold path_parent. destruct (drop_slashes_spec (reverse p)) as (n & E & _).
  destruct (drop_slashes (reverse p)) as [|c rev] eqn:Er.
  - intros _. rewrite app_nil_r in E. rewrite <- (reverse_involutive p), E, reverse_repeat.
    change (repeat "/"%char n) with ([] ++ repeat "/"%char n). by rewrite components_slashes.
  - destruct (drop_name (c :: rev)) as [|a l]; [done|]. by destruct (drop_slashes (a :: l)).
Qed.

Lemma build_directory_spec bin dir :
  dotless bin -> build_directory bin = Some dir -> program_place (components bin) (components dir).
Proof.
  intros Hdot. unfold build_directory. destruct (path_parent bin) as [parent|] eqn:Ep; [|done].
  apply parent_spec in Ep as [Hdp [name Hn]]; [|done].
  assert (En : path_name parent = last (components parent)) by done.
  destruct (bool_decide_reflect (path_name parent = Some (lit "deps"))) as [Hd|Hd].
  - rewrite En in Hd. apply last_Some in Hd as [up Hup].
    destruct (path_parent parent) as [g|] eqn:Eg.
    + intros [= <-]. apply parent_spec in Eg as [_ [n2 Hn2]]; [|done]. exists (components parent), name. split; [done|].
      left. exists up. split; [done|]. rewrite Hn2 in Hup. by apply app_inj_tail in Hup as [-> _].
    + apply parent_none in Eg. rewrite Eg in Hup. by destruct up.
  - intros [= <-]. exists (components parent), name. split; [done|]. right. split; [|done]. by rewrite <- En.
Qed.

Lemma build_directory_some bin : dotless bin -> components bin <> [] -> is_Some (build_directory bin).
Proof.
  intros Hd Hne. unfold build_directory. destruct (path_parent bin) as [p|] eqn:E.
  - case_bool_decide; [|by eexists]. destruct (path_parent p); by eexists.
  - by apply parent_none in E.
Qed.

Lemma program_place_fun bin d d' : program_place bin d -> program_place bin d' -> d = d'.
Proof.
  intros (p & n & -> & H1) (p' & n' & E & H2). apply app_inj_tail in E as [-> _].
  destruct H1 as [(u & -> & ->)|[Hl ->]], H2 as [(u' & E & ->)|[Hl' ->]]; try done.
  - by apply app_inj_tail in E as [-> _].
  - by rewrite last_snoc in Hl'.
  - rewrite E in Hl. by rewrite last_snoc in Hl.
Qed.

(** ** Operations *)

Inductive op := OTmpfs (d : str) | ORo (d : str) | OBind (d : str) | OSet (v x : str) | ONet.

Definition op_texts (o : op) : list str :=
  match o with
  | OTmpfs d => [lit "--tmpfs"; d]
  | ORo d => [lit "--ro-bind"; d; d]
  | OBind d => [lit "--bind-try"; d; d]
  | OSet v x => [lit "--setenv"; v; x]
  | ONet => [lit "--share-net"]
  end.

Definition texts (ops : list op) : list str := concat (map op_texts ops).

Lemma texts_app a b : texts (a ++ b) = texts a ++ texts b.
Proof. unfold texts. by rewrite map_app, concat_app. Qed.

Definition op_mount (present : list str -> bool) (o : op) : list (list str * content) :=
  match o with
  | OTmpfs d => [(components d, Empty)]
  | ORo d => [(components d, FromHost (components d) false)]
  | OBind d => if present (components d) then [(components d, FromHost (components d) true)] else []
  | _ => []
  end.

Definition op_apply (present : list str -> bool) (w : world) (o : op) : world :=
  World (match o with OSet v x => <[v := x]> (w_env w) | _ => w_env w end)
    (op_mount present o ++ w_mounts w)
    (match o with ONet => true | _ => w_net w end).

Ltac decide_options :=
  repeat match goal with
  | |- context [bool_decide (?a = ?b)] =>
      let r := eval vm_compute in (bool_decide (a = b)) in
      let H := fresh in assert (H : bool_decide (a = b) = r) by (vm_compute; reflexivity); rewrite H; clear H; cbv iota
  | |- context [bool_decide (?a ∈ ?b)] =>
      let r := eval vm_compute in (bool_decide (a ∈ b)) in
      let H := fresh in assert (H : bool_decide (a ∈ b) = r) by (vm_compute; reflexivity); rewrite H; clear H; cbv iota
  end.

Lemma bwrap_cons present opt args w :
  bwrap present (opt :: args) w =
      if bool_decide (opt = lit "--") then Some (w, args)
      else if bool_decide (opt = lit "--unshare-all") then
        bwrap present args (World (w_env w) (w_mounts w) false)
      else if bool_decide (opt = lit "--share-net") then
        bwrap present args (World (w_env w) (w_mounts w) true)
      else if bool_decide (opt = lit "--new-session") then bwrap present args w
      else if bool_decide (opt = lit "--clearenv") then bwrap present args (World ∅ (w_mounts w) (w_net w))
      else match args with
      | [] => None
      | a :: args =>
          if bool_decide (opt ∈ [lit "--uid"; lit "--gid"; lit "--hostname"]) then bwrap present args w
          else if bool_decide (opt = lit "--tmpfs") then bwrap present args (mount (components a) Empty w)
          else if bool_decide (opt = lit "--dev") then bwrap present args (mount (components a) Devices w)
          else if bool_decide (opt = lit "--proc") then bwrap present args (mount (components a) Processes w)
          else if bool_decide (opt = lit "--unsetenv") then
            bwrap present args (World (delete a (w_env w)) (w_mounts w) (w_net w))
          else match args with
          | [] => None
          | b :: args =>
              if bool_decide (opt = lit "--setenv") then
                bwrap present args (World (<[a := b]> (w_env w)) (w_mounts w) (w_net w))
              else if bool_decide (opt = lit "--ro-bind") then
                if present (components a) then
                  bwrap present args (mount (components b) (FromHost (components a) false) w)
                else None
              else if bool_decide (opt = lit "--bind-try") then
                bwrap present args
                  (if present (components a) then mount (components b) (FromHost (components a) true) w else w)
              else None
          end
      end.
Proof. done. Qed.

Lemma bwrap_op present o rest w :
  (forall d, o = ORo d -> present (components d) = true) ->
  bwrap present (op_texts o ++ rest) w = bwrap present rest (op_apply present w o).
Proof.
  intros Hp. destruct o as [d|d|d|v x|]; cbn [op_texts app]; rewrite bwrap_cons; decide_options.
  - by destruct w.
  - rewrite (Hp d eq_refl). by destruct w.
  - unfold op_apply. cbn [op_mount]. destruct (present _); by destruct w.
  - by destruct w.
  - by destruct w.
Qed.

Lemma bwrap_ops present ops rest w :
  (forall d, ORo d ∈ ops -> present (components d) = true) ->
  bwrap present (texts ops ++ rest) w = bwrap present rest (fold_left (op_apply present) ops w).
Proof.
  revert w. induction ops as [|o ops IH]; intros w Hp; [done|].
  unfold texts. cbn [map concat fold_left]. rewrite <- app_assoc, bwrap_op.
  - apply IH. intros d Hd. apply Hp. by right.
  - intros d ->. apply Hp. left.
Qed.

(** The commands of the sandbox as operations. *)
Definition ro_ops (h : host) (d : str) : list op := if h_exists h d then [ORo d] else [].
Definition pass_ops (h : host) (v : str) : list op := match env_var h v with Some x => [OSet v x] | None => [] end.
Definition cargo_ops (h : host) : list op :=
  concat (map (fun e => if utf8_valid e.1 && is_cargo_env e.1 then [OSet e.1 e.2] else []) (h_env h)).

Lemma ro_texts h d ops : sb_ro_bind h d (texts ops) = texts (ops ++ ro_ops h d).
Proof. unfold sb_ro_bind, ro_ops. rewrite texts_app. destruct (h_exists h d); cbn; by rewrite ?app_nil_r. Qed.

Lemma tmpfs_texts d ops : sb_tmpfs d (texts ops) = texts (ops ++ [OTmpfs d]).
Proof. by rewrite texts_app. Qed.

Lemma set_texts v x ops : sb_set_env v x (texts ops) = texts (ops ++ [OSet v x]).
Proof. by rewrite texts_app. Qed.

Lemma bind_texts d ops : sb_writable_bind d (texts ops) = texts (ops ++ [OBind d]).
Proof. by rewrite texts_app. Qed.

Lemma net_texts ops : sb_share_net (texts ops) = texts (ops ++ [ONet]).
Proof. by rewrite texts_app. Qed.

Lemma pass_texts h v ops : sb_pass h v (texts ops) = texts (ops ++ pass_ops h v).
Proof. unfold sb_pass, pass_ops. destruct (env_var h v); [apply set_texts|]. by rewrite app_nil_r. Qed.

Lemma pass_list_texts h vs ops :
  fold_left (fun args v => sb_pass h v args) vs (texts ops) = texts (ops ++ concat (map (pass_ops h) vs)).
Proof.
  revert ops. induction vs as [|v vs IH]; intros ops; [by rewrite app_nil_r|].
  cbn [fold_left map concat]. rewrite pass_texts, IH. by rewrite app_assoc.
Qed.

Lemma cargo_texts h ops :
  sb_pass_cargo h (texts ops) = texts (ops ++ pass_ops h (lit "OUT_DIR") ++ cargo_ops h).
Proof.
  unfold sb_pass_cargo, cargo_ops. rewrite pass_texts, app_assoc. generalize (ops ++ pass_ops h (lit "OUT_DIR")) as k.
  induction (h_env h) as [|e env IH]; intros k; [by rewrite app_nil_r|].
  cbn [fold_left map concat]. rewrite app_assoc. destruct (_ && _).
  - rewrite set_texts. apply IH.
  - rewrite app_nil_r. apply IH.
Qed.

Lemma bind_dirs_texts h dirs ops args :
  bind_dirs h dirs (texts ops) = Some args ->
  args = texts (ops ++ map OBind dirs) /\ forall d, d ∈ dirs -> h_exists h d = true.
Proof.
  revert ops. induction dirs as [|d dirs IH]; intros ops; cbn [bind_dirs].
  - intros [= <-]. rewrite app_nil_r. split; [done|]. by intros d ?%elem_of_nil.
  - destruct (h_exists h d) eqn:E; [|done]. destruct (h_is_dir h d); [|done]. cbn [negb]. rewrite bind_texts.
    intros [-> Hall]%IH. split; [by rewrite <- app_assoc|]. intros x [->|Hx]%elem_of_cons; [done|by apply Hall].
Qed.

Lemma make_dirs_texts h dirs ops args :
  make_dirs h dirs (texts ops) = Some args ->
  args = texts (ops ++ map OBind dirs) /\ forall d, d ∈ dirs -> h_create h d = true.
Proof.
  revert ops. induction dirs as [|d dirs IH]; intros ops; cbn [make_dirs].
  - intros [= <-]. rewrite app_nil_r. split; [done|]. by intros d ?%elem_of_nil.
  - destruct (h_create h d) eqn:E; [|done]. rewrite bind_texts.
    intros [-> Hall]%IH. split; [by rewrite <- app_assoc|]. intros x [->|Hx]%elem_of_cons; [done|by apply Hall].
Qed.

Definition cargo_dirs (home : str) : list str :=
  [path_join (path_join home (lit ".cargo")) (lit "bin"); path_join (path_join home (lit ".cargo")) (lit "git");
   path_join (path_join home (lit ".cargo")) (lit "registry"); path_join home (lit ".rustup")].

(** All the operations: hiding, cargo's directories, variables, the package, the granted
    directories, the network. *)
Definition hide_ops (home : str) : list op := [OTmpfs home; OTmpfs (lit "/var"); OTmpfs (lit "/tmp")].
Definition end_ops (config : sandbox_config) : list op :=
  if default false (sb_allow_network config) then [ONet] else [OTmpfs (lit "/run")].
Definition set_ops (h : host) (config : sandbox_config) : list op :=
  pass_ops h (lit "PATH") ++ pass_ops h (lit "HOME") ++ concat (map (pass_ops h) (sb_pass_env config)).
Definition set_ops2 (h : host) : list op :=
  pass_ops h (lit "LD_LIBRARY_PATH") ++ pass_ops h (lit "OUT_DIR") ++ cargo_ops h.
Definition config_ops (h : host) (config : sandbox_config) (home manifest : str) : list op :=
  ro_ops h (lit "/") ++ hide_ops home ++ concat (map (ro_ops h) (cargo_dirs home)) ++
  [OSet (lit "USER") (lit "user")] ++ set_ops h config ++ ro_ops h manifest ++ set_ops2 h ++
  map OBind (sb_bind_writable config) ++ map OBind (sb_make_writable config) ++ end_ops config.

Lemma from_config_ops h config args :
  sb_extra_args config = [] ->
  from_config h config = Some (Some args) ->
  exists home manifest, env_var h (lit "HOME") = Some home /\ env_var h (lit "CARGO_MANIFEST_DIR") = Some manifest /\
    args = texts (config_ops h config home manifest) /\
    (forall d, d ∈ sb_bind_writable config -> h_exists h d = true) /\
    (forall d, d ∈ sb_make_writable config -> h_create h d = true).
Proof.
  intros Hx. unfold from_config. destruct (sb_kind config) as [[|]|]; [done| |done].
  destruct (env_var h (lit "HOME")) as [home|]; [|done]. change (@nil str) with (texts []) at 1.
  rewrite !ro_texts, !tmpfs_texts, !ro_texts, set_texts, !pass_texts, pass_list_texts.
  destruct (env_var h (lit "CARGO_MANIFEST_DIR")) as [manifest|]; [|done].
  rewrite ro_texts, pass_texts, cargo_texts.
  destruct (bind_dirs _ _ _) as [args1|] eqn:E1; [|done]. apply bind_dirs_texts in E1 as [-> H1].
  destruct (make_dirs _ _ _) as [args2|] eqn:E2; [|done]. apply make_dirs_texts in E2 as [-> H2].
  rewrite Hx, app_nil_r, net_texts, tmpfs_texts. intros [= <-]. exists home, manifest.
  split; [done|]. split; [done|]. split; [|done].
  assert (X : forall a b c : list op, (if default false (sb_allow_network config) then texts (a ++ b) else texts (a ++ c)) =
     texts (a ++ if default false (sb_allow_network config) then b else c)) by (intros; by destruct (default _ _)).
  rewrite X. f_equal. unfold config_ops, hide_ops, end_ops, set_ops, set_ops2, cargo_dirs. cbn [map concat].
  rewrite !app_nil_r. by rewrite <- !app_assoc.
Qed.

(** ** Mounts *)

Definition mounts (present : list str -> bool) (ops : list op) : list (list str * content) :=
  w_mounts (fold_left (op_apply present) ops (World ∅ [] false)).

Lemma fold_mounts present ops w :
  w_mounts (fold_left (op_apply present) ops w) = mounts present ops ++ w_mounts w.
Proof.
  unfold mounts. revert w. induction ops as [|o ops IH]; intros w; [done|]. cbn [fold_left].
  rewrite IH, (IH (op_apply present (World ∅ [] false) o)). cbn [op_apply w_mounts]. by rewrite app_nil_r, app_assoc.
Qed.

Lemma mounts_app present a b : mounts present (a ++ b) = mounts present b ++ mounts present a.
Proof. unfold mounts at 1. by rewrite fold_left_app, fold_mounts. Qed.

Lemma mounts_one present o : mounts present [o] = op_mount present o.
Proof. unfold mounts. cbn. by rewrite app_nil_r. Qed.

Lemma mounts_in present ops m : m ∈ mounts present ops <-> exists o, o ∈ ops /\ m ∈ op_mount present o.
Proof.
  induction ops as [|o ops IH].
  { split; [by intros ?%elem_of_nil|]. by intros (o & ?%elem_of_nil & _). }
  change (o :: ops) with ([o] ++ ops). rewrite mounts_app, elem_of_app, mounts_one, IH. split.
  - intros [(x & Hx & Hm)|Hm]; [exists x; split; [by right|done]|]. exists o. split; [left|done].
  - intros (x & [->|Hx]%elem_of_cons & Hm); [by right|]. left. by exists x.
Qed.

Lemma find_mount_in p ms m : find_mount p ms = Some m -> m ∈ ms /\ m.1 `prefix_of` p.
Proof.
  induction ms as [|[place c] ms IH]; [done|]. cbn [find_mount]. case_bool_decide.
  - intros [= <-]. split; [left|done].
  - intros [? ?]%IH. split; [by right|done].
Qed.

Lemma find_mount_split p A m B :
  m.1 `prefix_of` p -> exists x, find_mount p (A ++ m :: B) = Some x /\ (x ∈ A \/ x = m).
Proof.
  intros Hm. induction A as [|[place c] A IH].
  - destruct m as [pl c]. cbn [app find_mount]. rewrite bool_decide_eq_true_2 by done. exists (pl, c). split; [done|]. by right.
  - cbn [app find_mount]. case_bool_decide.
    + exists (place, c). split; [done|]. left. left.
    + destruct IH as (x & Hx & [?|?]); exists x; (split; [done|]); [left; by right|by right].
Qed.

Lemma within_prefix d p : within d p <-> d `prefix_of` p.
Proof. done. Qed.

Definition honest (m : list str * content) : Prop := forall s b, m.2 = FromHost s b -> s = m.1.

Lemma mounts_honest present ops m : m ∈ mounts present ops -> honest m.
Proof.
  intros (o & _ & Hm)%mounts_in s b E. destruct o as [d|d|d|v x|]; cbn in Hm; try by apply elem_of_nil in Hm.
  - apply elem_of_list_singleton in Hm as ->. done.
  - apply elem_of_list_singleton in Hm as ->. cbn in *. congruence.
  - destruct (present _); [|by apply elem_of_nil in Hm]. apply elem_of_list_singleton in Hm as ->. cbn in *. congruence.
Qed.

(** The world that bwrap makes from operations and the variables of the command. *)
Definition system_mounts : list (list str * content) := [([lit "proc"], Processes); ([lit "dev"], Devices)].

Definition own_ops (w : world) (e : str * option str) : world :=
  World (match e.2 with Some x => <[e.1 := x]> (w_env w) | None => delete e.1 (w_env w) end) (w_mounts w) (w_net w).

Lemma bwrap_envs present envs rest w :
  bwrap present (concat (map (fun e : str * option str => match e.2 with
                     | Some value => [lit "--setenv"; e.1; value]
                     | None => [lit "--unsetenv"; e.1]
                     end) envs) ++ rest) w = bwrap present rest (fold_left own_ops envs w).
Proof.
  revert w. induction envs as [|[v [x|]] envs IH]; intros w; [done| |]; cbn [map concat fold_left].
  - cbn [snd fst app]. rewrite bwrap_cons. decide_options. apply IH.
  - cbn [snd fst app]. rewrite bwrap_cons. decide_options. apply IH.
Qed.

Lemma own_mounts envs w : w_mounts (fold_left own_ops envs w) = w_mounts w /\ w_net (fold_left own_ops envs w) = w_net w.
Proof. revert w. induction envs as [|e envs IH]; intros w; [done|]. cbn [fold_left]. apply (IH (own_ops w e)). Qed.

Definition inside (present : list str -> bool) (ops : list op) (envs : list (str * option str)) : world :=
  let w := fold_left (op_apply present) ops (World ∅ [] false) in
  fold_left own_ops envs (World (w_env w) (system_mounts ++ w_mounts w) (w_net w)).

Lemma bwrap_inside present ops envs program cargs outer :
  (forall d, ORo d ∈ ops -> present (components d) = true) ->
  w_mounts outer = [] ->
  bwrap present (bwrap_args (texts ops) envs program cargs) outer = Some (inside present ops envs, program :: cargs).
Proof.
  intros Hp Ho. unfold bwrap_args. cbn [app]. do 6 (rewrite bwrap_cons; decide_options). cbn [w_env w_mounts w_net].
  rewrite bwrap_ops by done. rewrite Ho. cbn [app]. do 2 (rewrite bwrap_cons; decide_options). rewrite bwrap_envs.
  cbn [app]. rewrite bwrap_cons. decide_options. unfold inside, mount, system_mounts. done.
Qed.

Lemma inside_mounts present ops envs : w_mounts (inside present ops envs) = system_mounts ++ mounts present ops.
Proof. unfold inside. by rewrite (proj1 (own_mounts envs _)). Qed.

Lemma inside_look present ops envs p :
  look (inside present ops envs) p =
  match find_mount p (system_mounts ++ mounts present ops) with
  | Some (_, FromHost _ b) => HostFile p b
  | _ => Private
  end.
Proof.
  unfold look. rewrite inside_mounts. destruct (find_mount _ _) as [[place c]|] eqn:E; [|done].
  destruct c as [s b| | |]; try done. apply find_mount_in in E as [Hin Hp].
  assert (Hs : s = place).
  { apply elem_of_app in Hin as [Hin|Hin].
    - apply elem_of_cons in Hin as [|Hin]; [done|]. by apply elem_of_list_singleton in Hin.
    - by eapply (mounts_honest present ops (place, FromHost s b)). }
  subst s. destruct Hp as [rest ->]. cbn [fst]. by rewrite drop_app.
Qed.

Lemma look_system present ops envs p : system p -> look (inside present ops envs) p = Private.
Proof.
  intros Hs. rewrite inside_look. unfold system_mounts. cbn [app find_mount].
  destruct (bool_decide_reflect ([lit "proc"] `prefix_of` p)) as [|H1]; [done|].
  destruct (bool_decide_reflect ([lit "dev"] `prefix_of` p)) as [|H2]; [done|].
  by destruct Hs.
Qed.

Lemma look_plain present ops envs p : ~ system p ->
  look (inside present ops envs) p =
  match find_mount p (mounts present ops) with
  | Some (_, FromHost _ b) => HostFile p b
  | _ => Private
  end.
Proof.
  intros Hs. rewrite inside_look. unfold system_mounts. cbn [app find_mount].
  destruct (bool_decide_reflect ([lit "proc"] `prefix_of` p)) as [H1|H1]; [destruct Hs; by right|].
  destruct (bool_decide_reflect ([lit "dev"] `prefix_of` p)) as [H2|H2]; [destruct Hs; by left|].
  done.
Qed.

(** Where a file of the host comes from. *)
Lemma look_source present ops envs p q b :
  look (inside present ops envs) p = HostFile q b ->
  q = p /\ ~ system p /\ exists d, (if b then OBind d else ORo d) ∈ ops /\ within (components d) p.
Proof.
  intros E. assert (Hs : ~ system p).
  { intros Hs. by rewrite look_system in E. }
  rewrite look_plain in E by done. destruct (find_mount _ _) as [[place c]|] eqn:F; [|done].
  destruct c as [s b'| | |]; try done. injection E as -> ->. split; [done|]. split; [done|].
  apply find_mount_in in F as [Hin Hp]. apply mounts_in in Hin as (o & Ho & Hm).
  destruct o as [d|d|d|v x|]; cbn in Hm; try by apply elem_of_nil in Hm.
  - by apply elem_of_list_singleton in Hm.
  - apply elem_of_list_singleton in Hm as [= -> -> ->]. by exists d.
  - destruct (present _); [|by apply elem_of_nil in Hm]. apply elem_of_list_singleton in Hm as [= -> -> ->]. by exists d.
Qed.

(** Hidden by a mount, only what is mounted later shows. *)
Lemma look_hidden present a d b envs p q w :
  within (components d) p ->
  look (inside present (a ++ OTmpfs d :: b) envs) p = HostFile q w ->
  exists dir, (if w then OBind dir else ORo dir) ∈ b /\ within (components dir) p.
Proof.
  intros Hd E. assert (Hs : ~ system p).
  { intros Hs. by rewrite look_system in E. }
  rewrite look_plain in E by done.
  change (OTmpfs d :: b) with ([OTmpfs d] ++ b) in E. rewrite app_assoc, !mounts_app, mounts_one in E. cbn [op_mount] in E.
  destruct (find_mount_split p (mounts present b) (components d, Empty) (mounts present a)) as (x & Hx & Hor); [done|].
  cbn [app] in E. rewrite Hx in E. destruct Hor as [Hin| ->]; [|done]. destruct x as [place c].
  destruct c as [s b'| | |]; try done. injection E as -> ->.
  apply find_mount_in in Hx as [_ Hp]. apply mounts_in in Hin as (o & Ho & Hm).
  destruct o as [d'|d'|d'|v x|]; cbn in Hm; try by apply elem_of_nil in Hm.
  - by apply elem_of_list_singleton in Hm.
  - apply elem_of_list_singleton in Hm as [= -> -> ->]. by exists d'.
  - destruct (present _); [|by apply elem_of_nil in Hm]. apply elem_of_list_singleton in Hm as [= -> -> ->]. by exists d'.
Qed.

(** What is mounted shows, unless hidden later. *)
Lemma look_mounted present a o b envs p d :
  o = ORo d \/ o = OBind d -> present (components d) = true -> within (components d) p -> ~ system p ->
  (forall x, OTmpfs x ∈ b -> ~ within (components x) p) ->
  exists w, look (inside present (a ++ o :: b) envs) p = HostFile p w /\
    (o = OBind d -> (forall x, ORo x ∈ b -> ~ within (components x) p) -> w = true).
Proof.
  intros Ho Hp Hd Hs Hb. rewrite look_plain by done.
  change (o :: b) with ([o] ++ b). rewrite app_assoc, !mounts_app, mounts_one.
  assert (Em : exists r, op_mount present o = [(components d, FromHost (components d) r)] /\ (o = OBind d -> r = true)).
  { destruct Ho as [ ->| ->]; cbn [op_mount]; [|rewrite Hp]; eexists; (split; [done|]); done. }
  destruct Em as (r & -> & Hr). cbn [app].
  destruct (find_mount_split p (mounts present b) (components d, FromHost (components d) r) (mounts present a)) as (x & Hx & Hor); [done|].
  rewrite Hx. destruct Hor as [Hin| ->]; [|exists r; split; [done|]; intros ? _; auto].
  apply find_mount_in in Hx as [_ Hpre]. apply mounts_in in Hin as (o' & Ho' & Hm).
  destruct o' as [d'|d'|d'|v y|]; cbn in Hm; try by apply elem_of_nil in Hm.
  - apply elem_of_list_singleton in Hm as ->. by destruct (Hb d').
  - apply elem_of_list_singleton in Hm as ->. exists false. split; [done|]. intros _ Hn. by destruct (Hn d').
  - destruct (present (components d')); [|by apply elem_of_nil in Hm]. apply elem_of_list_singleton in Hm as ->. by exists true.
Qed.

(** ** The network *)
Lemma fold_net present ops w :
  w_net (fold_left (op_apply present) ops w) = true <-> ONet ∈ ops \/ w_net w = true.
Proof.
  revert w. induction ops as [|o ops IH]; intros w; cbn [fold_left].
  - split; [by right|]. by intros [?%elem_of_nil|?].
  - rewrite IH, elem_of_cons. cbn [op_apply w_net]. destruct o as [d|d|d|v x|].
    1-4: split; [intros [?|?]; auto|]; intros [[?|?]|?]; [done|by left|by right].
    split; [intros [?|?]; auto|]. intros _. by right.
Qed.

Lemma inside_net present ops envs : w_net (inside present ops envs) = true <-> ONet ∈ ops.
Proof.
  unfold inside. rewrite (proj2 (own_mounts envs _)). cbn [w_net]. rewrite fold_net. cbn [w_net].
  split; [by intros [?|?]|by left].
Qed.

(** ** The environment *)
Lemma env_fold_none present ops w n :
  (forall v, OSet n v ∉ ops) -> w_env (fold_left (op_apply present) ops w) !! n = w_env w !! n.
Proof.
  revert w. induction ops as [|o ops IH]; intros w Hn; [done|]. cbn [fold_left].
  rewrite IH by (intros v Hv; apply (Hn v); by right).
  destruct o as [d|d|d|v x|]; cbn [op_apply w_env]; try done.
  rewrite lookup_insert_ne; [done|]. intros ->. apply (Hn x). left.
Qed.

Lemma env_fold_some present ops w n v :
  OSet n v ∈ ops -> (forall v', OSet n v' ∈ ops -> v' = v) ->
  w_env (fold_left (op_apply present) ops w) !! n = Some v.
Proof.
  revert w. induction ops as [|o ops IH] using rev_ind; intros w Hin Hu; [by apply elem_of_nil in Hin|].
  rewrite fold_left_app. cbn [fold_left]. assert (Hdec : (exists x, o = OSet n x) \/ ~ exists x, o = OSet n x).
  { destruct o as [d|d|d|v' x|]; try (right; by intros [? ?]). destruct (decide (v' = n)) as [->|Hne]; [left; by exists x|].
    right. intros [y [= ]]. done. }
  destruct Hdec as [[x ->]|Ho].
  - cbn [op_apply w_env]. rewrite lookup_insert. f_equal. apply Hu. apply elem_of_app. right. left.
  - assert (E : w_env (op_apply present (fold_left (op_apply present) ops w) o) !! n = w_env (fold_left (op_apply present) ops w) !! n).
    { destruct o as [d|d|d|v' x|]; cbn [op_apply w_env]; try done. rewrite lookup_insert_ne; [done|]. intros ->. apply Ho. by exists x. }
    rewrite E. apply IH.
    + apply elem_of_app in Hin as [?|Hin]; [done|]. apply elem_of_list_singleton in Hin as <-. destruct Ho. by exists v.
    + intros v' Hv'. apply Hu. apply elem_of_app. by left.
Qed.

Lemma env_var_spec h n v : NoDup (h_env h).*1 -> env_var h n = Some v <-> has_value (h_env h) n v.
Proof.
  unfold env_var, has_value. intros Hnd.
  assert (K : find (fun e : str * str => str_eqb e.1 n) (h_env h) = Some (n, v) <-> (n, v) ∈ h_env h).
  { induction (h_env h) as [|[a b] env IH]; [split; [done|by intros ?%elem_of_nil]|]. cbn [find fst].
    rewrite fmap_cons in Hnd. cbn [fst] in Hnd. apply NoDup_cons in Hnd as [Hna Hnd].
    destruct (str_eqb a n) eqn:E.
    - apply str_eqb_spec in E as ->. split; [intros [= ->]; left|]. intros [[= ->]|Hin]%elem_of_cons; [done|].
      destruct Hna. apply elem_of_list_fmap. by exists (n, v).
    - rewrite IH by done. split; [by right|]. intros [[= -> ->]|Hin]%elem_of_cons; [|done].
      by rewrite (proj2 (str_eqb_spec _ _) eq_refl) in E. }
  destruct (find _ (h_env h)) as [[a b]|] eqn:F.
  - assert (Ha : a = n).
    { apply find_some in F as [_ F]. by apply str_eqb_spec in F. }
    subst a. cbn [snd]. split.
    + destruct (utf8_valid b) eqn:U; [|done]. intros [= <-]. split; [|by apply utf8_valid_spec].
      apply elem_of_list_In. by apply find_some in F as [F _].
    + intros [Hin U%utf8_valid_spec]. apply K in Hin. injection Hin as ->. by rewrite U.
  - split; [done|]. intros [Hin _]. by apply K in Hin.
Qed.

Lemma env_unique (env : list (str * str)) n v v' : NoDup env.*1 -> (n, v) ∈ env -> (n, v') ∈ env -> v = v'.
Proof.
  induction env as [|[a b] env IH]; [by intros _ ?%elem_of_nil|]. rewrite fmap_cons. cbn [fst].
  intros [Ha Hnd]%NoDup_cons. intros [E1|H1]%elem_of_cons [E2|H2]%elem_of_cons.
  - congruence.
  - injection E1 as -> ->. destruct Ha. apply elem_of_list_fmap. by exists (a, v').
  - injection E2 as -> ->. destruct Ha. apply elem_of_list_fmap. by exists (a, v).
  - by apply IH.
Qed.

Lemma is_cargo_spec n : is_cargo_env n = true <-> cargo_variable n.
Proof.
  unfold is_cargo_env, cargo_variable. destruct (str_eqb n (lit "RUSTC_WRAPPER")) eqn:E.
  - apply str_eqb_spec in E. split; [done|]. by intros [? _].
  - apply str_eqb_false in E. rewrite orb_true_iff. cbn [existsb]. rewrite !orb_true_iff, !starts_with_spec, mem_str_spec.
    split.
    + intros [[[r ->]|[[r ->]|[[r ->]|?]]]|Hin]; try done; (split; [done|]); [left; exists r; auto ..|by right].
    + intros [_ [[r [->|[->| ->]]]|Hin]]; [left; left; by exists r|left; right; left; by exists r|left; right; right; left; by exists r|by right].
Qed.

Lemma pass_set h name n v : NoDup (h_env h).*1 ->
  OSet n v ∈ pass_ops h name <-> n = name /\ has_value (h_env h) name v.
Proof.
  intros Hnd. unfold pass_ops. destruct (env_var h name) as [x|] eqn:E.
  - apply env_var_spec in E; [|done]. rewrite elem_of_list_singleton. split; [by intros [= -> ->]|].
    intros [-> Hv]. f_equal. eapply (env_unique (h_env h)); [done|apply Hv|apply E].
  - split; [by intros ?%elem_of_nil|]. intros [-> Hv]. apply env_var_spec in Hv; [|done]. congruence.
Qed.

Lemma pass_list_set h names n v : NoDup (h_env h).*1 ->
  OSet n v ∈ concat (map (pass_ops h) names) <-> n ∈ names /\ has_value (h_env h) n v.
Proof.
  intros Hnd. induction names as [|a names IH]; cbn [map concat].
  - split; [by intros ?%elem_of_nil|]. by intros [?%elem_of_nil _].
  - rewrite elem_of_app, pass_set, IH, elem_of_cons by done. split; [intros [[-> ?]|[? ?]]; auto|].
    intros [[->|?] ?]; auto.
Qed.

Lemma cargo_set h n v :
  OSet n v ∈ cargo_ops h <-> (n, v) ∈ h_env h /\ cargo_variable n /\ is_utf8 n.
Proof.
  rewrite <- utf8_valid_spec. unfold cargo_ops. induction (h_env h) as [|[a b] env IH]; cbn [map concat].
  - split; [by intros ?%elem_of_nil|]. by intros [?%elem_of_nil _].
  - rewrite elem_of_app, IH, elem_of_cons. cbn [fst snd]. rewrite <- is_cargo_spec.
    destruct (utf8_valid a && is_cargo_env a) eqn:E.
    + apply andb_true_iff in E as [E1 E2]. rewrite elem_of_list_singleton. split.
      * intros [[= -> ->]|(? & ? & ?)]; auto.
      * intros ([[= -> ->]|?] & ? & ?); auto.
    + split; [intros [?%elem_of_nil|(? & ? & ?)]; [done|auto]|].
      intros ([[= -> ->]|?] & H1 & H2); [|auto]. by rewrite H1, H2 in E.
Qed.

Ltac no_set := let H := fresh in intros H; repeat (apply elem_of_cons in H as [H|H]; [done|]); by apply elem_of_nil in H.

Lemma ro_no_set h d n v : OSet n v ∉ ro_ops h d.
Proof. unfold ro_ops. destruct (h_exists h d); no_set. Qed.

Lemma ro_list_no_set h ds n v : OSet n v ∉ concat (map (ro_ops h) ds).
Proof.
  induction ds as [|d ds IH]; [apply not_elem_of_nil|]. cbn [map concat]. rewrite not_elem_of_app.
  split; [apply ro_no_set|done].
Qed.

Lemma bind_no_set ds n v : OSet n v ∉ map OBind ds.
Proof. intros (d & [=] & _)%elem_of_list_fmap. Qed.

(** The operations after the fixed beginning of a sandbox: those of the configuration and those
    of its use. *)
Definition tail_ops (h : host) (config : sandbox_config) (manifest : str) : list op :=
  set_ops h config ++ ro_ops h manifest ++ set_ops2 h ++
  map OBind (sb_bind_writable config) ++ map OBind (sb_make_writable config) ++ end_ops config.

Lemma tail_set h config manifest n v : NoDup (h_env h).*1 ->
  OSet n v ∈ tail_ops h config manifest <-> may_pass config (h_env h) [] n v.
Proof.
  intros Hnd. unfold tail_ops, set_ops, set_ops2, end_ops, may_pass, passed_by_name.
  rewrite !elem_of_app, !pass_set, pass_list_set, cargo_set by done.
  assert (X1 : OSet n v ∈ ro_ops h manifest <-> False) by (split; [apply ro_no_set|done]).
  assert (X2 : forall ds, OSet n v ∈ map OBind ds <-> False) by (intros; split; [apply bind_no_set|done]).
  assert (X3 : OSet n v ∈ (if default false (sb_allow_network config) then [ONet] else [OTmpfs (lit "/run")]) <-> False).
  { split; [|done]. destruct (default _ _); no_set. }
  rewrite X1, !X2, X3. rewrite !elem_of_cons, !elem_of_nil. unfold has_value. split.
  - intros [[[-> [? ?]]|[[-> [? ?]]|(? & ? & ?)]]|[[]|[[[-> [? ?]]|[[-> [? ?]]|(? & ? & ?)]]|[[]|[[]|[]]]]]]; split; auto 12.
  - intros (Hin & [([[[->|[->|[->|[->|[]]]]]|?]|[]] & ?)|[? ?]]); auto 14.
Qed.

Lemma config_set h config home manifest more envs present n v :
  NoDup (h_env h).*1 ->
  (forall x y, OSet x y ∈ more -> (x, y) ∈ h_env h) ->
  envs = [] ->
  w_env (inside present (config_ops h config home manifest ++ more) envs) !! n = Some v <->
  (may_pass config (h_env h) [] n v \/ OSet n v ∈ more) \/
  n = lit "USER" /\ v = lit "user" /\ forall x, ~ may_pass config (h_env h) [] n x /\ OSet n x ∉ more.
Proof.
  intros Hnd Hmore ->. unfold inside. cbn [fold_left w_env].
  assert (E : config_ops h config home manifest ++ more =
     (ro_ops h (lit "/") ++ hide_ops home ++ concat (map (ro_ops h) (cargo_dirs home))) ++
     [OSet (lit "USER") (lit "user")] ++ (tail_ops h config manifest ++ more)).
  { unfold config_ops, tail_ops. by rewrite <- !app_assoc. }
  rewrite E, fold_left_app. cbn [app fold_left].
  set (w0 := fold_left (op_apply present) (ro_ops h (lit "/") ++ hide_ops home ++ concat (map (ro_ops h) (cargo_dirs home))) (World ∅ [] false)).
  assert (E0 : forall x, w_env w0 !! x = None).
  { intros x. unfold w0. rewrite env_fold_none; [done|]. intros y. rewrite !not_elem_of_app.
    split; [apply ro_no_set|]. split; [no_set|apply ro_list_no_set]. }
  set (w1 := op_apply present w0 (OSet (lit "USER") (lit "user"))).
  assert (Hmem : forall x, OSet n x ∈ tail_ops h config manifest ++ more <-> may_pass config (h_env h) [] n x \/ OSet n x ∈ more).
  { intros x. by rewrite elem_of_app, tail_set. }
  assert (Hfun : forall x y, OSet n x ∈ tail_ops h config manifest ++ more -> OSet n y ∈ tail_ops h config manifest ++ more -> x = y).
  { intros x y Hx Hy. apply Hmem in Hx, Hy. apply (env_unique (h_env h) n); [done| |].
    - destruct Hx as [[? _]|?]; [done|by apply Hmore].
    - destruct Hy as [[? _]|?]; [done|by apply Hmore]. }
  assert (Hdec : (exists x, OSet n x ∈ tail_ops h config manifest ++ more) \/ forall x, OSet n x ∉ tail_ops h config manifest ++ more).
  { generalize (tail_ops h config manifest ++ more) as l. intros l. clear.
    induction l as [|o l IH]; [right; intros x; apply not_elem_of_nil|].
    destruct IH as [[x Hx]|IH]; [left; exists x; by right|].
    destruct o as [d|d|d|a b|]; try (right; intros x [?|?]%elem_of_cons; [done|by apply (IH x)]).
    destruct (decide (a = n)) as [->|Hne]; [left; exists b; left|]. right. intros x [[= ]|?]%elem_of_cons; [done|by apply (IH x)]. }
  destruct Hdec as [[x Hx]|Hno].
  - rewrite (env_fold_some _ _ _ n x); [|done|intros y Hy; by apply Hfun].
    split.
    + intros [= ->]. left. by apply Hmem.
    + intros [Hv|(_ & _ & Hn)]; [f_equal; apply Hfun; [done|by apply Hmem]|].
      apply Hmem in Hx. destruct (Hn x) as [H1 H2]. by destruct Hx.
  - rewrite env_fold_none by done. cbn [w1 op_apply w_env]. destruct (decide (n = lit "USER")) as [->|Hne].
    + rewrite lookup_insert. split.
      * intros [= <-]. right. split; [done|]. split; [done|]. intros x. specialize (Hno x). rewrite Hmem in Hno. tauto.
      * intros [Hv|(_ & -> & _)]; [|done]. apply Hmem in Hv. by destruct (Hno v).
    + rewrite lookup_insert_ne by done. rewrite E0. split; [done|].
      intros [Hv|(? & _)]; [|done]. apply Hmem in Hv. by destruct (Hno v).
Qed.

(** ** The mounts of a whole sandbox *)

Definition is_var (o : op) : Prop := match o with OSet _ _ => True | _ => False end.

Lemma pass_is_var h v o : o ∈ pass_ops h v -> is_var o.
Proof.
  unfold pass_ops. destruct (env_var h v); [|by intros ?%elem_of_nil]. by intros ->%elem_of_list_singleton.
Qed.

Lemma pass_list_is_var h vs o : o ∈ concat (map (pass_ops h) vs) -> is_var o.
Proof.
  induction vs as [|v vs IH]; [by intros ?%elem_of_nil|]. cbn [map concat].
  intros [?%pass_is_var|?%IH]%elem_of_app; done.
Qed.

Lemma cargo_is_var h o : o ∈ cargo_ops h -> is_var o.
Proof.
  unfold cargo_ops. induction (h_env h) as [|e env IH]; [by intros ?%elem_of_nil|]. cbn [map concat].
  intros [Ho|?%IH]%elem_of_app; [|done]. destruct (_ && _); [by apply elem_of_list_singleton in Ho as ->|by apply elem_of_nil in Ho].
Qed.

Lemma set_is_var h config o : o ∈ set_ops h config -> is_var o.
Proof. unfold set_ops. intros [?%pass_is_var|[?%pass_is_var|?%pass_list_is_var]%elem_of_app]%elem_of_app; done. Qed.

Lemma set2_is_var h o : o ∈ set_ops2 h -> is_var o.
Proof. unfold set_ops2. intros [?%pass_is_var|[?%pass_is_var|?%cargo_is_var]%elem_of_app]%elem_of_app; done. Qed.

Lemma ro_in h d o : o ∈ ro_ops h d -> o = ORo d /\ h_exists h d = true.
Proof. unfold ro_ops. destruct (h_exists h d); [by intros ->%elem_of_list_singleton|by intros ?%elem_of_nil]. Qed.

Lemma ro_list_in h ds o : o ∈ concat (map (ro_ops h) ds) -> exists d, d ∈ ds /\ o = ORo d /\ h_exists h d = true.
Proof.
  induction ds as [|d ds IH]; [by intros ?%elem_of_nil|]. cbn [map concat].
  intros [[-> ?]%ro_in|(x & ? & ?)%IH]%elem_of_app; [exists d; split; [left|done]|exists x; split; [by right|done]].
Qed.

Lemma bind_in ds o : o ∈ map OBind ds -> exists d, d ∈ ds /\ o = OBind d.
Proof. intros (d & -> & ?)%elem_of_list_fmap. by exists d. Qed.

Lemma end_in config o : o ∈ end_ops config ->
  o = ONet /\ sb_allow_network config = Some true \/ o = OTmpfs (lit "/run") /\ sb_allow_network config <> Some true.
Proof.
  unfold end_ops. destruct (sb_allow_network config) as [[|]|]; cbn [default];
    intros ->%elem_of_list_singleton; [left|right|right]; done.
Qed.

Lemma cargo_dirs_places home d : d ∈ cargo_dirs home -> components d ∈ cargo_places (components home).
Proof.
  unfold cargo_dirs, cargo_places. rewrite !elem_of_cons, elem_of_nil.
  assert (J : forall n, n ∈ [lit "bin"; lit "git"; lit "registry"] ->
     components (path_join (path_join home (lit ".cargo")) n) = components home ++ [lit ".cargo"; n]).
  { intros n Hn. rewrite !components_join, <- app_assoc; [done| | | | | |]; try done.
    all: try (repeat (apply elem_of_cons in Hn as [->|Hn]; [done|]); by apply elem_of_nil in Hn).
    - by apply (bool_decide_unpack _).
    - repeat (apply elem_of_cons in Hn as [->|Hn]; [by apply (bool_decide_unpack _)|]); by apply elem_of_nil in Hn. }
  intros [->|[->|[->|[->|[]]]]].
  - left. apply J. left.
  - right. left. apply J. right. left.
  - right. right. left. apply J. right. right. left.
  - do 3 right. left. apply components_join; try done. by apply (bool_decide_unpack _).
Qed.

Lemma cargo_places_dirs home d : d ∈ cargo_places (components home) -> exists x, x ∈ cargo_dirs home /\ components x = d.
Proof.
  intros Hd.
  assert (E : map components (cargo_dirs home) = cargo_places (components home)).
  { unfold cargo_dirs, cargo_places. cbn [map].
    assert (J : forall n, n ∈ [lit "bin"; lit "git"; lit "registry"] ->
       components (path_join (path_join home (lit ".cargo")) n) = components home ++ [lit ".cargo"; n]).
    { intros n Hn. rewrite !components_join, <- app_assoc; [done| | | | | |]; try done.
      all: try (repeat (apply elem_of_cons in Hn as [->|Hn]; [done|]); by apply elem_of_nil in Hn).
      - by apply (bool_decide_unpack _).
      - repeat (apply elem_of_cons in Hn as [->|Hn]; [by apply (bool_decide_unpack _)|]); by apply elem_of_nil in Hn. }
    rewrite !J; [| right; right; left| right; left| left]. repeat f_equal. apply components_join; try done. by apply (bool_decide_unpack _). }
  rewrite <- E in Hd. apply elem_of_list_fmap in Hd as (x & -> & Hx). by exists x.
Qed.

Lemma system_var_tmp : components (lit "/var") = [lit "var"] /\ components (lit "/tmp") = [lit "tmp"] /\
  components (lit "/run") = [lit "run"] /\ components (lit "/") = [].
Proof. by vm_compute. Qed.

Section whole.
Context (h : host) (present : list str -> bool) (config : sandbox_config) (home manifest : str) (more : list op).
Context (Hok : host_ok h present).
Context (Hmore : forall o, o ∈ more -> match o with OTmpfs _ | ONet => False | ORo d => h_exists h d = true | _ => True end).
Context (Hbind : forall d, d ∈ sb_bind_writable config -> h_exists h d = true).
Context (Hmake : forall d, d ∈ sb_make_writable config -> h_create h d = true).

Local Notation ops := (config_ops h config home manifest ++ more).

Lemma ops_ro d : ORo d ∈ ops -> present (components d) = true.
Proof.
  intros Hin. assert (h_exists h d = true) as <-; [|by rewrite (proj1 (proj2 Hok))]. revert Hin.
  unfold config_ops. rewrite !elem_of_app.
  intros [[[[= ->] ?]%ro_in|[Hh|[(x & _ & [= ->] & ?)%ro_list_in|[Hu|[[]%set_is_var|[[[= ->] ?]%ro_in|[[]%set2_is_var|[(x & _ & [=])%bind_in|[(x & _ & [=])%bind_in|[[[=] _]|[[=] _]]%end_in]]]]]]]]]|?%Hmore]; try done.
  - unfold hide_ops in Hh. repeat (apply elem_of_cons in Hh as [Hh|Hh]; [done|]). by apply elem_of_nil in Hh.
  - by apply elem_of_list_singleton in Hu.
Qed.

Lemma ops_bind d : OBind d ∈ ops -> d ∈ sb_bind_writable config \/ d ∈ sb_make_writable config \/ OBind d ∈ more.
Proof.
  unfold config_ops. rewrite !elem_of_app.
  intros [[[[=] ?]%ro_in|[Hh|[(x & _ & [=] & ?)%ro_list_in|[Hu|[[]%set_is_var|[[[=] ?]%ro_in|[[]%set2_is_var|[(x & ? & [= ->])%bind_in|[(x & ? & [= ->])%bind_in|[[[=] _]|[[=] _]]%end_in]]]]]]]]]|?]; auto.
  - unfold hide_ops in Hh. repeat (apply elem_of_cons in Hh as [Hh|Hh]; [done|]). by apply elem_of_nil in Hh.
  - by apply elem_of_list_singleton in Hu.
Qed.

(** Below a hidden directory. *)
Definition grants (d : str) (b : bool) : Prop :=
  b = false /\ (d ∈ cargo_dirs home \/ d = manifest) \/
  b = true /\ (d ∈ sb_bind_writable config \/ d ∈ sb_make_writable config) \/
  (if b then OBind d else ORo d) ∈ more.

Local Notation after_root := ((hide_ops home ++ concat (map (ro_ops h) (cargo_dirs home)) ++
  [OSet (lit "USER") (lit "user")] ++ set_ops h config ++ ro_ops h manifest ++ set_ops2 h ++
  map OBind (sb_bind_writable config) ++ map OBind (sb_make_writable config) ++ end_ops config) ++ more).

Lemma after_hide b d (w : bool) :
  (if w then OBind d else ORo d) ∈ b -> b `suffix_of` after_root -> grants d w.
Proof.
  intros Hin [c Hc]. assert (Hin' : (if w then OBind d else ORo d) ∈ c ++ b) by (apply elem_of_app; by right).
  rewrite <- Hc in Hin'. clear Hin Hc. revert Hin'. unfold grants. rewrite !elem_of_app.
  intros [[Hh|[(x & ? & E & ?)%ro_list_in|[Hu|[H%set_is_var|[[E ?]%ro_in|[H%set2_is_var|[(x & ? & E)%bind_in|[(x & ? & E)%bind_in|[[E _]|[E _]]%end_in]]]]]]]]|?]; auto;
    destruct w; try done; try (injection E as ->); auto 6.
  - unfold hide_ops in Hh. repeat (apply elem_of_cons in Hh as [Hh|Hh]; [done|]). by apply elem_of_nil in Hh.
  - unfold hide_ops in Hh. repeat (apply elem_of_cons in Hh as [Hh|Hh]; [done|]). by apply elem_of_nil in Hh.
  - by apply elem_of_list_singleton in Hu.
  - by apply elem_of_list_singleton in Hu.
Qed.

Lemma ops_after_root : ops = ro_ops h (lit "/") ++ after_root.
Proof. unfold config_ops. by rewrite <- !app_assoc. Qed.

Lemma whole_reads envs p q b :
  look (inside present ops envs) p = HostFile q b ->
  q = p /\ ~ system p /\ (hidden config (components home) p -> exists d, within (components d) p /\ grants d b).
Proof.
  intros E. destruct (look_source _ _ _ _ _ _ E) as (-> & Hs & _). split; [done|]. split; [done|].
  destruct system_var_tmp as (Hvar & Htmp & Hrun & _).
  rewrite ops_after_root in E. unfold hide_ops in E.
  intros Hh. assert (Hsplit : exists a x c, after_root = a ++ OTmpfs x :: c /\ within (components x) p).
  { destruct Hh as [Hh|[Hh|[Hh|[Hn Hh]]]].
    - by eexists [], home, _.
    - rewrite <- Hvar in Hh. by eexists [OTmpfs home], (lit "/var"), _.
    - rewrite <- Htmp in Hh. by eexists [OTmpfs home; OTmpfs (lit "/var")], (lit "/tmp"), _.
    - rewrite <- Hrun in Hh. eexists _, (lit "/run"), more. split; [|done].
      assert (Ee : end_ops config = [OTmpfs (lit "/run")]).
      { unfold end_ops. by destruct (sb_allow_network config) as [[|]|]. }
      rewrite Ee. rewrite !app_assoc. rewrite <- app_assoc. done. }
  destruct Hsplit as (a & x & c & Ha & Hx). unfold hide_ops in Ha. rewrite Ha, app_assoc in E.
  apply look_hidden in E as (d & Hd & Hw); [|done]. exists d. split; [done|]. apply (after_hide c); [done|].
  exists (a ++ [OTmpfs x]). unfold hide_ops. rewrite Ha, <- app_assoc. done.
Qed.

Lemma whole_writes envs p q :
  look (inside present ops envs) p = HostFile q true -> exists d, within (components d) p /\
    (d ∈ sb_bind_writable config \/ d ∈ sb_make_writable config \/ OBind d ∈ more).
Proof. intros (_ & _ & d & ?%ops_bind & ?)%look_source. by exists d. Qed.

Lemma whole_tmpfs x : OTmpfs x ∈ ops ->
  x = home \/ x = lit "/var" \/ x = lit "/tmp" \/ x = lit "/run" /\ sb_allow_network config <> Some true.
Proof.
  unfold config_ops. rewrite !elem_of_app.
  intros [[[[=] ?]%ro_in|[Hh|[(y & _ & [=] & ?)%ro_list_in|[Hu|[[]%set_is_var|[[[=] ?]%ro_in|[[]%set2_is_var|[(y & ? & [=])%bind_in|[(y & ? & [=])%bind_in|[[[=] _]|[[= ->] ?]]%end_in]]]]]]]]]|[]%Hmore]; auto.
  - unfold hide_ops in Hh. repeat (apply elem_of_cons in Hh as [[= ->]|Hh]; [by auto|]). by apply elem_of_nil in Hh.
  - by apply elem_of_list_singleton in Hu.
Qed.

Lemma whole_visible envs p :
  ~ system p -> ~ hidden config (components home) p -> exists b, look (inside present ops envs) p = HostFile p b.
Proof.
  intros Hs Hh. destruct system_var_tmp as (Hvar & Htmp & Hrun & Hroot).
  assert (Er : ro_ops h (lit "/") = [ORo (lit "/")]).
  { unfold ro_ops. by rewrite (proj1 (proj2 Hok)), Hroot, (proj1 Hok). }
  rewrite ops_after_root, Er.
  destruct (look_mounted present [] (ORo (lit "/")) after_root envs p (lit "/")) as (b & Hb & _); [by left| | |done| |by exists b].
  - by rewrite Hroot, (proj1 Hok).
  - rewrite Hroot. by exists p.
  - intros x Hx Hw. apply Hh.
    assert (Hx' : OTmpfs x ∈ ops) by (rewrite ops_after_root; apply elem_of_app; by right).
    apply whole_tmpfs in Hx' as [->|[->|[->|[-> ?]]]]; [by left|right; left|do 2 right; left|do 3 right].
    + by rewrite Hvar in Hw.
    + by rewrite Htmp in Hw.
    + by rewrite Hrun in Hw.
Qed.

(** A granted directory shows unless it is hidden with [/run]. *)
Definition run_hidden (p : list str) : Prop := sb_allow_network config <> Some true /\ within [lit "run"] p.

Local Notation after_cargo := ([OSet (lit "USER") (lit "user")] ++ set_ops h config ++ ro_ops h manifest ++ set_ops2 h ++
  map OBind (sb_bind_writable config) ++ map OBind (sb_make_writable config) ++ end_ops config ++ more).

Lemma late_tmpfs x b c : concat (map (ro_ops h) (cargo_dirs home)) ++ after_cargo = b ++ c -> OTmpfs x ∈ c ->
  x = lit "/run" /\ sb_allow_network config <> Some true.
Proof.
  intros E Hc. assert (Hin : OTmpfs x ∈ concat (map (ro_ops h) (cargo_dirs home)) ++ after_cargo)
    by (rewrite E; apply elem_of_app; by right). revert Hin. rewrite !elem_of_app.
  intros [(y & _ & [=] & ?)%ro_list_in|[Hu|[[]%set_is_var|[[[=] ?]%ro_in|[[]%set2_is_var|[(y & ? & [=])%bind_in|[(y & ? & [=])%bind_in|[[[[=] _]|[[= ->] ?]]%end_in|[]%Hmore]]]]]]]]; auto.
  by apply elem_of_list_singleton in Hu.
Qed.

Lemma ops_after_cargo : ops = (ro_ops h (lit "/") ++ hide_ops home) ++ concat (map (ro_ops h) (cargo_dirs home)) ++ after_cargo.
Proof. unfold config_ops. by rewrite <- !app_assoc. Qed.

Lemma whole_readable envs d p :
  d ∈ cargo_dirs home \/ d = manifest \/ d ∈ sb_bind_writable config \/ d ∈ sb_make_writable config \/ ORo d ∈ more \/ OBind d ∈ more ->
  present (components d) = true -> within (components d) p -> ~ system p -> ~ run_hidden p ->
  exists b, look (inside present ops envs) p = HostFile p b.
Proof.
  intros Hd Hp Hw Hs Hr.
  assert (Hin : exists o, (o = ORo d \/ o = OBind d) /\ o ∈ concat (map (ro_ops h) (cargo_dirs home)) ++ after_cargo).
  { assert (Hro : ORo d ∈ ro_ops h d) by (unfold ro_ops; rewrite (proj1 (proj2 Hok)), Hp; left).
    destruct Hd as [Hd|[->|[Hd|[Hd|[Hd|Hd]]]]].
    - exists (ORo d). split; [by left|]. apply elem_of_app. left. apply elem_of_list_split in Hd as (l1 & l2 & ->).
      rewrite map_app, concat_app. apply elem_of_app. right. cbn [map concat]. apply elem_of_app. by left.
    - exists (ORo manifest). split; [by left|]. rewrite !elem_of_app. auto 8.
    - exists (OBind d). split; [by right|]. rewrite !elem_of_app. do 5 right. left. apply elem_of_list_fmap. by exists d.
    - exists (OBind d). split; [by right|]. rewrite !elem_of_app. do 6 right. left. apply elem_of_list_fmap. by exists d.
    - exists (ORo d). split; [by left|]. rewrite !elem_of_app. auto 10.
    - exists (OBind d). split; [by right|]. rewrite !elem_of_app. auto 10. }
  destruct Hin as (o & Ho & Hin). apply elem_of_list_split in Hin as (b & c & E). rewrite ops_after_cargo, E, app_assoc.
  destruct (look_mounted present ((ro_ops h (lit "/") ++ hide_ops home) ++ b) o c envs p d) as (w & Hl & _); [done..| |by exists w].
  intros x Hx. destruct (late_tmpfs x (b ++ [o]) c) as [-> Hn]; [by rewrite <- app_assoc|done|].
  intros Hwx. apply Hr. split; [done|]. by rewrite (proj1 (proj2 (proj2 system_var_tmp))) in Hwx.
Qed.

Lemma whole_writable envs d p :
  d ∈ sb_bind_writable config \/ d ∈ sb_make_writable config ->
  within (components d) p -> ~ system p -> ~ run_hidden p ->
  (forall x, ORo x ∈ more -> ~ within (components x) p) ->
  look (inside present ops envs) p = HostFile p true.
Proof.
  intros Hd Hw Hs Hr Hx.
  assert (Hp : present (components d) = true).
  { destruct Hd as [Hd|Hd]; [rewrite <- (proj1 (proj2 Hok)); by apply Hbind|]. by apply (proj1 (proj2 (proj2 Hok))), Hmake. }
  assert (Hin : OBind d ∈ map OBind (sb_bind_writable config) ++ map OBind (sb_make_writable config)).
  { apply elem_of_app. destruct Hd; [left|right]; apply elem_of_list_fmap; by exists d. }
  apply elem_of_list_split in Hin as (b & c & E).
  set (pre := (ro_ops h (lit "/") ++ hide_ops home) ++ concat (map (ro_ops h) (cargo_dirs home)) ++
     [OSet (lit "USER") (lit "user")] ++ set_ops h config ++ ro_ops h manifest ++ set_ops2 h).
  assert (Eo : ops = (pre ++ b) ++ OBind d :: (c ++ end_ops config ++ more)).
  { rewrite ops_after_cargo. unfold pre. rewrite <- !app_assoc. do 7 f_equal.
    change (OBind d :: c ++ end_ops config ++ more) with ((OBind d :: c) ++ end_ops config ++ more).
    rewrite (app_assoc b), <- E. by rewrite <- app_assoc. }
  rewrite Eo.
  assert (Hc : forall o, o ∈ c -> exists y, o = OBind y).
  { intros o Ho. assert (Ho' : o ∈ map OBind (sb_bind_writable config) ++ map OBind (sb_make_writable config)).
    { rewrite E. apply elem_of_app. right. by right. }
    apply elem_of_app in Ho' as [(y & _ & ->)%bind_in|(y & _ & ->)%bind_in]; by exists y. }
  destruct (look_mounted present (pre ++ b) (OBind d) (c ++ end_ops config ++ more) envs p d) as (w & Hl & Hw'); [by right|done..| |].
  - intros x. rewrite !elem_of_app. intros [[y [=]]%Hc|[[[[=] _]|[Ex Hn]]%end_in|[]%Hmore]].
    assert (x = lit "/run") as -> by congruence. intros Hwx. apply Hr. split; [done|]. by rewrite (proj1 (proj2 (proj2 system_var_tmp))) in Hwx.
  - rewrite Hl. f_equal. apply Hw'; [done|]. intros x. rewrite !elem_of_app.
    intros [[y [=]]%Hc|[[[[=] _]|[[=] Hn]]%end_in|?]]. by apply Hx.
Qed.

Lemma more_writable envs a b d p :
  more = a ++ OBind d :: b -> present (components d) = true -> within (components d) p -> ~ system p ->
  (forall x, ORo x ∈ b -> ~ within (components x) p) ->
  look (inside present ops envs) p = HostFile p true.
Proof.
  intros E Hp Hw Hs Hx. rewrite E, app_assoc.
  destruct (look_mounted present (config_ops h config home manifest ++ a) (OBind d) b envs p d) as (w & Hl & Hw'); [by right|done..| |].
  - intros x Hin. destruct (Hmore (OTmpfs x)). rewrite E. apply elem_of_app. right. by right.
  - rewrite Hl. f_equal. by apply Hw'.
Qed.

Lemma whole_net envs : w_net (inside present ops envs) = true <-> sb_allow_network config = Some true.
Proof.
  rewrite inside_net. unfold config_ops. rewrite !elem_of_app. split.
  - intros [[[[=] ?]%ro_in|[Hh|[(y & _ & [=] & ?)%ro_list_in|[Hu|[[]%set_is_var|[[[=] ?]%ro_in|[[]%set2_is_var|[(y & ? & [=])%bind_in|[(y & ? & [=])%bind_in|[[_ ?]|[[=] ?]]%end_in]]]]]]]]]|[]%Hmore]; [ | |done].
    + unfold hide_ops in Hh. repeat (apply elem_of_cons in Hh as [[=]|Hh]). by apply elem_of_nil in Hh.
    + by apply elem_of_list_singleton in Hu.
  - intros Hn. left. do 9 right. unfold end_ops. rewrite Hn. left.
Qed.
End whole.

(** The operations of a program and of rustc. *)
Definition bin_more (h : host) (bin : str) : list op :=
  match build_directory bin with Some dir => ro_ops h dir | None => [] end ++
  match env_var h (lit "OUT_DIR") with Some dir => [OBind dir] | None => [] end.

Lemma for_perm_sel_ops h config bin args :
  sb_extra_args config = [] ->
  for_perm_sel h config bin = Some (Some args) ->
  exists home manifest, env_var h (lit "HOME") = Some home /\ env_var h (lit "CARGO_MANIFEST_DIR") = Some manifest /\
    args = texts (config_ops h config home manifest ++ bin_more h bin) /\
    (forall d, d ∈ sb_bind_writable config -> h_exists h d = true) /\
    (forall d, d ∈ sb_make_writable config -> h_create h d = true).
Proof.
  intros Hx. unfold for_perm_sel. destruct (from_config h config) as [[a|]|] eqn:E; [|done..].
  apply from_config_ops in E as (home & manifest & H1 & H2 & -> & H3 & H4); [|done]. intros Ea.
  assert (Some_inj' : forall x y : list str, Some (Some x) = Some (Some y) -> y = x) by congruence. apply Some_inj' in Ea as ->.
  exists home, manifest. repeat (split; [done|]). split; [|done]. unfold bin_more. rewrite app_assoc.
  assert (Eb : match build_directory bin with
    | Some dir => sb_ro_bind h dir (texts (config_ops h config home manifest))
    | None => texts (config_ops h config home manifest)
    end = texts (config_ops h config home manifest ++ match build_directory bin with Some dir => ro_ops h dir | None => [] end)).
  { destruct (build_directory bin); [apply ro_texts|by rewrite app_nil_r]. }
  rewrite Eb. destruct (env_var h (lit "OUT_DIR")); [apply bind_texts|by rewrite app_nil_r].
Qed.

Definition rustc_more (h : host) (inputs : rustc_inputs) (exe : str) : list op :=
  concat (map (ro_ops h) (ri_in inputs)) ++ map OBind (ri_out inputs) ++
  concat (map (pass_ops h) (rustc_env_vars ++ ri_vars inputs)) ++ ro_ops h exe.

Lemma ro_list_texts h ds ops :
  fold_left (fun args d => sb_ro_bind h d args) ds (texts ops) = texts (ops ++ concat (map (ro_ops h) ds)).
Proof.
  revert ops. induction ds as [|v ds IH]; intros ops; [by rewrite app_nil_r|].
  cbn [fold_left map concat]. rewrite ro_texts, IH. by rewrite app_assoc.
Qed.

Lemma bind_list_texts ds ops :
  fold_left (fun args d => sb_writable_bind d args) ds (texts ops) = texts (ops ++ map OBind ds).
Proof.
  revert ops. induction ds as [|v ds IH]; intros ops; [by rewrite app_nil_r|].
  cbn [fold_left map]. rewrite bind_texts, IH. by rewrite <- app_assoc.
Qed.

Lemma for_rustc_ops h config inputs exe args :
  sb_extra_args config = [] ->
  for_rustc h config inputs exe = Some (Some args) ->
  exists home manifest, env_var h (lit "HOME") = Some home /\ env_var h (lit "CARGO_MANIFEST_DIR") = Some manifest /\
    args = texts (config_ops h config home manifest ++ rustc_more h inputs exe) /\
    (forall d, d ∈ sb_bind_writable config -> h_exists h d = true) /\
    (forall d, d ∈ sb_make_writable config -> h_create h d = true).
Proof.
  intros Hx. unfold for_rustc. destruct (from_config h config) as [[a|]|] eqn:E; [|done..].
  apply from_config_ops in E as (home & manifest & H1 & H2 & -> & H3 & H4); [|done]. intros Ea.
  assert (Some_inj' : forall x y : list str, Some (Some x) = Some (Some y) -> y = x) by congruence. apply Some_inj' in Ea as ->.
  exists home, manifest. repeat (split; [done|]). split; [|done].
  rewrite ro_list_texts, bind_list_texts, !pass_list_texts, ro_texts. f_equal. unfold rustc_more.
  by rewrite map_app, concat_app, <- !app_assoc.
Qed.

Lemma bin_more_ok h bin o : o ∈ bin_more h bin ->
  match o with OTmpfs _ | ONet => False | ORo d => h_exists h d = true | _ => True end.
Proof.
  unfold bin_more. intros [Ho|Ho]%elem_of_app.
  - destruct (build_directory bin); [|by apply elem_of_nil in Ho]. by apply ro_in in Ho as [-> ?].
  - destruct (env_var _ _); [by apply elem_of_list_singleton in Ho as ->|by apply elem_of_nil in Ho].
Qed.

Lemma rustc_more_ok h inputs exe o : o ∈ rustc_more h inputs exe ->
  match o with OTmpfs _ | ONet => False | ORo d => h_exists h d = true | _ => True end.
Proof.
  unfold rustc_more. rewrite !elem_of_app.
  intros [(d & _ & -> & ?)%ro_list_in|[(d & _ & ->)%bind_in|[?%pass_list_is_var|[-> ?]%ro_in]]]; try done.
  by destruct o.
Qed.

(** ** The arguments of rustc *)
Lemma out_dirs_plain t rest : t <> lit "--out-dir" -> out_dirs (t :: rest) false =
  match strip_prefix (lit "incremental=") t with Some d => [d] | None => [] end ++ out_dirs rest false.
Proof.
  intros Hne. cbn [out_dirs]. apply str_eqb_false in Hne. rewrite Hne. by destruct (strip_prefix _ _).
Qed.

Lemma out_dirs_spec (args : list out_arg) dir :
  (forall a, a ∈ args -> proper_out_arg a) ->
  dir ∈ out_dirs (concat (map out_arg_texts args)) false <-> exists a, a ∈ args /\ names_dir a dir.
Proof.
  induction args as [|a args IH]; intros Hp.
  { split; [by intros ?%elem_of_nil|]. by intros (a & ?%elem_of_nil & _). }
  assert (IH' := IH (fun a Ha => Hp a (elem_of_list_further _ _ _ Ha))). clear IH.
  cbn [map concat].
  assert (E : exists first, out_dirs (out_arg_texts a ++ concat (map out_arg_texts args)) false =
     first ++ out_dirs (concat (map out_arg_texts args)) false /\ (dir ∈ first <-> names_dir a dir)).
  { destruct a as [d|d|t]; cbn [out_arg_texts app].
    - exists [d]. split; [|by rewrite elem_of_list_singleton; split; [intros ->; left|intros [[=]|[=]]]].
      cbn [out_dirs]. assert (S : strip_prefix (lit "incremental=") (lit "--out-dir") = None) by (vm_compute; reflexivity).
      assert (S2 : str_eqb (lit "--out-dir") (lit "--out-dir") = true) by (vm_compute; reflexivity).
      by rewrite S, S2.
    - exists [d]. split; [|by rewrite elem_of_list_singleton; split; [intros ->; right|intros [[=]|[=]]]].
      rewrite out_dirs_plain by done. by rewrite strip_prefix_app.
    - exists []. destruct (Hp (OtherArg t) (elem_of_list_here _ _) t eq_refl) as [H1 H2]. split.
      + rewrite out_dirs_plain by done. destruct (strip_prefix _ t) as [d|] eqn:S; [|done].
        apply strip_prefix_spec in S as ->. destruct H2. by exists d.
      + split; [by intros ?%elem_of_nil|]. by intros [[=]|[=]]. }
  destruct E as (first & -> & Hf). rewrite elem_of_app, Hf, IH'. split.
  - intros [?|(x & ? & ?)]; [exists a; split; [left|done]|exists x; split; [by right|done]].
  - intros (x & [->|?]%elem_of_cons & ?); [by left|right; by exists x].
Qed.

(** ** The variables of the command itself *)
Lemma own_env_other (envs : list (str * option str)) w n :
  n ∉ envs.*1 -> w_env (fold_left own_ops envs w) !! n = w_env w !! n.
Proof.
  revert w. induction envs as [|[a b] envs IH]; intros w Hn; [done|]. rewrite fmap_cons in Hn. cbn [fst] in Hn.
  apply not_elem_of_cons in Hn as [H1 H2]. cbn [fold_left]. rewrite IH by done. unfold own_ops. cbn [fst snd w_env].
  destruct b; [by rewrite lookup_insert_ne|by rewrite lookup_delete_ne].
Qed.

Lemma own_env_set (envs : list (str * option str)) w n x :
  NoDup envs.*1 -> (n, x) ∈ envs -> w_env (fold_left own_ops envs w) !! n = x.
Proof.
  revert w. induction envs as [|[a b] envs IH]; intros w Hnd Hin; [by apply elem_of_nil in Hin|].
  rewrite fmap_cons in Hnd. cbn [fst] in Hnd. apply NoDup_cons in Hnd as [H1 H2]. cbn [fold_left].
  apply elem_of_cons in Hin as [[= -> ->]|Hin]; [|by apply IH].
  rewrite own_env_other by done. unfold own_ops. cbn [fst snd w_env]. destruct b; [apply lookup_insert|apply lookup_delete].
Qed.

Lemma inside_own present ops envs n v :
  NoDup envs.*1 ->
  w_env (inside present ops envs) !! n = Some v <->
  (n, Some v) ∈ envs \/ n ∉ envs.*1 /\ w_env (inside present ops []) !! n = Some v.
Proof.
  intros Hnd. unfold inside. cbn [fold_left]. set (w := World _ _ _).
  destruct (decide (n ∈ envs.*1)) as [Hin|Hn].
  - pose proof Hin as Hin0. apply elem_of_list_fmap in Hin as ([a x] & -> & Hin). cbn [fst] in *.
    rewrite (own_env_set envs w a x) by done. split; [intros ->; by left|]. intros [Hv|[? _]]; [|done].
    apply elem_of_list_lookup in Hin as [i Hi]. apply elem_of_list_lookup in Hv as [j Hj].
    assert (i = j).
    { apply (NoDup_lookup envs.*1 i j a); [done| |]; rewrite list_lookup_fmap; [by rewrite Hi|by rewrite Hj]. }
    subst j. congruence.
  - rewrite own_env_other by done. split; [by right|]. intros [Hv|[_ ?]]; [|done].
    destruct Hn. apply elem_of_list_fmap. by exists (n, Some v).
Qed.

Lemma variables h config home manifest more envs present names n v :
  NoDup (h_env h).*1 -> NoDup envs.*1 ->
  (forall x y, OSet x y ∈ more <-> x ∈ names /\ has_value (h_env h) x y) ->
  w_env (inside present (config_ops h config home manifest ++ more) envs) !! n = Some v <->
  variable config (h_env h) names envs n v.
Proof.
  intros Hnd Hne Hm. rewrite inside_own by done. unfold variable.
  rewrite (config_set h config home manifest more [] present n v); [|done|by intros x y [_ [? _]]%Hm|done].
  assert (Em : forall x, may_pass config (h_env h) [] n x \/ OSet n x ∈ more <-> may_pass config (h_env h) names n x).
  { intros x. rewrite Hm. unfold may_pass, has_value. split.
    - intros [[? [[[?|[]%elem_of_nil] ?]|?]]|[? [? ?]]]; split; auto.
    - intros [? [[[?|?] ?]|?]]; [left|right|left]; auto. }
  split.
  - intros [?|[? [?%Em|(? & ? & Hno)]]]; [by left|right; auto|right]. split; [done|]. right. split; [done|]. split; [done|].
    intros x Hx%Em. destruct (Hno x). tauto.
  - intros [?|[? [?%Em|(? & ? & Hno)]]]; [by left|right; auto|right]. split; [done|]. right. split; [done|]. split; [done|].
    intros x. specialize (Hno x). rewrite <- Em in Hno. tauto.
Qed.

Lemma bin_more_set h bin x y : OSet x y ∈ bin_more h bin <-> x ∈ (@nil str) /\ has_value (h_env h) x y.
Proof.
  split; [|by intros [?%elem_of_nil _]]. unfold bin_more. intros [Ho|Ho]%elem_of_app.
  - destruct (build_directory bin); [by apply ro_no_set in Ho|by apply elem_of_nil in Ho].
  - destruct (env_var _ _); [by apply elem_of_list_singleton in Ho|by apply elem_of_nil in Ho].
Qed.

Lemma rustc_more_set h inputs exe x y : NoDup (h_env h).*1 ->
  OSet x y ∈ rustc_more h inputs exe <-> x ∈ rustc_names (ri_vars inputs) /\ has_value (h_env h) x y.
Proof.
  intros Hnd. unfold rustc_more. rewrite !elem_of_app, pass_list_set by done. split.
  - intros [H|[H|[?|H]]]; [by apply ro_list_no_set in H|by apply bind_no_set in H|done|by apply ro_no_set in H].
  - intros ?. by right; right; left.
Qed.

(** ** Inputs of rustc *)
Lemma rustc_inputs_spec h (oargs : list out_arg) read_vars inputs :
  NoDup (h_env h).*1 ->
  (forall a, a ∈ oargs -> proper_out_arg a) ->
  (forall s, has_value (h_env h) (lit "CACKLE_SOCKET_PATH") s -> dotless s) ->
  rustc_inputs_from_env h (concat (map out_arg_texts oargs)) read_vars = Some inputs ->
  exists target profile root,
    has_value (h_env h) (lit "CACKLE_TARGET_DIR") target /\
    has_value (h_env h) (lit "CACKLE_BUILD_PROFILE") profile /\
    has_value (h_env h) (lit "CACKLE_MANIFEST_DIR") root /\
    ri_in inputs = [root] /\ ri_vars inputs = read_vars target profile /\
    target ∈ ri_out inputs /\
    (forall d, d ∈ ri_out inputs -> rustc_out (h_env h) oargs (components d)) /\
    (forall d, rustc_out (h_env h) oargs d -> exists x, x ∈ ri_out inputs /\ within (components x) d /\ (components x = d \/ x = target)).
Proof.
  intros Hnd Hp Hdot. unfold rustc_inputs_from_env.
  destruct (env_var h (lit "CACKLE_TARGET_DIR")) as [target|] eqn:E1; [|done]. apply env_var_spec in E1; [|done].
  destruct (env_var h (lit "CACKLE_BUILD_PROFILE")) as [profile|] eqn:E2; [|done]. apply env_var_spec in E2; [|done].
  destruct (env_var h (lit "CACKLE_MANIFEST_DIR")) as [root|] eqn:E3; [|done]. apply env_var_spec in E3; [|done].
  set (out := match env_var h (lit "CACKLE_SOCKET_PATH") with
              | Some socket => match path_parent socket with
                               | Some dir => out_dirs (concat (map out_arg_texts oargs)) false ++ [dir]
                               | None => out_dirs (concat (map out_arg_texts oargs)) false
                               end
              | None => out_dirs (concat (map out_arg_texts oargs)) false
              end).
  assert (Hout : forall d, d ∈ out <-> (exists a, a ∈ oargs /\ names_dir a d) \/
     exists s, has_value (h_env h) (lit "CACKLE_SOCKET_PATH") s /\ path_parent s = Some d).
  { intros d. unfold out. destruct (env_var h (lit "CACKLE_SOCKET_PATH")) as [s|] eqn:E4.
    - apply env_var_spec in E4; [|done].
      assert (U : forall s', has_value (h_env h) (lit "CACKLE_SOCKET_PATH") s' -> s' = s).
      { intros s' [H' _]. destruct E4 as [H4 _]. by apply (env_unique (h_env h) (lit "CACKLE_SOCKET_PATH")). }
      destruct (path_parent s) as [p|] eqn:Ep.
      + rewrite elem_of_app, elem_of_list_singleton, out_dirs_spec by done. split.
        * intros [?| ->]; [by left|right; by exists s].
        * intros [?|(s' & ->%U & Hs)]; [by left|right; congruence].
      + rewrite out_dirs_spec by done. split; [by left|]. intros [?|(s' & ->%U & Hs)]; [done|congruence].
    - rewrite out_dirs_spec by done. split; [by left|]. intros [?|(s' & Hs & _)]; [done|].
      apply env_var_spec in Hs; [congruence|done]. }
  intros Ei. assert (inputs = RustcInputs (filter (fun d => path_below target d = false) out ++ [target]) [root] (read_vars target profile)) as -> by congruence.
  clear Ei. clearbody out. exists target, profile, root. cbn [ri_in ri_out ri_vars].
  do 5 (split; [done|]). split; [apply elem_of_app; right; left|]. split.
  - intros d [Hd|Hd]%elem_of_app.
    + apply elem_of_list_filter in Hd as [_ Hd]. apply Hout in Hd as [(a & Ha & Hn)|(s & Hs & Hpar)].
      * right. left. by exists a, d.
      * right. right. apply parent_spec in Hpar as [_ [name ?]]; [|by apply Hdot]. by exists s, name.
    + apply elem_of_list_singleton in Hd as ->. left. by exists target.
  - intros d Hd. assert (Hcase : (exists x, x ∈ out /\ components x = d) \/ components target = d).
    { destruct Hd as [(t & [Ht _] & ->)|[(a & x & Ha & Hn & ->)|(s & name & Hs & Hc)]].
      - right. f_equal. destruct E1 as [H1 _]. by apply (env_unique (h_env h) (lit "CACKLE_TARGET_DIR")).
      - left. exists x. split; [|done]. apply Hout. left. by exists a.
      - left. destruct (path_parent s) as [p|] eqn:Ep.
        + exists p. split; [apply Hout; right; by exists s|]. apply parent_spec in Ep as [_ [n' Hc']]; [|by apply Hdot].
          rewrite Hc in Hc'. by apply app_inj_tail in Hc' as [-> _].
        + apply parent_none in Ep. rewrite Hc in Ep. by destruct d. }
    destruct Hcase as [(x & Hx & <-)|<-].
    + destruct (path_below target x) eqn:Eb.
      * exists target. split; [apply elem_of_app; right; left|]. unfold path_below in Eb. apply bool_decide_eq_true in Eb.
        split; [done|by right].
      * exists x. split; [apply elem_of_app; left; by apply elem_of_list_filter|]. split; [exists []; by rewrite app_nil_r|by left].
    + exists target. split; [apply elem_of_app; right; left|]. split; [exists []; by rewrite app_nil_r|by left].
Qed.
