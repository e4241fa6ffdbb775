(** C31, C32, C70-C72: what a sandbox shows. *)
From Verif Require Import Base BaseFacts TextSpec Utf8Proofs TextModel ConfigModel SandboxModel SandboxSpec SandboxProofs.

(** Without arguments of its own in the configuration, a sandbox is accepted by bwrap and runs the
    command it was made for. *)
Lemma bin_world h present config bin args own program cmd_args :
  host_ok h present -> sb_extra_args config = [] -> for_perm_sel h config bin = Some (Some args) ->
  exists home manifest,
    has_value (h_env h) (lit "HOME") home /\ has_value (h_env h) (lit "CARGO_MANIFEST_DIR") manifest /\
    (forall d, d ∈ sb_bind_writable config -> h_exists h d = true) /\
    (forall d, d ∈ sb_make_writable config -> h_create h d = true) /\
    runs_in h present args own program cmd_args (inside present (config_ops h config home manifest ++ bin_more h bin) own).
Proof.
  intros Hok Hx Hf. apply for_perm_sel_ops in Hf as (home & manifest & H1 & H2 & -> & H3 & H4); [|done].
  pose proof (proj2 (proj2 (proj2 Hok))) as Hnd.
  exists home, manifest. split; [by apply env_var_spec|]. split; [by apply env_var_spec|]. split; [done|]. split; [done|].
  apply bwrap_inside; [|done]. intros d. apply ops_ro; [done|apply bin_more_ok].
Qed.

Lemma rustc_world h present config inputs exe args own program cmd_args :
  host_ok h present -> sb_extra_args config = [] -> for_rustc h config inputs exe = Some (Some args) ->
  exists home manifest,
    has_value (h_env h) (lit "HOME") home /\ has_value (h_env h) (lit "CARGO_MANIFEST_DIR") manifest /\
    (forall d, d ∈ sb_bind_writable config -> h_exists h d = true) /\
    (forall d, d ∈ sb_make_writable config -> h_create h d = true) /\
    runs_in h present args own program cmd_args (inside present (config_ops h config home manifest ++ rustc_more h inputs exe) own).
Proof.
  intros Hok Hx Hf. apply for_rustc_ops in Hf as (home & manifest & H1 & H2 & -> & H3 & H4); [|done].
  pose proof (proj2 (proj2 (proj2 Hok))) as Hnd.
  exists home, manifest. split; [by apply env_var_spec|]. split; [by apply env_var_spec|]. split; [done|]. split; [done|].
  apply bwrap_inside; [|done]. intros d. apply ops_ro; [done|apply rustc_more_ok].
Qed.

Lemma same_world h present args own program cmd_args w w' :
  runs_in h present args own program cmd_args w -> runs_in h present args own program cmd_args w' -> w' = w.
Proof. unfold runs_in. congruence. Qed.

Lemma same_value h present n v v' :
  host_ok h present -> has_value (h_env h) n v -> has_value (h_env h) n v' -> v' = v.
Proof. intros (_ & _ & _ & Hnd) [H1 _] [H2 _]. by apply (env_unique (h_env h) n). Qed.

(** C31. The variables of a build script or test in a sandbox are exactly those that the rules
    name. *)
Theorem C31_binary (h : host) (present : list str -> bool) (config : sandbox_config) (bin : str) (args : list str)
    (own : list (str * option str)) (program : str) (cmd_args : list str) :
  host_ok h present -> sb_extra_args config = [] -> NoDup own.*1 ->
  for_perm_sel h config bin = Some (Some args) ->
  exists w, runs_in h present args own program cmd_args w /\
    forall name value, w_env w !! name = Some value <-> variable config (h_env h) [] own name value.
Proof.
  intros Hok Hx Hnd Hf.
  destruct (bin_world h present config bin args own program cmd_args Hok Hx Hf) as (home & manifest & _ & _ & _ & _ & Hw).
  eexists. split; [exact Hw|]. intros name value.
  apply variables; [apply Hok|done|]. intros x y. apply bin_more_set.
Qed.
Print Assumptions C31_binary.

(** Likewise for rustc, with cackle's own variables and those that the build script has set. *)
Theorem C31_rustc (h : host) (present : list str -> bool) (config : sandbox_config) (rustc_args : list str)
    (read_vars : str -> str -> list str) (inputs : rustc_inputs) (exe : str) (args : list str)
    (own : list (str * option str)) (program : str) (cmd_args : list str) (target profile : str) :
  host_ok h present -> sb_extra_args config = [] -> NoDup own.*1 ->
  has_value (h_env h) (lit "CACKLE_TARGET_DIR") target -> has_value (h_env h) (lit "CACKLE_BUILD_PROFILE") profile ->
  rustc_inputs_from_env h rustc_args read_vars = Some inputs ->
  for_rustc h config inputs exe = Some (Some args) ->
  exists w, runs_in h present args own program cmd_args w /\
    forall name value, w_env w !! name = Some value <->
      variable config (h_env h) (rustc_names (read_vars target profile)) own name value.
Proof.
  intros Hok Hx Hnd Ht Hp Hi Hf.
  assert (Hv : ri_vars inputs = read_vars target profile).
  { unfold rustc_inputs_from_env in Hi.
    rewrite (proj2 (env_var_spec h _ _ (proj2 (proj2 (proj2 Hok)))) Ht) in Hi.
    rewrite (proj2 (env_var_spec h _ _ (proj2 (proj2 (proj2 Hok)))) Hp) in Hi.
    destruct (env_var h (lit "CACKLE_MANIFEST_DIR")); [|done].
    assert (E : forall (a b : rustc_inputs), Some a = Some b -> ri_vars b = ri_vars a) by congruence.
    by apply E in Hi. }
  destruct (rustc_world h present config inputs exe args own program cmd_args Hok Hx Hf) as (home & manifest & _ & _ & _ & _ & Hw).
  eexists. split; [exact Hw|]. intros name value. rewrite <- Hv.
  apply variables; [apply Hok|done|]. intros x y. apply rustc_more_set. apply Hok.
Qed.
Print Assumptions C31_rustc.

(** A host on which everything exists. *)
Definition ex_env : list (str * str) :=
  [(lit "HOME", lit "/home/u"); (lit "CARGO_MANIFEST_DIR", lit "/home/u/ws/a"); (lit "OUT_DIR", lit "/home/u/ws/target/out");
   (lit "PATH", lit "/usr/bin"); (lit "SECRET", lit "s"); (lit "KEPT", lit "k"); (lit "RUSTC_WRAPPER", lit "/c");
   (lit "CARGO_PKG_NAME", lit "a"); (lit "CACKLE_TARGET_DIR", lit "/home/u/ws/target");
   (lit "CACKLE_BUILD_PROFILE", lit "debug"); (lit "CACKLE_MANIFEST_DIR", lit "/home/u/ws");
   (lit "CACKLE_SOCKET_PATH", lit "/tmp/s/socket")].
Definition ex_host (env : list (str * str)) : host := Host env (fun _ => true) (fun _ => true) (fun _ => true).
Definition ex_config (net : option bool) (writable : list str) : sandbox_config :=
  SandboxConfig (Some Bubblewrap) [] net [] writable [lit "KEPT"].

Lemma ex_host_ok env : bool_decide (NoDup env.*1) = true -> host_ok (ex_host env) (fun _ => true).
Proof. intros H. split; [done|]. split; [done|]. split; [done|]. by apply bool_decide_eq_true in H. Qed.

Definition ex_world (h : host) (args : option (option (list str))) (own : list (str * option str)) : option world :=
  match args with
  | Some (Some args) => fst <$> bwrap (fun _ => true) (bwrap_args args own (lit "prog") []) (outside (h_env h))
  | _ => None
  end.

Definition the_args (args : option (option (list str))) : list str :=
  match args with Some (Some args) => args | _ => [] end.
Definition the_world (h : host) (args : list str) (program : str) : world :=
  match bwrap (fun _ => true) (bwrap_args args [] program []) (outside (h_env h)) with
  | Some (w, _) => w
  | None => World ∅ [] false
  end.

Example C31_ex :
  let h := ex_host ex_env in
  host_ok h (fun _ => true) /\
  (let w := ex_world h (for_perm_sel h (ex_config None []) (lit "/home/u/ws/target/debug/build/a/build-script")) [] in
   let var n := w ≫= fun w => w_env w !! n in
   [var (lit "HOME"); var (lit "PATH"); var (lit "KEPT"); var (lit "SECRET"); var (lit "RUSTC_WRAPPER"); var (lit "CARGO_PKG_NAME"); var (lit "USER");
    var (lit "CACKLE_SOCKET_PATH")] =
   [Some (lit "/home/u"); Some (lit "/usr/bin"); Some (lit "k"); None; None; Some (lit "a"); Some (lit "user"); None]) /\
  exists inputs, rustc_inputs_from_env h [lit "--out-dir"; lit "/o"] (fun _ _ => [lit "SECRET"]) = Some inputs /\
  (let w := ex_world h (for_rustc h (ex_config None []) inputs (lit "/usr/bin/cackle")) [(lit "CACKLE_CRATE_KIND", Some (lit "primary"))] in
   let var n := w ≫= fun w => w_env w !! n in
   [var (lit "SECRET"); var (lit "CACKLE_SOCKET_PATH"); var (lit "CACKLE_CRATE_KIND"); var (lit "RUSTC_WRAPPER")] =
   [Some (lit "s"); Some (lit "/tmp/s/socket"); Some (lit "primary"); None]).
Proof.
  split; [by apply ex_host_ok|]. split; [by vm_compute|]. eexists. split; [by vm_compute|by vm_compute].
Qed.

(** C32. Through a sandbox for a build script or a test, a file of the host shows only in its own
    place, outside the system's directories, and, where the host is hidden, only if it is cargo's
    or the package's or was granted. *)
Theorem C32_binary_reads (h : host) (present : list str -> bool) (config : sandbox_config) (bin : str) (args : list str)
    (own : list (str * option str)) (program : str) (cmd_args : list str) (home manifest : str) :
  host_ok h present -> sb_extra_args config = [] -> dotless bin ->
  has_value (h_env h) (lit "HOME") home -> has_value (h_env h) (lit "CARGO_MANIFEST_DIR") manifest ->
  for_perm_sel h config bin = Some (Some args) ->
  exists w, runs_in h present args own program cmd_args w /\
    forall p q writable, look w p = HostFile q writable ->
      q = p /\ ~ system p /\
      (hidden config (components home) p ->
       exists d, within d p /\
         (d ∈ cargo_places (components home) \/ d = components manifest \/ d ∈ writable_places config \/
          program_place (components bin) d \/
          exists out, has_value (h_env h) (lit "OUT_DIR") out /\ d = components out)).
Proof.
  intros Hok Hx Hdot Hh Hm Hf.
  destruct (bin_world h present config bin args own program cmd_args Hok Hx Hf) as (home' & manifest' & Hh' & Hm' & _ & _ & Hw).
  rewrite (same_value h present _ _ _ Hok Hh Hh') in *. rewrite (same_value h present _ _ _ Hok Hm Hm') in *.
  eexists. split; [exact Hw|]. intros p q b E. apply whole_reads in E as (-> & Hs & Hhid); try done.
  split; [done|]. split; [done|]. intros (d & Hd & Hg)%Hhid. exists (components d). split; [done|].
  destruct Hg as [[_ [Hc|Hc]]|[[_ Hc]|Hc]].
  - left. by apply cargo_dirs_places.
  - right. left. by rewrite Hc.
  - right. right. left. apply elem_of_app. destruct Hc; [left|right]; apply elem_of_list_fmap; by exists d.
  - do 3 right. unfold bin_more in Hc. apply elem_of_app in Hc as [Hc|Hc].
    + left. destruct (build_directory bin) as [dir|] eqn:Eb; [|by apply elem_of_nil in Hc].
      apply ro_in in Hc as [Hc _]. destruct b; [done|]. injection Hc as ->. by apply build_directory_spec.
    + right. destruct (env_var h (lit "OUT_DIR")) as [out|] eqn:Eo; [|by apply elem_of_nil in Hc].
      apply elem_of_list_singleton in Hc. destruct b; [|done]. injection Hc as ->. exists out.
      split; [|done]. apply env_var_spec; [apply Hok|done].
Qed.
Print Assumptions C32_binary_reads.

(** It can write only to what the configuration makes writable and to OUT_DIR. *)
Theorem C32_binary_writes (h : host) (present : list str -> bool) (config : sandbox_config) (bin : str) (args : list str)
    (own : list (str * option str)) (program : str) (cmd_args : list str) :
  host_ok h present -> sb_extra_args config = [] ->
  for_perm_sel h config bin = Some (Some args) ->
  exists w, runs_in h present args own program cmd_args w /\
    forall p q, look w p = HostFile q true ->
      exists d, within d p /\
        (d ∈ writable_places config \/ exists out, has_value (h_env h) (lit "OUT_DIR") out /\ d = components out).
Proof.
  intros Hok Hx Hf.
  destruct (bin_world h present config bin args own program cmd_args Hok Hx Hf) as (home & manifest & _ & _ & _ & _ & Hw).
  eexists. split; [exact Hw|]. intros p q E. apply whole_writes in E as (d & Hd & Hc).
  exists (components d). split; [done|]. destruct Hc as [Hc|[Hc|Hc]].
  - left. apply elem_of_app. left. apply elem_of_list_fmap. by exists d.
  - left. apply elem_of_app. right. apply elem_of_list_fmap. by exists d.
  - right. unfold bin_more in Hc. apply elem_of_app in Hc as [Hc|Hc].
    + destruct (build_directory bin); [|by apply elem_of_nil in Hc]. by apply ro_in in Hc as [Hc _].
    + destruct (env_var h (lit "OUT_DIR")) as [out|] eqn:Eo; [|by apply elem_of_nil in Hc].
      apply elem_of_list_singleton in Hc. injection Hc as ->. exists out. split; [|done]. apply env_var_spec; [apply Hok|done].
Qed.
Print Assumptions C32_binary_writes.

(** What is not hidden can be read, and so can cargo's directories, the package and the
    directories that were granted; OUT_DIR can be written, and so can the directories of the
    configuration that are neither below [/run] nor below the program's own directory. *)
Theorem C32_binary_granted (h : host) (present : list str -> bool) (config : sandbox_config) (bin : str) (args : list str)
    (own : list (str * option str)) (program : str) (cmd_args : list str) (home manifest : str) :
  host_ok h present -> sb_extra_args config = [] -> dotless bin ->
  has_value (h_env h) (lit "HOME") home -> has_value (h_env h) (lit "CARGO_MANIFEST_DIR") manifest ->
  for_perm_sel h config bin = Some (Some args) ->
  exists w, runs_in h present args own program cmd_args w /\
    (forall p, ~ system p -> ~ hidden config (components home) p -> exists b, look w p = HostFile p b) /\
    (forall d p, d ∈ cargo_places (components home) \/ d = components manifest \/ d ∈ writable_places config \/
                 program_place (components bin) d ->
       present d = true -> within d p -> ~ system p ->
       sb_allow_network config = Some true \/ ~ within [lit "run"] p -> exists b, look w p = HostFile p b) /\
    (forall out p, has_value (h_env h) (lit "OUT_DIR") out -> present (components out) = true ->
       within (components out) p -> ~ system p -> look w p = HostFile p true) /\
    (forall d p, d ∈ writable_places config -> within d p -> ~ system p ->
       sb_allow_network config = Some true \/ ~ within [lit "run"] p ->
       (forall x, program_place (components bin) x -> ~ within x p) -> look w p = HostFile p true).
Proof.
  intros Hok Hx Hdot Hh Hm Hf.
  destruct (bin_world h present config bin args own program cmd_args Hok Hx Hf) as (home' & manifest' & Hh' & Hm' & Hb & Hk & Hw).
  rewrite (same_value h present _ _ _ Hok Hh Hh') in *. rewrite (same_value h present _ _ _ Hok Hm Hm') in *.
  eexists. split; [exact Hw|]. clear Hw. pose proof (bin_more_ok h bin) as Hmore.
  assert (Hrun : forall p, sb_allow_network config = Some true \/ ~ within [lit "run"] p -> ~ run_hidden config p).
  { intros p [?|?] [? ?]; done. }
  split; [|split; [|split]].
  - intros p Hs Hhid. by apply whole_visible.
  - intros d p Hd Hp Hin Hs Hr%Hrun.
    assert (Hd' : exists x, components x = d /\ (x ∈ cargo_dirs home \/ x = manifest \/ x ∈ sb_bind_writable config \/
       x ∈ sb_make_writable config \/ ORo x ∈ bin_more h bin \/ OBind x ∈ bin_more h bin)).
    { destruct Hd as [Hd|[->|[Hd|Hd]]].
      - apply cargo_places_dirs in Hd as (x & ? & ?). exists x. auto.
      - exists manifest. auto.
      - apply elem_of_app in Hd as [Hd|Hd]; apply elem_of_list_fmap in Hd as (x & -> & ?); exists x; auto 6.
      - destruct (build_directory_some bin Hdot) as [dir Hdir].
        { destruct Hd as (parent & name & E & _). rewrite E. by destruct parent. }
        assert (E : components dir = d).
        { eapply program_place_fun; [|exact Hd]. by apply build_directory_spec. }
        exists dir. split; [done|]. do 4 right. left. unfold bin_more. rewrite Hdir. apply elem_of_app. left.
        unfold ro_ops. rewrite (proj1 (proj2 Hok)), E, Hp. left. }
    destruct Hd' as (x & <- & Hx'). by apply whole_readable with (d := x).
  - intros out p Ho Hp Hin Hs. apply env_var_spec in Ho; [|apply Hok].
    apply more_writable with (a := match build_directory bin with Some dir => ro_ops h dir | None => [] end) (b := []) (d := out); try done.
    + unfold bin_more. by rewrite Ho.
    + intros x. by intros ?%elem_of_nil.
  - intros d p Hd Hin Hs Hr%Hrun Hpl.
    apply elem_of_app in Hd as [Hd|Hd]; apply elem_of_list_fmap in Hd as (x & -> & ?);
      (apply whole_writable with (d := x); auto; []); intros y [Hy|Hy]%elem_of_app.
    + destruct (build_directory bin) as [dir|] eqn:Eb; [|by apply elem_of_nil in Hy].
      apply ro_in in Hy as [[= ->] _]. by apply Hpl, build_directory_spec.
    + destruct (env_var h (lit "OUT_DIR")); [by apply elem_of_list_singleton in Hy|by apply elem_of_nil in Hy].
    + destruct (build_directory bin) as [dir|] eqn:Eb; [|by apply elem_of_nil in Hy].
      apply ro_in in Hy as [[= ->] _]. by apply Hpl, build_directory_spec.
    + destruct (env_var h (lit "OUT_DIR")); [by apply elem_of_list_singleton in Hy|by apply elem_of_nil in Hy].
Qed.
Print Assumptions C32_binary_granted.

(** rustc sees the host likewise. *)
Theorem C32_rustc_reads (h : host) (present : list str -> bool) (config : sandbox_config) (rustc_args : list out_arg)
    (read_vars : str -> str -> list str) (inputs : rustc_inputs) (exe : str) (args : list str)
    (own : list (str * option str)) (program : str) (cmd_args : list str) (home manifest root : str) :
  host_ok h present -> sb_extra_args config = [] ->
  (forall a, a ∈ rustc_args -> proper_out_arg a) ->
  (forall s, has_value (h_env h) (lit "CACKLE_SOCKET_PATH") s -> dotless s) ->
  has_value (h_env h) (lit "HOME") home -> has_value (h_env h) (lit "CARGO_MANIFEST_DIR") manifest ->
  has_value (h_env h) (lit "CACKLE_MANIFEST_DIR") root ->
  rustc_inputs_from_env h (concat (map out_arg_texts rustc_args)) read_vars = Some inputs ->
  for_rustc h config inputs exe = Some (Some args) ->
  exists w, runs_in h present args own program cmd_args w /\
    (forall p q writable, look w p = HostFile q writable ->
      q = p /\ ~ system p /\
      (hidden config (components home) p ->
       exists d, within d p /\
         (d ∈ cargo_places (components home) \/ d = components manifest \/ d = components root \/ d = components exe \/
          d ∈ writable_places config \/ rustc_out (h_env h) rustc_args d))) /\
    (forall p q, look w p = HostFile q true ->
      exists d, within d p /\ (d ∈ writable_places config \/ rustc_out (h_env h) rustc_args d)).
Proof.
  intros Hok Hx Hprop Hdot Hh Hm Hroot Hi Hf.
  destruct (rustc_world h present config inputs exe args own program cmd_args Hok Hx Hf) as (home' & manifest' & Hh' & Hm' & _ & _ & Hw).
  rewrite (same_value h present _ _ _ Hok Hh Hh') in *. rewrite (same_value h present _ _ _ Hok Hm Hm') in *.
  apply rustc_inputs_spec in Hi as (target & profile & root' & Ht & Hp & Hroot' & Ein & _ & _ & Hout & _); [|apply Hok|done|done].
  rewrite (same_value h present _ _ _ Hok Hroot Hroot') in *.
  eexists. split; [exact Hw|]. clear Hw.
  assert (Hbo : forall d, OBind d ∈ rustc_more h inputs exe -> rustc_out (h_env h) rustc_args (components d)).
  { intros d. unfold rustc_more. rewrite !elem_of_app.
    intros [(y & _ & [=] & _)%ro_list_in|[(y & Hy & [= ->])%bind_in|[[]%pass_list_is_var|[[=] _]%ro_in]]]. by apply Hout. }
  split.
  - intros p q b E. apply whole_reads in E as (-> & Hs & Hhid); try done.
    split; [done|]. split; [done|]. intros (d & Hd & Hg)%Hhid. exists (components d). split; [done|].
    destruct Hg as [[_ [Hc|Hc]]|[[_ Hc]|Hc]].
    + left. by apply cargo_dirs_places.
    + right. left. by rewrite Hc.
    + do 4 right. left. apply elem_of_app. destruct Hc; [left|right]; apply elem_of_list_fmap; by exists d.
    + destruct b; [do 5 right; by apply Hbo|]. revert Hc. unfold rustc_more. rewrite !elem_of_app, Ein.
      intros [(y & Hy & [= ->] & _)%ro_list_in|[(y & Hy & [=])%bind_in|[[]%pass_list_is_var|[[= ->] _]%ro_in]]]; [|auto 8].
      apply elem_of_list_singleton in Hy as ->. auto 8.
  - intros p q E. apply whole_writes in E as (d & Hd & Hc). exists (components d). split; [done|]. destruct Hc as [Hc|[Hc|Hc]].
    + left. apply elem_of_app. left. apply elem_of_list_fmap. by exists d.
    + left. apply elem_of_app. right. apply elem_of_list_fmap. by exists d.
    + right. by apply Hbo.
Qed.
Print Assumptions C32_rustc_reads.

Theorem C32_rustc_granted (h : host) (present : list str -> bool) (config : sandbox_config) (rustc_args : list out_arg)
    (read_vars : str -> str -> list str) (inputs : rustc_inputs) (exe : str) (args : list str)
    (own : list (str * option str)) (program : str) (cmd_args : list str) (home manifest root target : str) :
  host_ok h present -> sb_extra_args config = [] ->
  (forall a, a ∈ rustc_args -> proper_out_arg a) ->
  (forall s, has_value (h_env h) (lit "CACKLE_SOCKET_PATH") s -> dotless s) ->
  has_value (h_env h) (lit "HOME") home -> has_value (h_env h) (lit "CARGO_MANIFEST_DIR") manifest ->
  has_value (h_env h) (lit "CACKLE_MANIFEST_DIR") root -> has_value (h_env h) (lit "CACKLE_TARGET_DIR") target ->
  rustc_inputs_from_env h (concat (map out_arg_texts rustc_args)) read_vars = Some inputs ->
  for_rustc h config inputs exe = Some (Some args) ->
  exists w, runs_in h present args own program cmd_args w /\
    (forall p, ~ system p -> ~ hidden config (components home) p -> exists b, look w p = HostFile p b) /\
    (forall d p, d ∈ cargo_places (components home) \/ d = components manifest \/ d = components root \/ d = components exe \/
                 d ∈ writable_places config ->
       present d = true -> within d p -> ~ system p ->
       sb_allow_network config = Some true \/ ~ within [lit "run"] p -> exists b, look w p = HostFile p b) /\
    (forall d p, rustc_out (h_env h) rustc_args d -> present d = true -> present (components target) = true ->
       within d p -> ~ system p -> ~ within (components exe) p -> look w p = HostFile p true) /\
    (forall d p, d ∈ writable_places config -> within d p -> ~ system p ->
       sb_allow_network config = Some true \/ ~ within [lit "run"] p ->
       ~ within (components root) p -> ~ within (components exe) p -> look w p = HostFile p true).
Proof.
  intros Hok Hx Hprop Hdot Hh Hm Hroot Ht Hi Hf.
  destruct (rustc_world h present config inputs exe args own program cmd_args Hok Hx Hf) as (home' & manifest' & Hh' & Hm' & Hb & Hk & Hw).
  rewrite (same_value h present _ _ _ Hok Hh Hh') in *. rewrite (same_value h present _ _ _ Hok Hm Hm') in *.
  apply rustc_inputs_spec in Hi as (target' & profile & root' & Ht' & Hp & Hroot' & Ein & _ & _ & _ & Hout); [|apply Hok|done|done].
  rewrite (same_value h present _ _ _ Hok Hroot Hroot') in *. rewrite (same_value h present _ _ _ Hok Ht Ht') in *.
  eexists. split; [exact Hw|]. clear Hw. pose proof (rustc_more_ok h inputs exe) as Hmore.
  assert (Hrun : forall p, sb_allow_network config = Some true \/ ~ within [lit "run"] p -> ~ run_hidden config p).
  { intros p [?|?] [? ?]; done. }
  split; [|split; [|split]].
  - intros p Hs Hhid. by apply whole_visible.
  - intros d p Hd Hpr Hin Hs Hr%Hrun.
    assert (Hd' : exists x, components x = d /\ (x ∈ cargo_dirs home \/ x = manifest \/ x ∈ sb_bind_writable config \/
       x ∈ sb_make_writable config \/ ORo x ∈ rustc_more h inputs exe \/ OBind x ∈ rustc_more h inputs exe)).
    { destruct Hd as [Hd|[->|[->|[->|Hd]]]].
      - apply cargo_places_dirs in Hd as (x & ? & ?). exists x. auto.
      - exists manifest. auto.
      - exists root. split; [done|]. do 4 right. left. unfold rustc_more. rewrite Ein. cbn [map concat].
        rewrite !elem_of_app. left. left. unfold ro_ops. rewrite (proj1 (proj2 Hok)), Hpr. left.
      - exists exe. split; [done|]. do 4 right. left. unfold rustc_more. rewrite !elem_of_app. do 3 right.
        unfold ro_ops. rewrite (proj1 (proj2 Hok)), Hpr. left.
      - apply elem_of_app in Hd as [Hd|Hd]; apply elem_of_list_fmap in Hd as (x & -> & ?); exists x; auto 6. }
    destruct Hd' as (x & <- & Hx'). by apply whole_readable with (d := x).
  - intros d p Hd Hpd Hpt Hin Hs Hexe. apply Hout in Hd as (x & Hxin & Hxd & Hxc).
    assert (Hpx : present (components x) = true) by (destruct Hxc as [->| ->]; done).
    assert (Hinx : within (components x) p).
    { destruct Hxd as [r1 ->], Hin as [r2 ->]. exists (r1 ++ r2). by rewrite app_assoc. }
    apply elem_of_list_split in Hxin as (l1 & l2 & El).
    apply more_writable with (a := concat (map (ro_ops h) (ri_in inputs)) ++ map OBind l1)
      (b := map OBind l2 ++ concat (map (pass_ops h) (rustc_env_vars ++ ri_vars inputs)) ++ ro_ops h exe) (d := x); try done.
    + unfold rustc_more. rewrite El, map_app. cbn [map]. by rewrite <- !app_assoc.
    + intros y. rewrite !elem_of_app. intros [(z & _ & [=])%bind_in|[[]%pass_list_is_var|[[= ->] _]%ro_in]]. done.
  - intros d p Hd Hin Hs Hr%Hrun Hnr Hexe.
    assert (Hro : forall y, ORo y ∈ rustc_more h inputs exe -> ~ within (components y) p).
    { intros y. unfold rustc_more. rewrite !elem_of_app, Ein.
      intros [(z & Hz & [= ->] & _)%ro_list_in|[(z & _ & [=])%bind_in|[[]%pass_list_is_var|[[= ->] _]%ro_in]]]; [|done].
      by apply elem_of_list_singleton in Hz as ->. }
    apply elem_of_app in Hd as [Hd|Hd]; apply elem_of_list_fmap in Hd as (x & -> & ?); apply whole_writable with (d := x); auto.
Qed.
Print Assumptions C32_rustc_granted.

(** The network is there exactly if the configuration says so. *)
Theorem C32_network (h : host) (present : list str -> bool) (config : sandbox_config) (args : list str)
    (own : list (str * option str)) (program : str) (cmd_args : list str) :
  host_ok h present -> sb_extra_args config = [] ->
  (exists bin, for_perm_sel h config bin = Some (Some args)) \/
  (exists inputs exe, for_rustc h config inputs exe = Some (Some args)) ->
  exists w, runs_in h present args own program cmd_args w /\ (w_net w = true <-> sb_allow_network config = Some true).
Proof.
  intros Hok Hx [[bin Hf]|(inputs & exe & Hf)].
  - destruct (bin_world h present config bin args own program cmd_args Hok Hx Hf) as (home & manifest & _ & _ & _ & _ & Hw).
    eexists. split; [exact Hw|]. apply (whole_net h). apply bin_more_ok.
  - destruct (rustc_world h present config inputs exe args own program cmd_args Hok Hx Hf) as (home & manifest & _ & _ & _ & _ & Hw).
    eexists. split; [exact Hw|]. apply (whole_net h). apply rustc_more_ok.
Qed.
Print Assumptions C32_network.

(** A program runs without a sandbox only if the configuration has none. *)
Theorem C32_off (h : host) (config : sandbox_config) :
  (forall bin, for_perm_sel h config bin = Some None <-> sb_kind config <> Some Bubblewrap) /\
  (forall inputs exe, for_rustc h config inputs exe = Some None <-> sb_kind config <> Some Bubblewrap).
Proof.
  assert (K : from_config h config = Some None <-> sb_kind config <> Some Bubblewrap).
  { unfold from_config. destruct (sb_kind config) as [[|]|]; [done| |done]. split; [|done].
    destruct (env_var h (lit "HOME")); [|done]. destruct (env_var h (lit "CARGO_MANIFEST_DIR")); [|done].
    destruct (bind_dirs _ _ _); [|done]. by destruct (make_dirs _ _ _). }
  split; intros; rewrite <- K; unfold for_perm_sel, for_rustc; by destruct (from_config h config) as [[|]|].
Qed.
Print Assumptions C32_off.

Example C32_ex :
  let h := ex_host ex_env in
  let place := fun p : string => components (lit p) in
  dotless (lit "/home/u/ws/target/debug/build/a/build-script") /\
  (let w := ex_world h (for_perm_sel h (ex_config None [lit "/home/u/w"]) (lit "/home/u/ws/target/debug/build/a/build-script")) [] in
   (fun w => (w_net w, map (fun p => look w (place p))
     ["/etc/passwd"; "/home/u/.ssh/id"; "/home/u/.cargo/registry/x"; "/home/u/.cargo/credentials"; "/home/u/ws/a/build.rs";
      "/home/u/w/f"; "/home/u/ws/target/out/x"; "/run/s"; "/dev/sda"]%string)) <$> w =
   Some (false, [HostFile (place "/etc/passwd") false; Private; HostFile (place "/home/u/.cargo/registry/x") false; Private;
      HostFile (place "/home/u/ws/a/build.rs") false; HostFile (place "/home/u/w/f") true;
      HostFile (place "/home/u/ws/target/out/x") true; Private; Private])) /\
  exists inputs, rustc_inputs_from_env h (concat (map out_arg_texts [OutDir (lit "/home/u/ws/target/debug/deps")])) (fun _ _ => []) = Some inputs /\
  (let w := ex_world h (for_rustc h (ex_config (Some true) []) inputs (lit "/home/u/cackle")) [] in
   (fun w => (w_net w, map (fun p => look w (place p))
     ["/run/s"; "/home/u/x"; "/home/u/ws/b/src"; "/home/u/ws/target/debug/deps"; "/tmp/s/socket"; "/tmp/t"; "/home/u/cackle"]%string)) <$> w =
   Some (true, [HostFile (place "/run/s") false; Private; HostFile (place "/home/u/ws/b/src") false;
      HostFile (place "/home/u/ws/target/debug/deps") true; HostFile (place "/tmp/s/socket") true; Private;
      HostFile (place "/home/u/cackle") false])).
Proof.
  split; [by apply (bool_decide_unpack _)|]. split; [by vm_compute|]. eexists. split; [by vm_compute|by vm_compute].
Qed.

(** C70, refuted. The token for cargo's registry reaches every sandboxed build script: its name
    begins with CARGO. *)
Theorem C70_registry_token_refuted :
  exists (h : host) (config : sandbox_config) (bin : str) (args : list str) (w : world) (token : str),
    host_ok h (fun _ => true) /\ sb_extra_args config = [] /\ sb_pass_env config = [] /\
    has_value (h_env h) (lit "CARGO_REGISTRY_TOKEN") token /\
    for_perm_sel h config bin = Some (Some args) /\
    runs_in h (fun _ => true) args [] bin [] w /\
    w_env w !! lit "CARGO_REGISTRY_TOKEN" = Some token.
Proof.
  set (h := ex_host [(lit "HOME", lit "/home/u"); (lit "CARGO_MANIFEST_DIR", lit "/home/u/ws");
                     (lit "CARGO_REGISTRY_TOKEN", lit "secret")]).
  set (config := SandboxConfig (Some Bubblewrap) [] None [] [] []).
  exists h, config, (lit "/b/x"), (the_args (for_perm_sel h config (lit "/b/x"))), (the_world h (the_args (for_perm_sel h config (lit "/b/x"))) (lit "/b/x")), (lit "secret").
  split; [by apply ex_host_ok|]. split; [done|]. split; [done|]. split; [split; [right; right; left|apply utf8_valid_spec; by vm_compute]|].
  split; [by vm_compute|]. split; [by vm_compute|]. by vm_compute.
Qed.
Print Assumptions C70_registry_token_refuted.

(** C71, refuted. A directory that the configuration makes writable is not always writable: not
    below [/run] without network, not below the program's own directory, and for rustc not in the
    workspace. *)
Theorem C71_run_refuted :
  exists (h : host) (config : sandbox_config) (bin dir : str) (args : list str) (w : world),
    host_ok h (fun _ => true) /\ sb_extra_args config = [] /\ dir ∈ sb_make_writable config /\
    ~ system (components dir) /\
    for_perm_sel h config bin = Some (Some args) /\ runs_in h (fun _ => true) args [] bin [] w /\
    look w (components dir) = Private.
Proof.
  set (h := ex_host ex_env). set (config := ex_config None [lit "/run/user/1000/x"]).
  exists h, config, (lit "/b/x"), (lit "/run/user/1000/x"), (the_args (for_perm_sel h config (lit "/b/x"))),
    (the_world h (the_args (for_perm_sel h config (lit "/b/x"))) (lit "/b/x")).
  split; [by apply ex_host_ok|]. split; [done|]. split; [left|].
  split; [apply (bool_decide_unpack (~ ([lit "dev"] `prefix_of` _ \/ [lit "proc"] `prefix_of` _))); by vm_compute|].
  split; [by vm_compute|]. split; [by vm_compute|]. by vm_compute.
Qed.
Print Assumptions C71_run_refuted.

Theorem C71_build_directory_refuted :
  exists (h : host) (config : sandbox_config) (bin dir : str) (args : list str) (w : world),
    host_ok h (fun _ => true) /\ sb_extra_args config = [] /\ dir ∈ sb_make_writable config /\
    ~ system (components dir) /\
    for_perm_sel h config bin = Some (Some args) /\ runs_in h (fun _ => true) args [] bin [] w /\
    look w (components dir) = HostFile (components dir) false.
Proof.
  set (h := ex_host ex_env). set (config := ex_config (Some true) [lit "/ws/target/debug/tmp"]).
  exists h, config, (lit "/ws/target/debug/deps/test-1"), (lit "/ws/target/debug/tmp"), (the_args (for_perm_sel h config (lit "/ws/target/debug/deps/test-1"))),
    (the_world h (the_args (for_perm_sel h config (lit "/ws/target/debug/deps/test-1"))) (lit "/ws/target/debug/deps/test-1")).
  split; [by apply ex_host_ok|]. split; [done|]. split; [left|].
  split; [apply (bool_decide_unpack (~ ([lit "dev"] `prefix_of` _ \/ [lit "proc"] `prefix_of` _))); by vm_compute|].
  split; [by vm_compute|]. split; [by vm_compute|]. by vm_compute.
Qed.
Print Assumptions C71_build_directory_refuted.

Theorem C71_workspace_refuted :
  exists (h : host) (config : sandbox_config) (inputs : rustc_inputs) (exe dir : str) (args : list str) (w : world),
    host_ok h (fun _ => true) /\ sb_extra_args config = [] /\ dir ∈ sb_make_writable config /\
    ~ system (components dir) /\
    rustc_inputs_from_env h [] (fun _ _ => []) = Some inputs /\
    for_rustc h config inputs exe = Some (Some args) /\ runs_in h (fun _ => true) args [] (lit "rustc") [] w /\
    look w (components dir) = HostFile (components dir) false.
Proof.
  set (h := ex_host ex_env). set (config := ex_config (Some true) [lit "/home/u/ws/a/generated"]).
  set (inputs := RustcInputs [lit "/tmp/s"; lit "/home/u/ws/target"] [lit "/home/u/ws"] []).
  exists h, config, inputs, (lit "/c"), (lit "/home/u/ws/a/generated"), (the_args (for_rustc h config inputs (lit "/c"))),
    (the_world h (the_args (for_rustc h config inputs (lit "/c"))) (lit "rustc")).
  split; [by apply ex_host_ok|]. split; [done|]. split; [left|].
  split; [apply (bool_decide_unpack (~ ([lit "dev"] `prefix_of` _ \/ [lit "proc"] `prefix_of` _))); by vm_compute|].
  split; [by vm_compute|]. split; [by vm_compute|].
  split; [by vm_compute|]. by vm_compute.
Qed.
Print Assumptions C71_workspace_refuted.

(** C72, refuted. RUSTDOC, which cargo sets for build scripts, does not reach them. *)
Theorem C72_rustdoc_refuted :
  exists (h : host) (config : sandbox_config) (bin : str) (args : list str) (w : world) (rustdoc : str),
    host_ok h (fun _ => true) /\ sb_extra_args config = [] /\
    has_value (h_env h) (lit "RUSTDOC") rustdoc /\
    for_perm_sel h config bin = Some (Some args) /\
    runs_in h (fun _ => true) args [] bin [] w /\
    w_env w !! lit "RUSTDOC" = None.
Proof.
  set (h := ex_host [(lit "HOME", lit "/home/u"); (lit "CARGO_MANIFEST_DIR", lit "/home/u/ws");
                     (lit "RUSTDOC", lit "rustdoc")]).
  set (config := SandboxConfig (Some Bubblewrap) [] None [] [] []).
  exists h, config, (lit "/b/x"), (the_args (for_perm_sel h config (lit "/b/x"))), (the_world h (the_args (for_perm_sel h config (lit "/b/x"))) (lit "/b/x")), (lit "rustdoc").
  split; [by apply ex_host_ok|]. split; [done|]. split; [split; [right; right; left|apply utf8_valid_spec; by vm_compute]|].
  split; [by vm_compute|]. split; [by vm_compute|]. by vm_compute.
Qed.
Print Assumptions C72_rustdoc_refuted.
