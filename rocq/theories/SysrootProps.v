(** The sources of the standard library in backtraces. *)
From Verif Require Import Base BaseFacts DepsModel CollectModel BacktraceModel BacktraceSpec BacktraceProofs
  SysrootModel SysrootSpec SysrootProofs.
From Verif Require Import BacktraceProps.

(** The source of the standard library that a place names is shown from where it is installed, at the same line and
    column; different sources are never taken for the same. *)
Theorem C256_library :
  forall (sysroot hash : str) (path : list str) (line : nat) (column : option nat),
  plain_directory sysroot -> plain_name hash -> path <> [] -> (forall c, c ∈ path -> plain_name c) ->
  with_sysroot sysroot (SrcLoc (library_source hash path) line column) =
    SrcLoc (installed_source sysroot path) line column /\
  forall path', path' <> [] -> (forall c, c ∈ path' -> plain_name c) ->
    installed_source sysroot path' = installed_source sysroot path -> path' = path.
Proof.
  intros sysroot hash path line column Hs Hh Hne Hp. split; [by apply library_moved|].
  intros path' Hne' Hp' E. unfold installed_source in E. apply app_inv_head in E. apply app_inv_head in E.
  rewrite <- (split_join "/"%char path), <- (split_join "/"%char path'); [|done|by intros x Hx; apply Hp'|done|by intros x Hx; apply Hp].
  f_equal. exact E.
Qed.
Print Assumptions C256_library.

(** All other places are shown as they are. *)
Theorem C256_others :
  forall (sysroot : str) (l : src_loc), elsewhere (sl_file l) -> with_sysroot sysroot l = l.
Proof. intros sysroot l H. unfold with_sysroot. by rewrite elsewhere_not_rustc. Qed.
Print Assumptions C256_others.

(** In a backtrace every place is one that the debug information has for an address of the call chain, treated like
    this; no function is left out, and one without a place is shown without one. *)
Theorem C256_backtrace :
  forall (sysroot : str) (found : nat -> option (list raw_frame)) (calls : list (bin_loc * nat)) (query : bin_loc)
         (bt : list frame),
  placed_backtrace sysroot found calls query = Some bt ->
  bt = [] \/
  exists (p : list bin_loc) (e : bin_loc) (per : list (list frame)),
    leads calls query e p /\ entry_point calls e /\ bt = mjoin per /\
    Forall2 (fun l shown => exists fs, found (bl_address l) = Some fs /\
      Forall2 (fun (raw : raw_frame) f =>
        fm_name f = match raw.1 with Some n => n | None => lit "??" end /\
        match raw.2 with
        | Some (FrameLoc (Some file) (Some line) column) => fm_location f = Some (with_sysroot sysroot (SrcLoc file line column))
        | _ => fm_location f = None
        end) fs shown) p per.
Proof.
  intros sysroot found calls query bt E. unfold placed_backtrace in E.
  apply C44_genuine in E as [->|(p & e & per & Hl & He & _ & -> & H)]; [by left|].
  right. exists p, e, per. split_and!; try done.
  eapply Forall2_impl; [exact H|]. cbn beta. intros l shown (fs & Ef & Hlen & Hs).
  destruct (found (bl_address l)) as [raw|]; [|done]. injection Ef as <-. exists raw. split; [done|].
  rewrite map_length in Hlen. apply Forall2_same_length_lookup_2; [done|].
  intros i r f Hr Hf. destruct (Hs i f Hf) as [Hi _].
  assert (map (frame_of sysroot) raw !! i = Some (frame_of sysroot r)) as E'.
  { change (map (frame_of sysroot) raw) with (frame_of sysroot <$> raw). by rewrite list_lookup_fmap, Hr. }
  rewrite E' in Hi. injection Hi as <- <-. unfold frame_of. destruct r as [n o]. cbn [fst snd]. split; [by destruct n|].
  destruct o as [[[file|] [line|] col]|]; done.
Qed.
Print Assumptions C256_backtrace.

Example C256_ex :
  plain_directory (lit "/home/u/.rustup/toolchains/stable") /\ plain_name (lit "9fc6b43") /\
  with_sysroot (lit "/home/u/.rustup/toolchains/stable")
    (SrcLoc (lit "/rustc/9fc6b43/library/std/src/fs.rs") 12 (Some 5)) =
    SrcLoc (lit "/home/u/.rustup/toolchains/stable/lib/rustlib/src/rust/library/std/src/fs.rs") 12 (Some 5) /\
  library_source (lit "9fc6b43") [lit "library"; lit "std"; lit "src"; lit "fs.rs"] =
    lit "/rustc/9fc6b43/library/std/src/fs.rs" /\
  elsewhere (lit "/rustc-build/src/lib.rs") /\ elsewhere (lit "src/main.rs") /\
  placed_backtrace (lit "/s")
    (fun a => if Nat.eqb a 305 then Some [(Some (lit "open"), Some (FrameLoc (Some (lit "/rustc/9f/library/a.rs")) (Some 7) None));
                                          (None, Some (FrameLoc None (Some 3) None))]
              else Some []) ex_calls (BinLoc 305 300) =
    Some [Frame (lit "open") (Some (SrcLoc (lit "/s/lib/rustlib/src/rust/library/a.rs") 7 None)) true;
          Frame (lit "??") None false].
Proof.
  split_and!.
  - exists (lit "/home/u/.rustup/toolchains/stabl"), "e"%char. split; [vm_compute; reflexivity|done].
  - unfold plain_name. split_and!; [done|done|]. apply (bool_decide_unpack _). vm_compute. exact I.
  - vm_compute. reflexivity.
  - vm_compute. reflexivity.
  - right. exists (lit "rustc-build"), (lit "/src/lib.rs"). unfold plain_name. split_and!; try done.
    + apply (bool_decide_unpack _). vm_compute. exact I.
    + right. by exists (lit "src/lib.rs").
  - left. intros rest E. apply (f_equal head) in E. done.
  - vm_compute. reflexivity.
Qed.
