(** Backtraces: the theorems. *)
From Verif Require Import Base CollectModel BacktraceModel BacktraceSpec BacktraceProofs.

(** ** C44: backtraces are genuine *)

(** A backtrace consists of the frames for the addresses of a chain of references from the location asked for to an
    entry point, without repetitions; or there is none. *)
Theorem C44_genuine :
  forall (frames_at : nat -> option (list (str * option src_loc))) (calls : list (bin_loc * nat)) (query : bin_loc)
         (bt : list frame),
  backtrace frames_at calls query = Some bt ->
  bt = [] \/
  exists (p : list bin_loc) (e : bin_loc) (per : list (list frame)),
    leads calls query e p /\ entry_point calls e /\ NoDup (map bl_address p) /\ bt = mjoin per /\
    Forall2 (fun l shown => exists fs, frames_at (bl_address l) = Some fs /\ frames_shown fs shown) p per.
Proof.
  intros frames_at calls query bt E. unfold backtrace in E.
  destruct (backtrace_addresses calls query) as [addrs|] eqn:Ea; [|done].
  destruct (backtrace_spec calls query addrs Ea) as [[->|(p & e & Hl & He & <- & Hn)] _].
  - left. by injection E as <-.
  - right. destruct (show_frames_spec _ _ _ _ E) as (per & -> & Hp). exists p, e, per. split_and!; try done.
    by apply Forall2_fmap_l in Hp.
Qed.
Print Assumptions C44_genuine.

(** The search ends, and if an entry point can be reached, a chain is found that is no shorter than the shortest one
    to any entry point. *)
Theorem C44_found :
  forall (calls : list (bin_loc * nat)) (query : bin_loc),
  exists addresses, backtrace_addresses calls query = Some addresses /\
    (one_location calls query ->
     forall (e : bin_loc) (p : list bin_loc), leads calls query e p -> entry_point calls e ->
       exists p', leads calls query e p' /\ 0 < length p' <= length addresses).
Proof.
  intros calls query. destruct (addresses_found calls query) as [addrs Ea]. exists addrs. split; [done|].
  intros Ho e p Hl He. destruct (backtrace_spec calls query addrs Ea) as [_ H].
  destruct (H Ho e p Hl He) as (p' & Hp' & Hlen). exists p'. split; [done|]. split; [|done].
  destruct Hp' as (_ & Hh & _). destruct p'; [done|]. cbn. lia.
Qed.
Print Assumptions C44_found.

(** The frames are shown unless the debug information cannot be read. *)
Theorem C44_shown :
  forall (frames_at : nat -> option (list (str * option src_loc))) (calls : list (bin_loc * nat)) (query : bin_loc),
  (forall l, l ∈ query :: map fst calls -> is_Some (frames_at (bl_address l))) ->
  exists bt, backtrace frames_at calls query = Some bt.
Proof.
  intros frames_at calls query H. unfold backtrace. destruct (addresses_found calls query) as [addrs Ea]. rewrite Ea.
  apply show_frames_total. intros a Ha. destruct (backtrace_spec calls query addrs Ea) as [[->|(p & e & Hl & He & <- & Hn)] _].
  - by apply elem_of_nil in Ha.
  - apply elem_of_list_In, in_map_iff in Ha as (l & <- & Hin). apply H. apply elem_of_list_In in Hin.
    destruct Hl as (Hc & Hh & _). clear -Hc Hh Hin.
    assert (forall p, chain calls p -> forall q, q ∈ query :: map fst calls -> head p = Some q -> forall l, l ∈ p -> l ∈ query :: map fst calls) as Hall.
    { induction 1 as [x|x c p0 Hx Hc' IH]; intros q Hq [= <-] y Hy.
      - by apply elem_of_list_singleton in Hy as ->.
      - apply elem_of_cons in Hy as [->|Hy]; [done|]. apply (IH c); [|done|done]. right.
        apply elem_of_list_In, in_map_iff. exists (c, bl_start x). split; [done|by apply elem_of_list_In]. }
    by apply (Hall p Hc query (elem_of_list_here _ _) Hh).
Qed.
Print Assumptions C44_shown.

(** What the calls are: the references of the object files to symbols of the binary, with the addresses of these. *)
Theorem C44_recorded :
  forall (bin : gmap str nat) (rs : list reference) (l : bin_loc) (target : nat),
  (l, target) ∈ recorded_calls bin rs <->
  exists r s, r ∈ rs /\ rf_bin r = l /\ sn_symbol (rf_target r) = Some s /\ bin !! s = Some target.
Proof.
  intros bin rs l target. unfold recorded_calls. rewrite elem_of_list_omap. split.
  - intros (r & Hr & E). destruct (sn_symbol (rf_target r)) as [s|] eqn:Es; [|done].
    destruct (bin !! s) as [a|] eqn:Eb; [|done]. injection E as <- <-. by exists r, s.
  - intros (r & s & Hr & <- & Es & Eb). exists r. split; [done|]. by rewrite Es, Eb.
Qed.
Print Assumptions C44_recorded.

(** [main] (at 100) calls [run] (at 200) from 104; [run] calls [write] (at 300) from 208 and from 216; [write] uses
    an API at 305. *)
Definition ex_calls : list (bin_loc * nat) :=
  [(BinLoc 208 200, 300); (BinLoc 104 100, 200); (BinLoc 216 200, 300); (BinLoc 305 300, 900); (BinLoc 212 200, 200)].
Definition ex_frames_at (a : nat) : option (list (str * option src_loc)) :=
  Some (if Nat.eqb a 208 then [(lit "helper", None); (lit "run", Some (SrcLoc (lit "src/lib.rs") 3 None))]
        else [(lit "f", None)]).

Example C44_ex :
  one_location ex_calls (BinLoc 305 300) /\ entry_point ex_calls (BinLoc 104 100) /\
  leads ex_calls (BinLoc 305 300) (BinLoc 104 100) [BinLoc 305 300; BinLoc 208 200; BinLoc 104 100] /\
  backtrace_addresses ex_calls (BinLoc 305 300) = Some [305; 208; 104] /\
  backtrace ex_frames_at ex_calls (BinLoc 305 300) =
    Some [Frame (lit "f") None false; Frame (lit "helper") None true;
          Frame (lit "run") (Some (SrcLoc (lit "src/lib.rs") 3 None)) false; Frame (lit "f") None false].
Proof.
  split_and!.
  - intros l l' Hl Hl'. cbn in Hl, Hl'.
    repeat (apply elem_of_cons in Hl as [->|Hl]); [..|by apply elem_of_nil in Hl];
    repeat (apply elem_of_cons in Hl' as [->|Hl']); try (by apply elem_of_nil in Hl'); cbn; intros; (done || lia).
  - intros c Hc. cbn in Hc. repeat (apply elem_of_cons in Hc as [[=]|Hc]). by apply elem_of_nil in Hc.
  - split_and!; [|done|done]. repeat constructor.
  - vm_compute. reflexivity.
  - vm_compute. reflexivity.
Qed.

(** ** C120: there is always a backtrace *)

(** A function that calls itself and that nothing else refers to (apart from a table of virtual functions, say) has
    no backtrace at all, not even its own frame. *)
Theorem C120_refuted :
  exists (frames_at : nat -> option (list (str * option src_loc))) (calls : list (bin_loc * nat)) (query : bin_loc),
    one_location calls query /\ frames_at (bl_address query) = Some [(lit "f", None)] /\
    backtrace frames_at calls query = Some [].
Proof.
  exists ex_frames_at, [(BinLoc 208 200, 200)], (BinLoc 216 200). split_and!; [|done|vm_compute; reflexivity].
  intros l l' Hl Hl'. cbn in Hl, Hl'.
  repeat (apply elem_of_cons in Hl as [->|Hl]); [..|by apply elem_of_nil in Hl];
  repeat (apply elem_of_cons in Hl' as [->|Hl']); try (by apply elem_of_nil in Hl'); cbn; intros; (done || lia).
Qed.
Print Assumptions C120_refuted.

(** ** C121: the longest backtrace *)

(** Not the longest chain is found if part of it was visited on a shorter one. *)
Theorem C121_refuted :
  exists (calls : list (bin_loc * nat)) (query e : bin_loc) (p : list bin_loc) (addresses : list nat),
    one_location calls query /\ backtrace_addresses calls query = Some addresses /\
    leads calls query e p /\ entry_point calls e /\ NoDup (map bl_address p) /\ length addresses < length p.
Proof.
  exists [(BinLoc 208 200, 300); (BinLoc 404 400, 300); (BinLoc 208 200, 400)], (BinLoc 305 300), (BinLoc 208 200),
    [BinLoc 305 300; BinLoc 404 400; BinLoc 208 200], [305; 208]. split_and!.
  - intros l l' Hl Hl'. cbn in Hl, Hl'.
    repeat (apply elem_of_cons in Hl as [->|Hl]); [..|by apply elem_of_nil in Hl];
    repeat (apply elem_of_cons in Hl' as [->|Hl']); try (by apply elem_of_nil in Hl'); cbn; intros; (done || lia).
  - vm_compute. reflexivity.
  - split_and!; [|done|done]. repeat constructor.
  - intros c Hc. cbn in Hc. repeat (apply elem_of_cons in Hc as [[=]|Hc]). by apply elem_of_nil in Hc.
  - apply (bool_decide_unpack _). vm_compute. exact I.
  - cbn. lia.
Qed.
Print Assumptions C121_refuted.
