From Verif Require Import Base BaseFacts ConfigModel ProblemModel StoreModel StoreSpec CheckerModel CheckerSpec CheckerProps
  CheckerSysProofs UiModel UiSpec UiProps WholeModel WholeSpec.

(** Every call of the linker has been analysed without problems. *)
Lemma whole_analysed (ui_ok : bool) (w : whole_run) (sent : list store_event) (li : link_info) :
  fits w sent -> succeeded ui_ok w -> ELinker li ∈ wr_events w ->
  exists i h log, wr_events w !! i = Some (EComplete h) /\
    wr_outcomes w !! i = Some (OComplete (Some li) log (Some [])).
Proof.
  intros F (Hc & Hr & Hx) Hin.
  destruct (C94_success ui_ok (wr_results w) (wr_store w) sent (fits_history w sent F) (fits_aborted w sent F)
    (fits_initial w sent F) (fits_imports w sent F) Hx) as (_ & _ & _ & _ & _ & _ & _ & Hb & Hu).
  destruct (Hu Hc Hr) as [Hun _].
  pose proof (proj1 (C12_unused_refuses (wr_env w) (wr_scan w) (wr_requests w) (wr_events w)) (fits_unused w sent F Hun)) as Hp.
  assert (Hl : li ∈ links (wr_events w)).
  { unfold links. apply elem_of_list_omap. by exists (ELinker li). }
  rewrite Hp in Hl. unfold settled in Hl. apply elem_of_list_omap in Hl as (o & Ho & Hs).
  destruct o as [|t log [[|p ps]|]]; [done|destruct t as [t|]; [|done]|by destruct t|].
  - injection Hs as ->. apply elem_of_list_lookup in Ho as [i Hi].
    assert (Hev : exists h, wr_events w !! i = Some (EComplete h)).
    { assert (Hlen : i < length (wr_events w)).
      { apply lookup_lt_Some in Hi. change (wr_outcomes w) with (outcomes (wr_env w) (wr_scan w) (wr_requests w) (wr_events w)) in Hi.
        by rewrite outcomes_length in Hi. }
      apply lookup_lt_is_Some in Hlen as [e He].
      destruct (outcomes_at (wr_env w) (wr_scan w) (wr_requests w) (wr_events w) i e He) as [Ho _].
      rewrite Hi in Ho. injection Ho as Ho.
      destruct e; [discriminate Ho|by eexists|discriminate Ho]. }
    destruct Hev as [h Hh]. by exists i, h, log.
  - exfalso. rewrite (fits_failed w sent F _ _ Ho) in Hb. done.
Qed.
