(** C01: API classification. *)
From Verif Require Import Base ApiMapModel ApiMapSpec ApiMapProofs.

(** The table lookup returns exactly the APIs the name belongs to: some include
    path is a component-wise prefix and no exclude path of that API is. *)
Theorem C01_classification :
  forall (defs : list api_def) (name : list str),
    (forall d, d ∈ defs -> well_formed_def d) ->
    exists apis, apis_for_name (map in_file defs) name = Some apis /\
      forall api, api ∈ apis <-> belongs defs name api.
Proof. exact classification. Qed.
Print Assumptions C01_classification.

(** The same for the definitions of a configuration, whatever strings they contain. *)
Theorem C01_any_text :
  forall (defs : gmap str api_config) (name : list str),
    exists apis, apis_for_name (map_to_list defs) name = Some apis /\
      forall api, api ∈ apis <-> owned defs name api.
Proof. exact apis_for_name_owned. Qed.
Print Assumptions C01_any_text.

(** The order of the definitions is irrelevant. *)
Theorem C01_order_irrelevant :
  forall (defs defs' : list api_def) (name : list str),
    (forall d, d ∈ defs -> well_formed_def d) ->
    defs ≡ₚ defs' ->
    apis_for_name (map in_file defs) name = apis_for_name (map in_file defs') name.
Proof. exact order_irrelevant. Qed.
Print Assumptions C01_order_irrelevant.

(** Loading the table never panics, whatever strings the file contains. *)
Theorem C01_never_panics :
  forall (apis : list (str * api_config)) (name : list str),
    is_Some (apis_for_name apis name).
Proof. exact never_panics. Qed.
Print Assumptions C01_never_panics.

(** ** Concrete cases *)
Definition ex_fs : api_def :=
  ApiDef (lit "fs") [[lit "std"; lit "env"]; [lit "std"; lit "fs"]]
    [[lit "std"; lit "env"; lit "var"]].
Definition ex_env : api_def := ApiDef (lit "env") [[lit "std"; lit "env"]] [].
Definition ex_none : api_def := ApiDef (lit "none") [[lit "std"; lit "env"; lit "var"]] [[lit "std"]].

Lemma ex_wf : forall d, d ∈ [ex_fs; ex_env; ex_none] -> well_formed_def d.
Proof.
  intros d Hd. unfold well_formed_def, plain_path.
  repeat (apply elem_of_cons in Hd as [->|Hd]); [..|by apply elem_of_nil in Hd];
    (split; intros p Hp; cbn in Hp;
     repeat (apply elem_of_cons in Hp as [->|Hp]); try (by apply elem_of_nil in Hp);
     (split; [done|]; intros c Hc;
      repeat (apply elem_of_cons in Hc as [->|Hc]); try (by apply elem_of_nil in Hc);
      vm_compute; intros Hx;
      repeat (apply elem_of_cons in Hx as [Hx|Hx]); try done; by apply elem_of_nil in Hx)).
Qed.

Example C01_ex_files :
  map in_file [ex_env] = [(lit "env", ApiConfig [lit "std::env"] [] [])].
Proof. vm_compute. reflexivity. Qed.

Example C01_ex_var :
  elements <$> apis_for_name (map in_file [ex_fs; ex_env; ex_none])
    [lit "std"; lit "env"; lit "var"] = Some [lit "env"].
Proof. vm_compute. reflexivity. Qed.

Example C01_ex_whole_components :
  elements <$> apis_for_name (map in_file [ex_fs; ex_env; ex_none])
    [lit "std"; lit "environment"] = Some [].
Proof. vm_compute. reflexivity. Qed.

Example C01_ex_instance :
  exists apis, apis_for_name (map in_file [ex_fs; ex_env; ex_none])
                 [lit "std"; lit "env"; lit "args"] = Some apis /\
    lit "fs" ∈ apis /\ lit "env" ∈ apis /\ lit "none" ∉ apis.
Proof.
  destruct (C01_classification [ex_fs; ex_env; ex_none]
              [lit "std"; lit "env"; lit "args"] ex_wf) as (s & E & H).
  exists s. split; [done|]. vm_compute in E. injection E as <-.
  split_and!; vm_compute; set_solver.
Qed.

Example C01_ex_order :
  apis_for_name (map in_file [ex_fs; ex_env; ex_none]) [lit "std"; lit "env"; lit "var"]
  = apis_for_name (map in_file [ex_env; ex_fs; ex_none]) [lit "std"; lit "env"; lit "var"].
Proof. apply C01_order_irrelevant; [apply ex_wf|]. apply Permutation_swap. Qed.

(** [":::a"] is cut after its second colon. *)
Example C01_any_text_ex :
  let defs : gmap str api_config := {[ lit "odd" := ApiConfig [lit ":::a"; lit "b::"] [lit "b::::c"] [] ]} in
  (elements <$> apis_for_name (map_to_list defs) [[]; lit ":a"; lit "x"]) = Some [lit "odd"] /\
  (elements <$> apis_for_name (map_to_list defs) [lit "b"; []; lit "d"]) = Some [lit "odd"] /\
  (elements <$> apis_for_name (map_to_list defs) [lit "b"; []; lit "c"]) = Some [] /\
  (elements <$> apis_for_name (map_to_list defs) [lit "b"; lit "c"]) = Some [] /\
  cut_at_colons (lit ":::a") [[]; lit ":a"].
Proof.
  split; [vm_compute; reflexivity|]. split; [vm_compute; reflexivity|]. split; [vm_compute; reflexivity|].
  split; [vm_compute; reflexivity|]. apply split_simple_cut. vm_compute. reflexivity.
Qed.
