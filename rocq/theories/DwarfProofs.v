(** Proofs about reading debug information. *)
From Verif Require Import Base TextModel TextSpec Utf8Proofs NamesModel NamesSpec NamesProofs CollectModel CollectProofs DwarfModel DwarfSpec.

(** ** Walking trees *)

Lemma die_ind' (P : die -> Prop) :
  (forall o t attrs, P (Die o t attrs None)) ->
  (forall o t attrs ds, Forall P ds -> P (Die o t attrs (Some ds))) ->
  forall d, P d.
Proof.
  intros H1 H2. fix IH 1. intros [o t attrs [ds|]]; [|apply H1]. apply H2.
  induction ds as [|d ds IHds]; constructor; [apply IH|apply IHds].
Qed.

Lemma flat_some (o : nat) (t : tag) (attrs : list attr) (ds : list die) :
  flat (Die o t attrs (Some ds)) = RawEntry o t attrs true :: flatten ds ++ [RawNull].
Proof. cbn [flat]. f_equal. f_equal. unfold flatten. induction ds as [|d ds IH]; [done|]. cbn. by rewrite IH. Qed.

Section walk.
Context {F O : Type} (h : list F -> nat -> tag -> list attr -> option (list O * F)).

Definition handle_die (st : list F) (d : die) : option (list O * F) := h st (die_offset d) (die_tag d) (die_attrs d).

Fixpoint visit (st : list F) (d : die) : option (list O) :=
  let '(Die o t attrs children) := d in
  match h st o t attrs with
  | None => None
  | Some (out, f) =>
      match children with
      | None => Some out
      | Some ds =>
          match (fix go (ds : list die) : option (list O) :=
                   match ds with
                   | [] => Some []
                   | d :: ds => match visit (f :: st) d with
                                | Some a => match go ds with Some b => Some (a ++ b) | None => None end
                                | None => None
                                end
                   end) ds with
          | Some rest => Some (out ++ rest)
          | None => None
          end
      end
  end.

Fixpoint visits (st : list F) (ds : list die) : option (list O) :=
  match ds with
  | [] => Some []
  | d :: ds => match visit st d with
               | Some a => match visits st ds with Some b => Some (a ++ b) | None => None end
               | None => None
               end
  end.

Lemma visit_some (st : list F) (o : nat) (t : tag) (attrs : list attr) (ds : list die) :
  visit st (Die o t attrs (Some ds)) =
  match h st o t attrs with
  | None => None
  | Some (out, f) => match visits (f :: st) ds with Some rest => Some (out ++ rest) | None => None end
  end.
Proof.
  cbn [visit]. destruct (h st o t attrs) as [[out f]|]; [|done].
  enough (forall ds, (fix go (ds : list die) : option (list O) :=
                   match ds with
                   | [] => Some []
                   | d :: ds => match visit (f :: st) d with
                                | Some a => match go ds with Some b => Some (a ++ b) | None => None end
                                | None => None
                                end
                   end) ds = visits (f :: st) ds) as -> by done.
  clear. induction ds as [|d ds IH]; [done|]. cbn [visits]. by rewrite IH.
Qed.

Lemma walk_flat (d : die) : forall rest st,
  walk h (flat d ++ rest) st =
  match visit st d with
  | Some a => match walk h rest st with Some b => Some (a ++ b) | None => None end
  | None => None
  end.
Proof.
  induction d as [o t attrs|o t attrs ds IH] using die_ind'; intros rest st.
  - cbn. destruct (h st o t attrs) as [[out f]|]; [|done]. done.
  - rewrite flat_some, visit_some. cbn [app walk]. destruct (h st o t attrs) as [[out f]|]; [|done].
    assert (forall rest st, walk h (flatten ds ++ rest) st =
      match visits st ds with
      | Some a => match walk h rest st with Some b => Some (a ++ b) | None => None end
      | None => None
      end) as Hds.
    { clear rest st out f. induction IH as [|d ds Hd _ IHds]; intros rest st; cbn [visits].
      - cbn. by destruct (walk h rest st).
      - unfold flatten. cbn [map mjoin list_join]. rewrite <-app_assoc, Hd. destruct (visit st d) as [a|]; [|done].
        change (mjoin (map flat ds)) with (flatten ds). rewrite IHds. destruct (visits st ds) as [b|]; [|done].
        destruct (walk h rest st); [|done]. by rewrite app_assoc. }
    rewrite <-app_assoc, Hds. destruct (visits (f :: st) ds) as [a|]; [|done]. cbn [app walk tail].
    destruct (walk h rest st) as [b|]; [|done]. by rewrite app_assoc.
Qed.

Lemma walk_flatten (ds : list die) (st : list F) (n : nat) :
  walk h (flatten ds ++ replicate n RawNull) st = visits st ds.
Proof.
  induction ds as [|d ds IH].
  - unfold flatten. cbn [map mjoin list_join app visits]. revert st. induction n as [|n IH]; intros st; [done|]. cbn. apply IH.
  - unfold flatten. cbn [map mjoin list_join]. rewrite <-app_assoc, walk_flat. cbn [visits].
    destruct (visit st d); [|done]. change (mjoin (map flat ds)) with (flatten ds). rewrite IH. done.
Qed.

(** The stack at an entry with these ancestors. *)
Inductive stack_at (st : list F) : list die -> list F -> Prop :=
| stack_top : stack_at st [] st
| stack_below p anc st' out f :
    stack_at st anc st' -> handle_die st' p = Some (out, f) -> stack_at st (p :: anc) (f :: st').

Lemma stack_at_snoc (st : list F) (p : die) (out : list O) (f : F) (anc : list die) (st' : list F) :
  handle_die st p = Some (out, f) -> stack_at (f :: st) anc st' -> stack_at st (anc ++ [p]) st'.
Proof.
  intros Hp. induction 1 as [|q anc st' out' f' _ IH Hq]; cbn; [|by econstructor].
  econstructor; [constructor|done].
Qed.

Lemma stack_at_unsnoc (st : list F) (p : die) (anc : list die) : forall st',
  stack_at st (anc ++ [p]) st' -> exists out f, handle_die st p = Some (out, f) /\ stack_at (f :: st) anc st'.
Proof.
  induction anc as [|q anc IH]; intros st' H; cbn in H; inversion H as [|? ? st1 out f Hs Hq]; subst.
  - inversion Hs; subst. exists out, f. split; [done|constructor].
  - destruct (IH _ Hs) as (o & g & Hp & Hst). exists o, g. split; [done|]. by econstructor.
Qed.

Lemma within_inv (ds anc : list die) (d : die) :
  within ds anc d ->
  (anc = [] /\ d ∈ ds) \/ exists p anc', anc = anc' ++ [p] /\ p ∈ ds /\ within (die_children p) anc' d.
Proof. inversion 1; subst; [by left|]. right. by eexists _, _. Qed.

Lemma visit_spec (d : die) : forall st out, visit st d = Some out ->
  forall anc e, within [d] anc e ->
  exists st' os f, stack_at st anc st' /\ handle_die st' e = Some (os, f) /\ forall x, x ∈ os -> x ∈ out.
Proof.
  induction d as [o t attrs|o t attrs ds IH] using die_ind'; intros st out E anc e He.
  - cbn in E. destruct (h st o t attrs) as [[out' f]|] eqn:Eh; [|done]. injection E as <-.
    apply within_inv in He as [[-> ->%elem_of_list_singleton]|(p & anc' & -> & ->%elem_of_list_singleton & He)].
    + exists st, out', f. split_and!; [constructor|done|done].
    + exfalso. cbn in He. apply within_inv in He as [[_ He]|(p & ? & _ & Hp & _)]; by eapply elem_of_nil.
  - rewrite visit_some in E. destruct (h st o t attrs) as [[out' f]|] eqn:Eh; [|done].
    destruct (visits (f :: st) ds) as [rest|] eqn:Er; [|done]. injection E as <-.
    apply within_inv in He as [[-> ->%elem_of_list_singleton]|(p & anc' & -> & ->%elem_of_list_singleton & He)].
    + exists st, out', f. split_and!; [constructor|done|]. intros x Hx. by apply elem_of_app; left.
    + cbn [die_children default] in He.
      assert (exists st' os g, stack_at (f :: st) anc' st' /\ handle_die st' e = Some (os, g) /\ forall x, x ∈ os -> x ∈ rest)
        as (st' & os & g & Hst & He' & Hx).
      { clear Eh. revert rest Er He. induction IH as [|d ds Hd _ IHds]; intros rest Er He.
        - apply within_inv in He as [[_ He]|(p & ? & _ & Hp & _)]; by apply elem_of_nil in He || apply elem_of_nil in Hp.
        - cbn [visits] in Er. destruct (visit (f :: st) d) as [a|] eqn:Ea; [|done].
          destruct (visits (f :: st) ds) as [b|] eqn:Eb; [|done]. injection Er as <-.
          assert (within [d] anc' e \/ within ds anc' e) as [Hw|Hw].
          { apply within_inv in He as [[-> He]|(p & anc & -> & Hp & Hw)].
            - apply elem_of_cons in He as [->|He]; [left; constructor; left|right; by constructor].
            - apply elem_of_cons in Hp as [->|Hp]; [left; constructor; [left|done]|right; by constructor]. }
          + destruct (Hd _ _ Ea _ _ Hw) as (st' & os & g & ? & ? & Hx). exists st', os, g. split_and!; [done|done|].
            intros x Hin. apply elem_of_app. left. by apply Hx.
          + destruct (IHds b eq_refl Hw) as (st' & os & g & ? & ? & Hx). exists st', os, g. split_and!; [done|done|].
            intros x Hin. apply elem_of_app. right. by apply Hx. }
      exists st', os, g. split_and!; [|done|].
      * eapply stack_at_snoc; [exact Eh|done].
      * intros x Hin. apply elem_of_app. right. by apply Hx.
Qed.

Lemma visit_origin (d : die) : forall st out x, visit st d = Some out -> x ∈ out ->
  exists anc e st' os f, within [d] anc e /\ stack_at st anc st' /\ handle_die st' e = Some (os, f) /\ x ∈ os.
Proof.
  induction d as [o t attrs|o t attrs ds IH] using die_ind'; intros st out x E Hx.
  - cbn in E. destruct (h st o t attrs) as [[out' f]|] eqn:Eh; [|done]. injection E as <-.
    exists [], (Die o t attrs None), st, out', f. split_and!; [constructor; left|constructor|done|done].
  - rewrite visit_some in E. destruct (h st o t attrs) as [[out' f]|] eqn:Eh; [|done].
    destruct (visits (f :: st) ds) as [rest|] eqn:Er; [|done]. injection E as <-.
    apply elem_of_app in Hx as [Hx|Hx].
    + exists [], (Die o t attrs (Some ds)), st, out', f. split_and!; [constructor; left|constructor|done|done].
    + assert (exists anc e st' os g, within ds anc e /\ stack_at (f :: st) anc st' /\ handle_die st' e = Some (os, g) /\ x ∈ os)
        as (anc & e & st' & os & g & Hw & Hst & He & Hin).
      { clear Eh. revert rest Er Hx. induction IH as [|d ds Hd _ IHds]; intros rest Er Hx; cbn [visits] in Er.
        - injection Er as <-. by apply elem_of_nil in Hx.
        - destruct (visit (f :: st) d) as [a|] eqn:Ea; [|done].
          destruct (visits (f :: st) ds) as [b|] eqn:Eb; [|done]. injection Er as <-.
          apply elem_of_app in Hx as [Hx|Hx].
          + destruct (Hd _ _ _ Ea Hx) as (anc & e & st' & os & g & Hw & ? & ? & ?). exists anc, e, st', os, g.
            split_and!; try done. apply within_inv in Hw as [[-> ->%elem_of_list_singleton]|(p & ? & -> & ->%elem_of_list_singleton & Hw)];
              constructor; (left || done).
          + destruct (IHds b eq_refl Hx) as (anc & e & st' & os & g & Hw & ? & ? & ?). exists anc, e, st', os, g.
            split_and!; try done. apply within_inv in Hw as [[-> Hw]|(p & ? & -> & Hp & Hw)];
              constructor; (by right || done). }
      exists (anc ++ [Die o t attrs (Some ds)]), e, st', os, g. split_and!; [|by eapply stack_at_snoc|done|done].
      constructor; [left|done].
Qed.

Lemma within_cons (d : die) (ds anc : list die) (e : die) :
  within (d :: ds) anc e <-> within [d] anc e \/ within ds anc e.
Proof.
  split.
  - intros He. apply within_inv in He as [[-> He]|(p & anc' & -> & Hp & Hw)].
    + apply elem_of_cons in He as [->|He]; [left; constructor; left|right; by constructor].
    + apply elem_of_cons in Hp as [->|Hp]; [left; constructor; [left|done]|right; by constructor].
  - intros [Hw|Hw]; apply within_inv in Hw as [[-> Hw]|(p & ? & -> & Hp & Hw)]; constructor; try done;
      try (apply elem_of_list_singleton in Hw as ->; left); try (apply elem_of_list_singleton in Hp as ->; left); by right.
Qed.

Lemma visits_spec (ds : list die) (st : list F) : forall out, visits st ds = Some out ->
  (forall anc e, within ds anc e ->
     exists st' os f, stack_at st anc st' /\ handle_die st' e = Some (os, f) /\ forall x, x ∈ os -> x ∈ out) /\
  (forall x, x ∈ out ->
     exists anc e st' os f, within ds anc e /\ stack_at st anc st' /\ handle_die st' e = Some (os, f) /\ x ∈ os).
Proof.
  induction ds as [|d ds IH]; intros out E; cbn [visits] in E.
  - injection E as <-. split; [|intros x Hx; by apply elem_of_nil in Hx].
    intros anc e He. apply within_inv in He as [[_ He]|(p & ? & _ & Hp & _)]; by apply elem_of_nil in He || apply elem_of_nil in Hp.
  - destruct (visit st d) as [a|] eqn:Ea; [|done]. destruct (visits st ds) as [b|] eqn:Eb; [|done]. injection E as <-.
    destruct (IH b eq_refl) as [IH1 IH2]. split.
    + intros anc e [He|He]%within_cons.
      * destruct (visit_spec _ _ _ Ea _ _ He) as (st' & os & f & ? & ? & Hx). exists st', os, f. split_and!; [done|done|].
        intros x Hin. apply elem_of_app. left. by apply Hx.
      * destruct (IH1 _ _ He) as (st' & os & f & ? & ? & Hx). exists st', os, f. split_and!; [done|done|].
        intros x Hin. apply elem_of_app. right. by apply Hx.
    + intros x [Hx|Hx]%elem_of_app.
      * destruct (visit_origin _ _ _ _ Ea Hx) as (anc & e & st' & os & f & ? & ? & ? & ?).
        exists anc, e, st', os, f. split_and!; try done. apply within_cons. by left.
      * destruct (IH2 _ Hx) as (anc & e & st' & os & f & ? & ? & ? & ?).
        exists anc, e, st', os, f. split_and!; try done. apply within_cons. by right.
Qed.

Lemma stack_at_fun (st : list F) (anc : list die) : forall st1 st2,
  stack_at st anc st1 -> stack_at st anc st2 -> st1 = st2.
Proof.
  induction anc as [|p anc IH]; intros st1 st2 H1 H2; inversion H1; inversion H2; subst; [done|].
  match goal with A : stack_at st anc ?x, B : stack_at st anc ?y |- _ => assert (x = y) as -> by (by apply IH) end.
  by simplify_eq.
Qed.

End walk.

(** ** Attributes *)

Definition of_kind {A} (k : nat) (f : attr -> option A) : Prop := forall a x, f a = Some x -> kind a = Some k.

Definition update {A} (g : attr -> option A) (x : A) (a : attr) : A := match g a with Some y => y | None => x end.

Lemma no_kind (k : nat) (attrs : list attr) : k ∉ omap kind attrs ->
  (forall a, a ∈ attrs -> kind a <> Some k) /\
  (forall A (f : attr -> option A), of_kind k f -> first_attr f attrs = None) /\
  (forall A (g : attr -> option A) x, of_kind k g -> foldl (update g) x attrs = x).
Proof.
  intros Hk. assert (forall a, a ∈ attrs -> kind a <> Some k) as Ha.
  { intros a Hin E. apply Hk, elem_of_list_omap. by exists a. }
  split_and!; [done| |].
  - intros A f Hf. unfold first_attr. clear Hk. induction attrs as [|a attrs IH]; [done|]. cbn.
    destruct (f a) as [x|] eqn:E; [destruct (Ha a (elem_of_list_here _ _) (Hf _ _ E))|].
    apply IH. intros b Hb. apply Ha. by right.
  - intros A g x Hg. clear Hk. revert x. induction attrs as [|a attrs IH]; intros x; [done|]. cbn [foldl]. unfold update at 2.
    destruct (g a) as [y|] eqn:E; [destruct (Ha a (elem_of_list_here _ _) (Hg _ _ E))|].
    apply IH. intros b Hb. apply Ha. by right.
Qed.

Lemma one_kind (k : nat) (attrs : list attr) : NoDup (omap kind attrs) -> k ∈ omap kind attrs ->
  exists a, a ∈ attrs /\ kind a = Some k /\
    (forall b, b ∈ attrs -> kind b = Some k -> b = a) /\
    (forall A (f : attr -> option A), of_kind k f -> first_attr f attrs = f a) /\
    (forall A (g : attr -> option A) x, of_kind k g -> foldl (update g) x attrs = match g a with Some y => y | None => x end).
Proof.
  induction attrs as [|a attrs IH]; intros Hnd Hk; [by apply elem_of_nil in Hk|].
  cbn in Hnd, Hk. destruct (decide (kind a = Some k)) as [Ea|Hne].
  - rewrite Ea in Hnd. apply NoDup_cons in Hnd as [Hn Hnd]. destruct (no_kind k attrs Hn) as (H1 & H2 & H3).
    exists a. split_and!; [left|done| | |].
    + intros b [->|Hb]%elem_of_cons Hkb; [done|]. by destruct (H1 b Hb).
    + intros A f Hf. specialize (H2 A f Hf). unfold first_attr in *. cbn. by destruct (f a).
    + intros A g x Hg. cbn [foldl]. by rewrite (H3 A g _ Hg).
  - assert (k ∈ omap kind attrs /\ NoDup (omap kind attrs)) as [Hk' Hnd'].
    { destruct (kind a) as [k'|]; [|done]. apply NoDup_cons in Hnd as [_ Hnd]. split; [|done].
      apply elem_of_cons in Hk as [->|Hk]; [done|done]. }
    destruct (IH Hnd' Hk') as (b & Hb & Hkb & Hu & Hf & Hg). exists b. split_and!; [by right|done| | |].
    + intros c [->|Hc]%elem_of_cons Hkc; [done|by apply Hu].
    + intros A f Hkf. specialize (Hf A f Hkf). unfold first_attr in *. cbn. destruct (f a) as [x|] eqn:E; [|done].
      destruct Hne. by eapply Hkf.
    + intros A g x Hkg. cbn [foldl]. unfold update at 2. destruct (g a) as [y|] eqn:E; [destruct Hne; by eapply Hkg|].
      by apply Hg.
Qed.

(** The last is the first. *)
Lemma last_first {A} (g : attr -> option (option A)) (k : nat) (attrs : list attr) :
  of_kind k g -> NoDup (omap kind attrs) ->
  foldl (update g) None attrs = first_attr (fun a => match g a with Some y => y | None => None end) attrs.
Proof.
  intros Hg Hnd. assert (of_kind k (fun a => match g a with Some y => y | None => None end)) as Hf.
  { intros a x E. destruct (g a) eqn:Ea; [|done]. by eapply Hg. }
  destruct (decide (k ∈ omap kind attrs)) as [Hk|Hk].
  - destruct (one_kind k attrs Hnd Hk) as (a & _ & _ & _ & H1 & H2). rewrite (H1 _ _ Hf), (H2 _ _ _ Hg). done.
  - destruct (no_kind k attrs Hk) as (_ & H1 & H2). by rewrite (H1 _ _ Hf), (H2 _ _ _ Hg).
Qed.

Lemma first_attr_ext {A} (f g : attr -> option A) (attrs : list attr) :
  (forall a, f a = g a) -> first_attr f attrs = first_attr g attrs.
Proof. intros H. unfold first_attr. f_equal. induction attrs as [|a attrs IH]; [done|]. cbn. rewrite H. by destruct (g a); [f_equal|]. Qed.

Ltac kinds := intros [] ?; cbn; intros; by simplify_eq.

Lemma last_name_first (attrs : list attr) : NoDup (omap kind attrs) -> last_name attrs = name_attr attrs.
Proof.
  intros Hnd. unfold name_attr.
  rewrite (first_attr_ext _ (fun a => match (match a with AtName s => Some (Some s) | _ => None end) with Some y => y | None => None end))
    by (by intros []).
  rewrite <-(last_first _ 0) by (done || kinds). unfold last_name.
  generalize (None : option str). induction attrs as [|a attrs IH]; intros x; [done|]. cbn [foldl].
  rewrite IH; [by destruct a|]. cbn in Hnd. destruct (kind a); [by apply NoDup_cons in Hnd as [_ ?]|done].
Qed.

(** The symbol scanner. *)
Lemma symbol_scan_spec (attrs : list attr) : NoDup (omap kind attrs) ->
  foldl symbol_attr (SymbolScan None None None None None) attrs =
  SymbolScan (name_attr attrs) (linkage_attr attrs) (decl_line attrs) (decl_column attrs)
    (first_attr (fun a => match a with AtDeclFile f => Some f | _ => None end) attrs).
Proof.
  intros Hnd.
  assert (forall attrs s, foldl symbol_attr s attrs = SymbolScan
    (foldl (update (fun a => match a with AtName s => Some (Some s) | _ => None end)) (ss_name s) attrs)
    (foldl (update (fun a => match a with AtLinkage s => Some (Some s) | _ => None end)) (ss_linkage s) attrs)
    (foldl (update (fun a => match a with AtDeclLine s => Some s | _ => None end)) (ss_line s) attrs)
    (foldl (update (fun a => match a with AtDeclColumn s => Some s | _ => None end)) (ss_column s) attrs)
    (foldl (update (fun a => match a with AtDeclFile s => Some (Some s) | _ => None end)) (ss_file s) attrs)) as H.
  { clear. induction attrs as [|a attrs IH]; intros s; [by destruct s|]. cbn [foldl]. rewrite IH. destruct s.
    by destruct a. }
  rewrite H. cbn [ss_name ss_linkage ss_line ss_column ss_file].
  rewrite (last_first _ 0), (last_first _ 1), (last_first _ 5), (last_first _ 6), (last_first _ 4) by (done || kinds).
  unfold name_attr, linkage_attr, decl_line, decl_column. f_equal; apply first_attr_ext; by intros [].
Qed.

Section inline.
Context (units : list dw_unit) (u : dw_unit) (nss : gmap nat (list str)) (frames : list frame_state).
Notation scan_attrs := (inline_attrs units u nss frames).
Notation namespace := (default [] (current_namespace frames)).

Lemma inline_attrs_cons (a : attr) (attrs : list attr) (s s' : inline_scan) :
  scan_attrs (a :: attrs) s = Some s' -> exists s1, inline_attr units u nss frames s a = Some s1 /\ scan_attrs attrs s1 = Some s'.
Proof. cbn [inline_attrs]. destruct (inline_attr units u nss frames s a) as [s1|]; [|done]. intros H. by exists s1. Qed.

Lemma inline_call (attrs : list attr) : forall s s', scan_attrs attrs s = Some s' ->
  is_call s' = CallLoc (cl_compdir (is_call s))
    (foldl (update (fun a => match a with AtCallFile (Some (dir, _)) => Some dir | _ => None end)) (cl_directory (is_call s)) attrs)
    (foldl (update (fun a => match a with AtCallFile (Some (_, f)) => Some (Some f) | _ => None end)) (cl_filename (is_call s)) attrs)
    (foldl (update (fun a => match a with AtCallLine n => Some n | _ => None end)) (cl_line (is_call s)) attrs)
    (foldl (update (fun a => match a with AtCallColumn n => Some n | _ => None end)) (cl_column (is_call s)) attrs).
Proof.
  induction attrs as [|a attrs IH]; intros s s' E.
  - cbn in E. injection E as <-. by destruct s as [? ? [] ?].
  - apply inline_attrs_cons in E as (s1 & E1 & E). rewrite (IH _ _ E). cbn [foldl].
    destruct s as [names low call start], a as [n|n|r|r|f|n|n|[[dir f]|]|n|n|lo|fi|]; cbn [inline_attr] in E1;
      try (destruct (utf8_valid n)); try (destruct (get_names 11 units u nss r)); try done; by injection E1 as <-.
Qed.

Lemma inline_own_names (attrs : list attr) : forall s s', scan_attrs attrs s = Some s' ->
  (forall r, AtOrigin r ∉ attrs) ->
  is_names s' = SymAndName
    (foldl (update (fun a => match a with AtLinkage n => Some (Some n) | _ => None end)) (sn_symbol (is_names s)) attrs)
    (foldl (update (fun a => match a with AtName n => Some (Some (DebugName namespace n)) | _ => None end)) (sn_debug (is_names s)) attrs).
Proof.
  induction attrs as [|a attrs IH]; intros s s' E Ho.
  - cbn in E. injection E as <-. by destruct s as [[] ? ? ?].
  - apply inline_attrs_cons in E as (s1 & E1 & E). rewrite (IH _ _ E) by (intros r Hr; apply (Ho r); by right). cbn [foldl].
    destruct s as [names low call start], a as [n|n|r|r|f|n|n|[[dir f]|]|n|n|lo|fi|]; cbn [inline_attr] in E1;
      try (by destruct (Ho r); left); try (destruct (utf8_valid n)); try done; by injection E1 as <-.
Qed.

Lemma inline_origin_names (attrs : list attr) : forall s s', scan_attrs attrs s = Some s' ->
  (forall n, AtName n ∉ attrs) -> (forall n, AtLinkage n ∉ attrs) ->
  (forall r, AtOrigin r ∈ attrs -> is_Some (get_names 11 units u nss r)) /\
  is_names s' = foldl (update (fun a => match a with AtOrigin r => get_names 11 units u nss r | _ => None end)) (is_names s) attrs.
Proof.
  induction attrs as [|a attrs IH]; intros s s' E Hn Hl.
  - cbn in E. injection E as <-. split; [|done]. intros r Hr. by apply elem_of_nil in Hr.
  - apply inline_attrs_cons in E as (s1 & E1 & E).
    destruct (IH _ _ E) as [H1 H2]; [intros n Hr; apply (Hn n); by right|intros n Hr; apply (Hl n); by right|].
    rewrite H2. cbn [foldl].
    destruct s as [names low call start], a as [n|n|r|r|f|n|n|[[dir f]|]|n|n|lo|fi|]; cbn [inline_attr] in E1;
      try (by destruct (Hn n); left); try (by destruct (Hl n); left); try done;
      try (injection E1 as <-; split; [|done]; intros r' [Hr|Hr]%elem_of_cons; [done|by apply H1]).
    destruct (get_names 11 units u nss r) as [nm|] eqn:Eg; [|done]. injection E1 as <-.
    split; [|f_equal; unfold update; by rewrite Eg]. intros r' [[= ->]|Hr]%elem_of_cons; [by eexists|by apply H1].
Qed.

Lemma inline_start_same (attrs : list attr) : forall s s', scan_attrs attrs s = Some s' ->
  (forall a, AtLowPc a ∉ attrs) -> is_start s' = is_start s.
Proof.
  induction attrs as [|a attrs IH]; intros s s' E Hn.
  - cbn in E. by injection E as <-.
  - apply inline_attrs_cons in E as (s1 & E1 & E). rewrite (IH _ _ E) by (intros n Hr; apply (Hn n); by right).
    destruct s as [names low call start], a as [n|n|r|r|f|n|n|[[dir f]|]|n|n|lo|fi|]; cbn [inline_attr] in E1;
      try (by destruct (Hn lo); left); try (destruct (utf8_valid n)); try (destruct (get_names 11 units u nss r)); try done; by injection E1 as <-.
Qed.

Lemma inline_start (attrs : list attr) : forall s s', scan_attrs attrs s = Some s' ->
  NoDup (omap kind attrs) -> is_start s = None -> is_start s' = low_pc attrs.
Proof.
  induction attrs as [|a attrs IH]; intros s s' E Hnd Hs.
  - cbn in E. by injection E as <-.
  - apply inline_attrs_cons in E as (s1 & E1 & E). cbn in Hnd. destruct (decide (kind a = Some 10)) as [Ek|Hk].
    + rewrite Ek in Hnd. apply NoDup_cons in Hnd as [Hn Hnd]. destruct (no_kind 10 attrs Hn) as (H1 & H2 & _).
      rewrite (inline_start_same _ _ _ E) by (intros x Hx; by destruct (H1 _ Hx)).
      destruct a; try done. destruct s as [names low call start]. cbn in E1, Hs. subst start. injection E1 as <-.
      cbn [is_start]. unfold low_pc, first_attr. cbn.
      specialize (H2 nat (fun a => match a with AtLowPc a => a | _ => None end)). unfold first_attr in H2.
      destruct a; [done|]. rewrite H2; [done|]. kinds.
    + rewrite (IH s1 s' E).
      * unfold low_pc, first_attr. by destruct a.
      * destruct (kind a); [by apply NoDup_cons in Hnd as [_ ?]|done].
      * destruct s as [names low call start], a as [n|n|r|r|f|n|n|[[dir f]|]|n|n|lo|fi|]; cbn [inline_attr] in E1;
        try done; try (destruct (utf8_valid n)); try (destruct (get_names 11 units u nss r)); try done; by injection E1 as <-.
Qed.

Lemma inline_low (attrs : list attr) : forall s s', scan_attrs attrs s = Some s' ->
  (forall r, AtRanges r ∉ attrs) ->
  is_low s' = foldl (update (fun a => match a with AtLowPc a => Some a | _ => None end)) (is_low s) attrs.
Proof.
  induction attrs as [|a attrs IH]; intros s s' E Hr.
  - cbn in E. by injection E as <-.
  - apply inline_attrs_cons in E as (s1 & E1 & E). rewrite (IH _ _ E) by (intros n Hn; apply (Hr n); by right). cbn [foldl].
    destruct s as [names low call start], a as [n|n|r|r|f|n|n|[[dir f]|]|n|n|lo|fi|]; cbn [inline_attr] in E1;
      try (by destruct (Hr fi); left); try (destruct (utf8_valid n)); try (destruct (get_names 11 units u nss r)); try done; by injection E1 as <-.
Qed.

Lemma inline_file (attrs : list attr) : forall s s', scan_attrs attrs s = Some s' -> AtCallFile None ∉ attrs.
Proof.
  induction attrs as [|a attrs IH]; intros s s' E; [apply not_elem_of_nil|].
  apply inline_attrs_cons in E as (s1 & E1 & E). apply not_elem_of_cons. split; [|by eapply IH].
  intros <-. by destruct s.
Qed.

(** All of it. *)
Lemma inline_spec (t : unit_tree) (attrs : list attr) (s : inline_scan) :
  un_comp_dir u = ut_dir t -> unambiguous attrs ->
  scan_attrs attrs (InlineScan (SymAndName None None) None (no_call u) None) = Some s ->
  match origin_attr attrs with
  | Some r => get_names 11 units u nss r = Some (is_names s)
  | None => is_names s = own_names namespace attrs
  end /\
  is_call s = CallLoc (unit_dir t) (match call_file attrs with Some (dir, _) => dir | None => None end)
                (snd <$> call_file attrs) (call_line attrs) (call_column attrs) /\
  is_start s = low_pc attrs /\
  (forall a, low_pc attrs = Some a -> is_low s = Some a).
Proof.
  intros Hu (Hnd & Horig & Hlow) E. split_and!.
  - destruct (decide (2 ∈ omap kind attrs)) as [Hk|Hk].
    + destruct (one_kind 2 attrs Hnd Hk) as (a & Ha & Hka & _ & Hf & Hg). destruct a as [| |r| | | | | | | | | |]; try done.
      assert (origin_attr attrs = Some r) as Er by (unfold origin_attr; rewrite Hf by kinds; done).
      rewrite Er. destruct (Horig r Er) as [Hn Hl].
      destruct (inline_origin_names attrs _ _ E) as [H1 H2].
      * intros n Hin. assert (0 ∈ omap kind attrs) as Hk0 by (apply elem_of_list_omap; by exists (AtName n)).
        destruct (one_kind 0 attrs Hnd Hk0) as (b & _ & _ & Hb & Hb' & _). rewrite <-(Hb (AtName n)) in Hb' by done.
        unfold name_attr in Hn. rewrite Hb' in Hn by kinds. done.
      * intros n Hin. assert (1 ∈ omap kind attrs) as Hk0 by (apply elem_of_list_omap; by exists (AtLinkage n)).
        destruct (one_kind 1 attrs Hnd Hk0) as (b & _ & _ & Hb & Hb' & _). rewrite <-(Hb (AtLinkage n)) in Hb' by done.
        unfold linkage_attr in Hl. rewrite Hb' in Hl by kinds. done.
      * destruct (H1 r Ha) as [nm Enm]. rewrite H2, Hg by kinds. by rewrite Enm.
    + destruct (no_kind 2 attrs Hk) as (H1 & H2 & _).
      assert (origin_attr attrs = None) as -> by (unfold origin_attr; apply H2; kinds).
      rewrite (inline_own_names attrs _ _ E) by (intros r Hr; by destruct (H1 _ Hr)).
      cbn [is_names sn_symbol sn_debug]. rewrite (last_first _ 1), (last_first _ 0) by (done || kinds).
      unfold own_names, linkage_attr, name_attr. f_equal; [apply first_attr_ext; by intros []|].
      unfold first_attr. clear. induction attrs as [|a attrs IH]; [done|]. cbn. by destruct a.
  - rewrite (inline_call attrs _ _ E). cbn [is_call no_call cl_compdir cl_directory cl_filename cl_line cl_column].
    unfold compdir_of, unit_dir. rewrite Hu. unfold call_line, call_column.
    rewrite (last_first (fun a => match a with AtCallLine n => Some n | _ => None end) 8),
      (last_first (fun a => match a with AtCallColumn n => Some n | _ => None end) 9) by (done || kinds).
    pose proof (inline_file _ _ _ E) as Hfile. unfold call_file.
    destruct (decide (7 ∈ omap kind attrs)) as [Hk|Hk].
    + destruct (one_kind 7 attrs Hnd Hk) as (a & Ha & Hka & _ & Hf & Hg). destruct a as [| | | | | | |fl| | | | |]; try done.
      destruct fl as [[dir f]|]; [|done]. rewrite !Hg by kinds. rewrite (Hf _ (fun a => match a with AtCallFile f => f | _ => None end)) by kinds. cbn.
      f_equal; apply first_attr_ext; by intros [].
    + destruct (no_kind 7 attrs Hk) as (_ & H2 & H3). rewrite !H3 by kinds. rewrite (H2 _ (fun a => match a with AtCallFile f => f | _ => None end)) by kinds. cbn.
      f_equal; apply first_attr_ext; by intros [].
  - by apply (inline_start attrs _ _ E).
  - intros a Ha. assert (exists b, AtLowPc b ∈ attrs) as [b Hb].
    { destruct (decide (10 ∈ omap kind attrs)) as [Hk|Hk].
      - destruct (one_kind 10 attrs Hnd Hk) as (x & Hx & Hkx & _). destruct x; try done. by eexists.
      - destruct (no_kind 10 attrs Hk) as (_ & H2 & _). unfold low_pc in Ha. rewrite H2 in Ha by kinds. done. }
    rewrite (inline_low attrs _ _ E) by (intros r; by apply (Hlow b)). cbn [is_low].
    rewrite (last_first _ 10) by (done || kinds). rewrite <-Ha. unfold low_pc. apply first_attr_ext. by intros [].
Qed.
End inline.

(** ** When walking succeeds *)

Lemma visit_total {F O : Type} (h : list F -> nat -> tag -> list attr -> option (list O * F)) (d : die) : forall st,
  (forall anc e st', within [d] anc e -> stack_at h st anc st' -> is_Some (handle_die h st' e)) -> is_Some (visit h st d).
Proof.
  induction d as [o t attrs|o t attrs ds IH] using die_ind'; intros st H.
  - destruct (H [] (Die o t attrs None) st) as [[out f] E]; [constructor; left|constructor|].
    unfold handle_die in E. cbn in E |- *. rewrite E. by eexists.
  - destruct (H [] (Die o t attrs (Some ds)) st) as [[out f] E]; [constructor; left|constructor|].
    rewrite visit_some. pose proof E as E'. unfold handle_die in E'. cbn in E'. rewrite E'. clear E'.
    assert (is_Some (visits h (f :: st) ds)) as [rest ->]; [|by eexists].
    assert (forall anc e st', within ds anc e -> stack_at h (f :: st) anc st' -> is_Some (handle_die h st' e)) as H'.
    { intros anc e st' Hw Hst. apply (H (anc ++ [Die o t attrs (Some ds)])).
      - constructor; [left|done].
      - by eapply stack_at_snoc. }
    clear H E. induction IH as [|d ds Hd _ IHds]; [by eexists|]. cbn [visits].
    destruct (Hd (f :: st)) as [a ->].
    { intros anc e st' Hw Hst. apply (H' anc); [|done]. apply within_cons. by left. }
    destruct IHds as [b ->]; [|by eexists].
    intros anc e st' Hw Hst. apply (H' anc); [|done]. apply within_cons. by right.
Qed.

Lemma visits_total {F O : Type} (h : list F -> nat -> tag -> list attr -> option (list O * F)) (ds : list die) (st : list F) :
  (forall anc e st', within ds anc e -> stack_at h st anc st' -> is_Some (handle_die h st' e)) -> is_Some (visits h st ds).
Proof.
  induction ds as [|d ds IH]; intros H; [by eexists|]. cbn [visits].
  destruct (visit_total h d st) as [a ->].
  { intros anc e st' Hw Hst. apply (H anc); [|done]. apply within_cons. by left. }
  destruct IH as [b ->]; [|by eexists].
  intros anc e st' Hw Hst. apply (H anc); [|done]. apply within_cons. by right.
Qed.

(** ** Entries by offset *)

Lemma flatten_entries (ds : list die) (o : nat) (tg : tag) (attrs : list attr) (c : bool) :
  RawEntry o tg attrs c ∈ flatten ds ->
  exists anc d, within ds anc d /\ die_offset d = o /\ die_tag d = tg /\ die_attrs d = attrs.
Proof.
  assert (forall d, RawEntry o tg attrs c ∈ flat d ->
    exists anc e, within [d] anc e /\ die_offset e = o /\ die_tag e = tg /\ die_attrs e = attrs) as Hd.
  { intros d. induction d as [o' t' attrs'|o' t' attrs' ds' IH] using die_ind'; intros Hin.
    - cbn in Hin. apply elem_of_list_singleton in Hin as [= -> -> -> ->].
      exists [], (Die o' t' attrs' None). split_and!; [constructor; left|done..].
    - rewrite flat_some in Hin. apply elem_of_cons in Hin as [[= -> -> -> ->]|Hin].
      + exists [], (Die o' t' attrs' (Some ds')). split_and!; [constructor; left|done..].
      + apply elem_of_app in Hin as [Hin|Hin]; [|by apply elem_of_list_singleton in Hin].
        assert (exists anc e, within ds' anc e /\ die_offset e = o /\ die_tag e = tg /\ die_attrs e = attrs) as (anc & e & Hw & He).
        { induction IH as [|d ds'' Hd _ IHds]; [by apply elem_of_nil in Hin|].
          unfold flatten in Hin. cbn [map mjoin list_join] in Hin. apply elem_of_app in Hin as [Hin|Hin].
          - destruct (Hd Hin) as (anc & e & Hw & He). exists anc, e. split; [|done]. apply within_cons. by left.
          - destruct (IHds Hin) as (anc & e & Hw & He). exists anc, e. split; [|done]. apply within_cons. by right. }
        exists (anc ++ [Die o' t' attrs' (Some ds')]), e. split; [|done]. constructor; [left|done]. }
  induction ds as [|d ds IH]; intros Hin; [by apply elem_of_nil in Hin|].
  unfold flatten in Hin. cbn [map mjoin list_join] in Hin. apply elem_of_app in Hin as [Hin|Hin].
  - destruct (Hd d Hin) as (anc & e & Hw & He). exists anc, e. split; [|done]. apply within_cons. by left.
  - destruct (IH Hin) as (anc & e & Hw & He). exists anc, e. split; [|done]. apply within_cons. by right.
Qed.

Lemma flat_incl (d : die) (ds : list die) (e : raw_entry) : d ∈ ds -> e ∈ flat d -> e ∈ flatten ds.
Proof.
  intros Hd He. induction ds as [|d' ds IH]; [by apply elem_of_nil in Hd|].
  unfold flatten. cbn [map mjoin list_join]. apply elem_of_app. apply elem_of_cons in Hd as [->|Hd]; [by left|right; by apply IH].
Qed.

Lemma flatten_within (ds anc : list die) (d : die) :
  within ds anc d -> exists c, RawEntry (die_offset d) (die_tag d) (die_attrs d) c ∈ flatten ds.
Proof.
  induction 1 as [ds d Hin|ds p anc d Hp _ (c & IH)].
  - destruct d as [o t attrs [ds'|]]; eexists; (eapply flat_incl; [exact Hin|]).
    + rewrite flat_some. left.
    + cbn. left.
  - exists c. destruct p as [o t attrs [ds'|]]; [|cbn in IH; by apply elem_of_nil in IH].
    eapply flat_incl; [exact Hp|]. rewrite flat_some. right. apply elem_of_app. by left.
Qed.

Lemma entry_at_some (es : list raw_entry) (o : nat) (attrs : list attr) :
  entry_at es o = Some attrs -> exists t c, RawEntry o t attrs c ∈ es.
Proof.
  induction es as [|[|o' t attrs' c] es IH]; cbn [entry_at]; [done| |].
  - intros E. destruct (IH E) as (t & c & H). exists t, c. by right.
  - destruct (Nat.eqb_spec o' o) as [->|_].
    + intros [= ->]. exists t, c. left.
    + intros E. destruct (IH E) as (t' & c' & H). exists t', c'. by right.
Qed.

Lemma entry_at_is_some (es : list raw_entry) (o : nat) (t : tag) (attrs : list attr) (c : bool) :
  RawEntry o t attrs c ∈ es -> is_Some (entry_at es o).
Proof.
  induction es as [|[|o' t' attrs' c'] es IH]; intros Hin; [by apply elem_of_nil in Hin| |]; cbn [entry_at].
  - apply elem_of_cons in Hin as [?|Hin]; [done|by apply IH].
  - destruct (Nat.eqb_spec o' o) as [->|Hne]; [by eexists|].
    apply elem_of_cons in Hin as [[= -> _ _ _]|Hin]; [done|by apply IH].
Qed.

Lemma padding_entry (n o : nat) (t : tag) (attrs : list attr) (c : bool) (es : list raw_entry) :
  RawEntry o t attrs c ∈ es ++ replicate n RawNull -> RawEntry o t attrs c ∈ es.
Proof. intros [H|H]%elem_of_app; [done|]. apply elem_of_replicate in H as [? _]. done. Qed.

Section layout.
Context (ts : list unit_tree) (Hlay : laid_out ts).

Lemma entry_at_within (t : unit_tree) (anc : list die) (d : die) :
  t ∈ ts -> within (ut_dies t) anc d -> entry_at (un_entries (encode t)) (die_offset d) = Some (die_attrs d).
Proof.
  intros Ht Hw. destruct (flatten_within _ _ _ Hw) as [c Hc]. cbn [un_entries encode].
  destruct (entry_at_is_some (flatten (ut_dies t) ++ replicate (ut_padding t) RawNull) (die_offset d) (die_tag d) (die_attrs d) c) as [attrs E].
  { apply elem_of_app. by left. }
  rewrite E. f_equal. destruct (entry_at_some _ _ _ E) as (tg & c' & Hin%padding_entry).
  destruct (flatten_entries _ _ _ _ _ Hin) as (anc' & d' & Hw' & Ho & _ & <-).
  destruct Hlay as (_ & Huniq & _). by destruct (Huniq t anc' d' anc d Ht Hw' Hw Ho) as [_ ->].
Qed.

Lemma search_spec (i : nat) (t : unit_tree) (o : nat) :
  ts !! i = Some t -> 0 < o -> (forall j t', i < j -> ts !! j = Some t' -> ut_offset t + o < ut_offset t') ->
  search (ut_offset t + o) (map encode ts) = S i.
Proof.
  intros Hi Ho Hnext. unfold search.
  assert (forall j t', j <= i -> ts !! j = Some t' -> ut_offset t' <= ut_offset t) as Hprev.
  { intros j t' Hj Hj'. destruct (decide (j = i)) as [->|Hne]; [simplify_eq; lia|].
    destruct Hlay as (_ & _ & Hord). destruct (Hord j i t' t ltac:(lia) Hj' Hi) as [? _]. lia. }
  clear Hlay. revert i Hi Hnext Hprev. induction ts as [|x l IH]; intros i Hi Hnext Hprev; [done|].
  cbn [map List.filter]. destruct i as [|i].
  - injection Hi as ->. cbn [un_offset encode]. destruct (Nat.ltb_spec (ut_offset t) (ut_offset t + o)); [|lia].
    cbn [length]. f_equal.
    assert (forall x, x ∈ l -> ut_offset t + o < ut_offset x) as Hl.
    { intros y [j Hj]%elem_of_list_lookup. apply (Hnext (S j)); [lia|done]. }
    clear -Hl. induction l as [|y l IH]; [done|]. cbn [map List.filter un_offset encode].
    pose proof (Hl y (elem_of_list_here _ _)). destruct (Nat.ltb_spec (ut_offset y) (ut_offset t + o)); [lia|].
    apply IH. intros z Hz. apply Hl. by right.
  - cbn [un_offset encode]. pose proof (Hprev 0 x ltac:(lia) eq_refl).
    destruct (Nat.ltb_spec (ut_offset x) (ut_offset t + o)); [|lia]. cbn [length]. f_equal. apply IH.
    + done.
    + intros j t' Hj Hj'. apply (Hnext (S j)); [lia|done].
    + intros j t' Hj Hj'. apply (Hprev (S j)); [lia|done].
Qed.

Lemma unit_found (t : unit_tree) (anc : list die) (d : die) :
  t ∈ ts -> within (ut_dies t) anc d -> unit_containing (map encode ts) (ut_offset t + die_offset d) = Some (encode t).
Proof.
  intros [i Hi]%elem_of_list_lookup Hw. unfold unit_containing. rewrite (search_spec i t).
  - by rewrite list_lookup_fmap, Hi.
  - done.
  - destruct Hlay as (H1 & _). destruct (H1 t anc d) as [? _]; [by eapply elem_of_list_lookup_2|done|done].
  - intros j t' Hj Hj'. destruct Hlay as (_ & _ & Hord). destruct (Hord i j t t' Hj Hi Hj') as [_ H]. by apply (H anc).
Qed.

Lemma target_found (t : unit_tree) (r : die_ref) (anc : list die) (d : die) :
  t ∈ ts -> points_to ts t r t anc d -> target_of (map encode ts) (encode t) r = Some (encode t, die_offset d).
Proof.
  intros Ht (Hw & Hr). unfold target_of. destruct r as [o|o|]; [by destruct Hr as [_ ->]| |done].
  destruct Hr as [_ ->]. rewrite (unit_found t anc d) by done. cbn [un_offset encode].
  destruct (Nat.leb_spec (ut_offset t) (ut_offset t + die_offset d)); [|lia]. do 2 f_equal. lia.
Qed.

Lemma same_unit_entry (t t' : unit_tree) (anc anc' : list die) (d d' : die) :
  t ∈ ts -> t' ∈ ts -> within (ut_dies t) anc d -> within (ut_dies t') anc' d' ->
  ut_offset t + die_offset d = ut_offset t' + die_offset d' -> t = t'.
Proof.
  intros [i Hi]%elem_of_list_lookup [j Hj]%elem_of_list_lookup Hw Hw' E. destruct Hlay as (_ & _ & Hord).
  destruct (lt_eq_lt_dec i j) as [[H|<-]|H]; [|by simplify_eq|].
  - destruct (Hord i j t t' H Hi Hj) as [_ Hx]. specialize (Hx _ _ Hw). lia.
  - destruct (Hord j i t' t H Hj Hi) as [_ Hx]. specialize (Hx _ _ Hw'). lia.
Qed.

Lemma points_to_fun (t : unit_tree) (r : die_ref) (t1 t2 : unit_tree) (anc1 anc2 : list die) (d1 d2 : die) :
  t ∈ ts -> points_to ts t r t1 anc1 d1 -> points_to ts t r t2 anc2 d2 -> t1 = t2 /\ anc1 = anc2 /\ d1 = d2.
Proof.
  intros Ht (Hw1 & Hr1) (Hw2 & Hr2). destruct Hlay as (_ & Huniq & _). destruct r as [o|o|]; [| |done].
  - destruct Hr1 as [-> H1], Hr2 as [-> H2]. destruct (Huniq t anc1 d1 anc2 d2) as [-> ->]; [done..|by rewrite H1, H2|done].
  - destruct Hr1 as [Hin1 H1], Hr2 as [Hin2 H2]. assert (t1 = t2) as -> by (eapply same_unit_entry; try done; lia).
    destruct (Huniq t2 anc1 d1 anc2 d2) as [-> ->]; [done..|lia|done].
Qed.

Lemma points_to_unit (t t' : unit_tree) (r : die_ref) (anc : list die) (d : die) :
  t ∈ ts -> points_to ts t r t' anc d -> t' ∈ ts.
Proof. intros Ht (_ & Hr). destruct r; [by destruct Hr as [-> _]|by destruct Hr|done]. Qed.

Lemma denotes_fun (t : unit_tree) (r : die_ref) (n1 n2 : sym_and_name) :
  t ∈ ts -> denotes ts t r n1 -> denotes ts t r n2 -> n1 = n2.
Proof.
  intros Ht H1. revert n2. induction H1 as [t r t' anc d Hp Hs|t r t' anc d r' names Hp Hs Hd IH]; intros n2 H2;
    inversion H2 as [? ? t2 anc2 d2 Hp2 Hs2|? ? t2 anc2 d2 r2 ? Hp2 Hs2 Hd2]; subst;
    destruct (points_to_fun _ _ _ _ _ _ _ _ Ht Hp Hp2) as (<- & <- & <-); try congruence.
  assert (r2 = r') as -> by congruence. apply IH; [by eapply points_to_unit|done].
Qed.

Lemma names_of_fun (t : unit_tree) (anc : list die) (d : die) (n1 n2 : sym_and_name) :
  t ∈ ts -> names_of ts t anc d n1 -> names_of ts t anc d n2 -> n1 = n2.
Proof.
  intros Ht. unfold names_of. destruct (code_tag _); [|congruence].
  destruct (origin_attr _); [by apply denotes_fun|congruence].
Qed.

(** ** Namespaces *)

Lemma within_up (ds : list die) (p : die) (anc : list die) : forall d,
  within ds (p :: anc) d -> within ds anc p.
Proof.
  revert ds p. induction anc as [|q anc IH] using rev_ind; intros ds p d Hw.
  - apply within_inv in Hw as [[? _]|(p' & anc' & E & Hp & Hw)]; [done|].
    destruct anc' as [|x anc']; [injection E as <-; by constructor|].
    destruct anc'; done.
  - apply within_inv in Hw as [[? _]|(p' & anc' & E & Hp & Hw)]; [done|].
    change (p :: anc ++ [q]) with ((p :: anc) ++ [q]) in E. apply app_inj_tail in E as [<- <-].
    constructor; [done|]. by apply (IH _ _ d).
Qed.

Lemma namespace_stack (t : unit_tree) (anc : list die) : forall st d, t ∈ ts -> within (ut_dies t) anc d ->
  stack_at namespace_entry [] anc st ->
  default [] (match st with p :: _ => p | [] => None end) = enclosing anc.
Proof.
  induction anc as [|p anc IH]; intros st d Ht Hw Hst; inversion Hst as [|? ? st' out f Hst' Hp]; subst; [done|].
  pose proof (within_up _ _ _ _ Hw) as Hw'. pose proof (IH st' p Ht Hw' Hst') as IHp.
  destruct Hlay as (H1 & _). destruct (H1 t anc p Ht Hw') as [_ (Hnd & _)]. cbn [enclosing].
  unfold handle_die, namespace_entry, namespace_of in Hp. rewrite (last_name_first _ Hnd) in Hp.
  destruct (die_tag p), (name_attr (die_attrs p)) as [n|]; try (destruct (utf8_valid n)); try done; injection Hp as <- <-; try done;
    cbn [default]; by rewrite IHp.
Qed.

Lemma inserts_lookup {V} (l : list (nat * V)) (k : nat) (v : V) : forall m : gmap nat V,
  foldl (fun m e => <[e.1 := e.2]> m) m l !! k = Some v -> (k, v) ∈ l \/ m !! k = Some v.
Proof.
  induction l as [|[k' v'] l IH]; intros m E; [by right|]. cbn [foldl] in E.
  destruct (IH _ E) as [H|H]; [left; by right|]. cbn [fst snd] in H. destruct (decide (k' = k)) as [->|Hne].
  - rewrite lookup_insert in H. injection H as ->. left. left.
  - rewrite lookup_insert_ne in H by done. by right.
Qed.

Lemma inserts_some {V} (l : list (nat * V)) (k : nat) (v : V) : forall m : gmap nat V,
  (k, v) ∈ l \/ is_Some (m !! k) -> is_Some (foldl (fun m e => <[e.1 := e.2]> m) m l !! k).
Proof.
  induction l as [|[k' v'] l IH]; intros m [H|H]; [by apply elem_of_nil in H|done| |]; cbn [foldl fst snd].
  - apply elem_of_cons in H as [[= <- <-]|H]; apply IH; [right; rewrite lookup_insert; by eexists|by left].
  - apply IH. right. destruct (decide (k' = k)) as [->|Hne]; [rewrite lookup_insert; by eexists|by rewrite lookup_insert_ne].
Qed.

Lemma namespaces_spec (t : unit_tree) (nss : gmap nat (list str)) (anc : list die) (d : die) :
  t ∈ ts -> subprogram_namespaces (encode t) = Some nss -> within (ut_dies t) anc d ->
  default [] (nss !! die_offset d) = if bool_decide (die_tag d = TagSubprogram) then enclosing anc else [].
Proof.
  intros Ht E Hw. unfold subprogram_namespaces in E. cbn [un_entries encode] in E. rewrite walk_flatten in E.
  destruct (visits namespace_entry [] (ut_dies t)) as [l|] eqn:El; [|done]. injection E as <-.
  destruct (visits_spec _ _ _ _ El) as [H1 H2].
  assert (forall ns, (die_offset d, ns) ∈ l -> die_tag d = TagSubprogram /\ ns = enclosing anc) as Hval.
  { intros ns Hin. destruct (H2 _ Hin) as (anc' & e & st & os & f & Hw' & Hst & He & Hx).
    pose proof (namespace_stack t anc' st e Ht Hw' Hst) as Hns.
    unfold handle_die, namespace_entry in He. assert (die_tag e = TagSubprogram) as Htag.
    { destruct (die_tag e); try done; try (destruct (namespace_of _ _)); try done; injection He as <- <-; by apply elem_of_nil in Hx. }
    rewrite Htag in He. injection He as <- <-.
    destruct (match st with p :: _ => p | [] => None end) as [ns'|]; [|by apply elem_of_nil in Hx].
    apply elem_of_list_singleton in Hx as [= Ho ->].
    destruct Hlay as (_ & Huniq & _). destruct (Huniq t anc d anc' e Ht Hw Hw' Ho) as [-> ->]. done. }
  destruct (foldl _ _ l !! die_offset d) as [ns|] eqn:Ens.
  - destruct (inserts_lookup _ _ _ _ Ens) as [Hin|Hin]; [|by rewrite lookup_empty in Hin].
    destruct (Hval ns Hin) as [Htag ->]. by rewrite bool_decide_eq_true_2.
  - destruct (bool_decide (die_tag d = TagSubprogram)) eqn:Et; [|done]. apply bool_decide_eq_true in Et.
    destruct (H1 anc d Hw) as (st & os & f & Hst & He & Hx). pose proof (namespace_stack t anc st d Ht Hw Hst) as Hns.
    unfold handle_die, namespace_entry in He. rewrite Et in He. injection He as <- <-.
    destruct (match st with p :: _ => p | [] => None end) as [ns'|]; [|by rewrite <-Hns].
    destruct (inserts_some l (die_offset d) ns' ∅) as [? E]; [left; apply Hx; left|]. congruence.
Qed.

(** ** Names *)

Lemma names_at_spec (nss : gmap nat (list str)) (resolve : die_ref -> option sym_and_name) (o : nat) (attrs : list attr) :
  forall n0 n, names_at nss resolve o attrs n0 = Some n ->
  match specification_attr attrs with
  | Some r => resolve r = Some n
  | None => n = SymAndName
      (foldl (update (fun a => match a with AtLinkage n => Some (Some n) | _ => None end)) (sn_symbol n0) attrs)
      (foldl (update (fun a => match a with AtName n => Some (Some (DebugName (default [] (nss !! o)) n)) | _ => None end)) (sn_debug n0) attrs)
  end.
Proof.
  induction attrs as [|a attrs IH]; intros n0 n E.
  - cbn in E. injection E as <-. by destruct n0.
  - destruct a as [s|s|r|r|f|k|k|f|k|k|lo|fi|]; cbn [names_at] in E; try (exact (IH _ _ E)).
    + destruct (utf8_valid s); [|done]. exact (IH _ _ E).
    + done.
Qed.

Lemma get_names_spec (Hown : own_references ts) (nss : gmap nat (list str)) (t : unit_tree) :
  t ∈ ts -> subprogram_namespaces (encode t) = Some nss ->
  forall depth r n, (exists anc d, points_to ts t r t anc d) ->
  get_names depth (map encode ts) (encode t) nss r = Some n -> denotes ts t r n.
Proof.
  intros Ht Hnss. induction depth as [|depth IH]; intros r n (anc & d & Hp) E; [done|]. cbn [get_names] in E.
  rewrite (target_found t r anc d Ht Hp) in E. pose proof Hp as (Hw & _).
  rewrite (entry_at_within t anc d Ht Hw) in E. apply names_at_spec in E.
  destruct (specification_attr (die_attrs d)) as [r'|] eqn:Es.
  - apply (denotes_declared ts t r t anc d r' n Hp Es). apply IH; [|done].
    apply (Hown t anc d r' Ht Hw). right. unfold specification_attr, first_attr in Es.
    clear -Es. induction (die_attrs d) as [|a l IH]; [done|]. destruct a; cbn in Es; try (right; by apply IH).
    injection Es as ->. left.
  - rewrite (namespaces_spec t nss anc d Ht Hnss Hw) in E.
    assert (n = own_names (if bool_decide (die_tag d = TagSubprogram) then enclosing anc else []) (die_attrs d)) as ->;
      [|by apply (denotes_own ts t r t anc d)].
    rewrite E. destruct Hlay as (H1 & _). destruct (H1 t anc d Ht Hw) as [_ (Hnd & _)].
    generalize (if bool_decide (die_tag d = TagSubprogram) then enclosing anc else []) as ns. intros ns.
    cbn [sn_symbol sn_debug]. rewrite (last_first _ 1), (last_first _ 0) by (done || kinds).
    unfold own_names, linkage_attr, name_attr. f_equal; [apply first_attr_ext; by intros []|].
    unfold first_attr. clear. induction (die_attrs d) as [|a attrs IH]; [done|]. cbn. by destruct a.
Qed.

(** ** One unit *)

Lemma compdir_encode (t : unit_tree) : compdir_of (encode t) = unit_dir t.
Proof. done. Qed.

Lemma has_name_spec (n : sym_and_name) : has_name n = false <-> unnamed n.
Proof. unfold unnamed. destruct n as [[?|] [?|]]; cbn; naive_solver. Qed.

Section one_unit.
Context (t : unit_tree) (Ht : t ∈ ts) (nss : gmap nat (list str)) (Hnss : subprogram_namespaces (encode t) = Some nss).
Notation scan := (scan_entry (map encode ts) (encode t) nss).

Lemma scan_namespace (anc : list die) (d : die) (st : list frame_state) (out : list found) (f : frame_state) :
  within (ut_dies t) anc d -> default [] (current_namespace st) = enclosing anc ->
  handle_die scan st d = Some (out, f) -> default [] (fs_namespace f) = enclosing (d :: anc).
Proof.
  intros Hw Hst E. destruct Hlay as (H1 & _). destruct (H1 t anc d Ht Hw) as [_ (Hnd & _)]. cbn [enclosing].
  unfold handle_die, scan_entry in E.
  destruct (die_tag d) eqn:Etag.
  1-4: (destruct (inline_attrs _ _ _ _ _ _) as [s|]; [|done]; destruct (inlined_function _ _) as [call|]; [|done];
    match type of E with context [if ?b then ?x else ?y] => destruct (if b then x else y) as [info|] end;
    [|done]; injection E as _ <-; done).
  1-2: (unfold namespace_of in E; rewrite (last_name_first _ Hnd) in E; destruct (name_attr (die_attrs d)) as [n|];
    [destruct (utf8_valid n); [|done]|]; injection E as _ <-; cbn [fs_namespace default]; by rewrite ?Hst).
  all: injection E as _ <-; done.
Qed.

Lemma scan_stack (anc : list die) : forall d st, within (ut_dies t) anc d -> stack_at scan [] anc st ->
  default [] (current_namespace st) = enclosing anc.
Proof.
  induction anc as [|p anc IH]; intros d st Hw Hst; inversion Hst as [|? ? st' out f Hst' Hp]; subst; [done|].
  pose proof (within_up _ _ _ _ Hw) as Hw'. cbn [current_namespace].
  by eapply scan_namespace; [done|eapply IH|exact Hp].
Qed.

(** Symbols. *)
Lemma scan_symbol (anc : list die) (d : die) (st : list frame_state) (out : list found) (f : frame_state)
    (symbol : str) (info : sym_debug) :
  within (ut_dies t) anc d -> default [] (current_namespace st) = enclosing anc ->
  handle_die scan st d = Some (out, f) -> FoundSymbol symbol info ∈ out <-> describes t anc d symbol info.
Proof.
  intros Hw Hst E. destruct Hlay as (H1 & _). destruct (H1 t anc d Ht Hw) as [_ (Hnd & _)].
  unfold handle_die, scan_entry in E.
  assert ((die_tag d = TagSubprogram \/ die_tag d = TagVariable) \/ ~ (die_tag d = TagSubprogram \/ die_tag d = TagVariable)) as [Htag|Htag]
    by (destruct (die_tag d); naive_solver).
  - assert (exists call inf, debug_info (encode t) st (foldl symbol_attr (SymbolScan None None None None None) (die_attrs d)) = Some inf /\
       out = match call with Some f => [FoundInlined f] | None => [] end ++
             match inf with Some (symbol, d) => [FoundSymbol symbol d] | None => [] end) as (call & inf & Einf & ->).
    { destruct Htag as [Htag|Htag]; rewrite Htag in E;
        (destruct (inline_attrs _ _ _ _ _ _) as [s|]; [|done]; destruct (inlined_function _ _) as [call|]; [|done];
         rewrite bool_decide_eq_true_2 in E by (by (left + right));
         destruct (debug_info _ _ _) as [inf|]; [|done]; injection E as <- _; by exists call, inf). }
    clear E. rewrite (symbol_scan_spec _ Hnd) in Einf. unfold debug_info in Einf.
    cbn [ss_name ss_linkage ss_line ss_column ss_file] in Einf. rewrite Hst, compdir_encode in Einf.
    assert (FoundSymbol symbol info ∈ match call with Some f => [FoundInlined f] | None => [] end ++
       match inf with Some (symbol, d) => [FoundSymbol symbol d] | None => [] end <-> inf = Some (symbol, info)) as ->.
    { rewrite elem_of_app. destruct call as [c|], inf as [[sy inf]|]; rewrite ?elem_of_list_singleton, ?elem_of_nil; naive_solver. }
    unfold describes.
    destruct (match name_attr (die_attrs d) with Some n => utf8_valid n | None => true end); [|done].
    assert (decl_file (die_attrs d) = match first_attr (fun a => match a with AtDeclFile f => Some f | _ => None end) (die_attrs d) with
       Some f => f | None => None end) as Hfile.
    { clear -Hnd. unfold decl_file. destruct (decide (4 ∈ omap kind (die_attrs d))) as [Hk|Hk].
      - destruct (one_kind 4 _ Hnd Hk) as (a & Ha & Hka & _ & Hf & Hg).
        destruct a as [| | | |f| | | | | | | |]; try done. rewrite Hf by kinds. rewrite (Hf _ _) by kinds. done.
      - destruct (no_kind 4 _ Hk) as (_ & H2 & _).
        rewrite (H2 _ (fun a => match a with AtDeclFile f => f | _ => None end)) by kinds.
        by rewrite (H2 _ (fun a => match a with AtDeclFile f => Some f | _ => None end)) by kinds. }
    rewrite Hfile.
    destruct (linkage_attr (die_attrs d)) as [l|] eqn:El, (name_attr (die_attrs d)) as [n|] eqn:En, (decl_line (die_attrs d)) as [line|] eqn:Eline,
      (first_attr _ (die_attrs d)) as [[[dir path]|]|] eqn:Efile; try done; injection Einf as <-; destruct info as [a1 a2 a3 a4 a5 a6];
      cbn [sd_compdir sd_directory sd_path sd_line sd_column sd_name]; cbn [fmap option_fmap option_map]; (split;
      [intros [= -> <- <- <- <- <- <-]; split_and!; (done || (by left) || (by right))|
       intros (_ & [Hs|[? Hs]] & [= <-] & <- & [= <- <-] & -> & ->); (injection Hs as <- || done); done]) || naive_solver.
  - split; [|intros (? & _); done]. intros Hin. exfalso.
    destruct (die_tag d) eqn:Etag; try (apply Htag; by (left + right)).
    1,2: (destruct (inline_attrs _ _ _ _ _ _) as [s|]; [|done]; destruct (inlined_function _ _) as [call|]; [|done];
      cbn in E; injection E as <- _; rewrite app_nil_r in Hin; destruct call; [by apply elem_of_list_singleton in Hin|by apply elem_of_nil in Hin]).
    1,2: (destruct (namespace_of _ _) as [ns|]; [|done]; injection E as <- _; by apply elem_of_nil in Hin).
    all: injection E as <- _; by apply elem_of_nil in Hin.
Qed.

(** Frames. *)
Context (Hown : own_references ts).

Lemma scan_inline (anc : list die) (d : die) (st : list frame_state) (s : inline_scan) :
  within (ut_dies t) anc d -> default [] (current_namespace st) = enclosing anc -> code_tag (die_tag d) = true ->
  inline_attrs (map encode ts) (encode t) nss st (die_attrs d) (InlineScan (SymAndName None None) None (no_call (encode t)) None) = Some s ->
  names_of ts t anc d (is_names s) /\ is_call s = call_of t d /\ is_start s = low_pc (die_attrs d) /\
  (forall a, low_pc (die_attrs d) = Some a -> is_low s = Some a).
Proof.
  intros Hw Hst Hc E. destruct Hlay as (H1 & _). destruct (H1 t anc d Ht Hw) as [_ Hun].
  destruct (inline_spec (map encode ts) (encode t) nss st t (die_attrs d) s eq_refl Hun E) as (Hn & Hcall & Hstart & Hlow).
  unfold names_of, call_of. rewrite Hc. split_and!; [|done..]. destruct (origin_attr (die_attrs d)) as [r|] eqn:Er.
  - apply (get_names_spec Hown nss t Ht Hnss 11); [|done]. apply (Hown t anc d r Ht Hw). left.
    unfold origin_attr, first_attr in Er. clear -Er. induction (die_attrs d) as [|a l IH]; [done|].
    destruct a; cbn in Er; try (right; by apply IH). injection Er as ->. left.
  - by rewrite Hst in Hn.
Qed.

Fixpoint frames_ok (anc : list die) (st : list frame_state) : Prop :=
  match anc, st with
  | [], [] => True
  | p :: anc, f :: st => names_of ts t anc p (fs_names f) /\ fs_call f = call_of t p /\ frames_ok anc st
  | _, _ => False
  end.

Lemma scan_frame (anc : list die) (d : die) (st : list frame_state) (out : list found) (f : frame_state) :
  within (ut_dies t) anc d -> default [] (current_namespace st) = enclosing anc ->
  handle_die scan st d = Some (out, f) -> names_of ts t anc d (fs_names f) /\ fs_call f = call_of t d.
Proof.
  intros Hw Hst E. unfold handle_die, scan_entry in E.
  destruct (code_tag (die_tag d)) eqn:Hc.
  - assert (exists s, inline_attrs (map encode ts) (encode t) nss st (die_attrs d)
        (InlineScan (SymAndName None None) None (no_call (encode t)) None) = Some s /\
        f = FrameState (is_names s) None (is_call s)) as (s & Es & ->).
    { destruct (die_tag d); try done; (destruct (inline_attrs _ _ _ _ _ _) as [s|]; [|done]; destruct (inlined_function _ _) as [call|]; [|done];
       match type of E with context [if ?b then ?x else ?y] => destruct (if b then x else y) as [info|] end;
       [|done]; injection E as _ <-; by exists s). }
    destruct (scan_inline anc d st s Hw Hst Hc Es) as (? & ? & _). done.
  - unfold names_of, call_of. rewrite Hc. destruct (die_tag d); try done;
      try (destruct (namespace_of _ _) as [ns|]; [|done]); injection E as _ <-; done.
Qed.

Lemma scan_frames (anc : list die) : forall d st, within (ut_dies t) anc d -> stack_at scan [] anc st -> frames_ok anc st.
Proof.
  induction anc as [|p anc IH]; intros d st Hw Hst; inversion Hst as [|? ? st' out f Hst' Hp]; subst; [done|].
  pose proof (within_up _ _ _ _ Hw) as Hw'. cbn [frames_ok].
  destruct (scan_frame anc p st' out f Hw' (scan_stack _ _ _ Hw' Hst') Hp) as [? ?]. split_and!; [done..|]. by eapply IH.
Qed.

Lemma caller_spec (anc : list die) : forall st call r, frames_ok anc st -> find_caller st call = Some r ->
  forall from call', r = Some (from, call') <-> called_from ts t anc call from call'.
Proof.
  induction anc as [|p anc IH]; intros [|f st] call r Hok E from call'; try done; cbn [find_caller] in E.
  - injection E as <-. split; [done|inversion 1].
  - destruct Hok as (Hn & Hcall & Hok). destruct (has_name (fs_names f)) eqn:Eh.
    + assert (~ unnamed (fs_names f)) as Hnamed by (rewrite <-has_name_spec; by rewrite Eh).
      destruct (match sn_symbol (fs_names f) with Some s => is_look_through s | None => Some false end) as [[]|] eqn:El; [| |done].
      * assert (shim (fs_names f)) as Hshim
          by (destruct (sn_symbol (fs_names f)) as [s|] eqn:Es; [exists s; by rewrite <- look_through_is|done]).
        rewrite Hcall in E. rewrite (IH _ _ _ Hok E). split; [intros H; by eapply called_through|].
        inversion 1 as [? ? ? ? Hn' _ Hns|? ? ? n ? ? Hn' _ H'|? ? ? n ? ? Hn' Hu _]; subst;
          pose proof (names_of_fun t anc p _ _ Ht Hn Hn') as En; subst; done.
      * assert (~ shim (fs_names f)) as Hshim.
        { intros (s & Es & H%look_through_is). rewrite Es in El. rewrite H in El. done. }
        injection E as <-. split; [intros [= <- <-]; by constructor|].
        inversion 1 as [? ? ? ? Hn' _ Hns|? ? ? n ? ? Hn' Hs H'|? ? ? n ? ? Hn' Hu _]; subst;
          pose proof (names_of_fun t anc p _ _ Ht Hn Hn') as En; subst; done.
    + apply has_name_spec in Eh. rewrite (IH _ _ _ Hok E). split; [intros H; by eapply called_above|].
      inversion 1 as [? ? ? ? Hn' Hu Hns|? ? ? n ? ? Hn' (s & Hs & _) H'|? ? ? n ? ? Hn' Hu H']; subst;
        pose proof (names_of_fun t anc p _ _ Ht Hn Hn') as En; subst; try done.
      destruct Eh as [Eh _]. rewrite Eh in Hs. done.
Qed.

Lemma scan_inlined (anc : list die) (d : die) (st : list frame_state) (out : list found) (f : frame_state) (i : inlined) :
  within (ut_dies t) anc d -> stack_at scan [] anc st ->
  handle_die scan st d = Some (out, f) -> FoundInlined i ∈ out <-> inlined_call ts t anc d i.
Proof.
  intros Hw Hst E. pose proof (scan_stack _ _ _ Hw Hst) as Hns. pose proof (scan_frames _ _ _ Hw Hst) as Hok.
  unfold handle_die, scan_entry in E. unfold inlined_call. destruct (code_tag (die_tag d)) eqn:Hc.
  - assert (exists s call inf, inline_attrs (map encode ts) (encode t) nss st (die_attrs d)
        (InlineScan (SymAndName None None) None (no_call (encode t)) None) = Some s /\
        inlined_function st s = Some call /\
        out = match call with Some f => [FoundInlined f] | None => [] end ++
              match inf with Some (symbol, d) => [FoundSymbol symbol d] | None => [] end) as (s & call & inf & Es & Ecall & ->).
    { destruct (die_tag d); try done; (destruct (inline_attrs _ _ _ _ _ _) as [s|]; [|done]; destruct (inlined_function _ _) as [call|] eqn:Ecall; [|done];
       match type of E with context [if ?b then ?x else ?y] => destruct (if b then x else y) as [info|] end;
       [|done]; injection E as <- _; by exists s, call, info). }
    clear E. assert (FoundInlined i ∈ match call with Some f => [FoundInlined f] | None => [] end ++
       match inf with Some (symbol, d) => [FoundSymbol symbol d] | None => [] end <-> call = Some i) as ->.
    { rewrite elem_of_app. destruct call as [c|], inf as [[sy inf]|]; rewrite ?elem_of_list_singleton, ?elem_of_nil; naive_solver. }
    destruct (scan_inline anc d st s Hw Hns Hc Es) as (Hn & Hcall & Hstart & Hlow).
    unfold inlined_function in Ecall. destruct (has_name (is_names s)) eqn:Eh.
    + assert (~ unnamed (is_names s)) as Hnamed by (rewrite <-has_name_spec; by rewrite Eh).
      destruct (low_pc (die_attrs d)) as [a|] eqn:Ea.
      * rewrite Hstart, (Hlow a eq_refl) in Ecall. destruct (Nat.leb_spec a 1) as [Hle|Hgt].
        { injection Ecall as <-. split; [done|]. intros (_ & _ & _ & (b & [= <-] & ? & _) & _). lia. }
        destruct (find_caller st (is_call s)) as [r|] eqn:Er; [|done]. rewrite Hcall in Er.
        pose proof (caller_spec anc st _ r Hok Er) as Hr. destruct r as [[from call']|]; injection Ecall as <-.
        -- split.
           ++ intros [= <-]. cbn [in_to in_bin in_from in_call]. split_and!; [done..| |by apply Hr]. by exists a.
           ++ destruct i as [bin from' to call'']. cbn [in_to in_bin in_from in_call]. intros (_ & Hn' & _ & (b & [= <-] & _ & ->) & Hf).
              apply Hr in Hf as [= <- <-]. by rewrite (names_of_fun t anc d _ _ Ht Hn Hn').
        -- split; [done|]. intros (_ & _ & _ & _ & Hf). by apply Hr in Hf.
      * rewrite Hstart in Ecall. split; [|intros (_ & _ & _ & (b & ? & _) & _); done].
        destruct (is_low s); injection Ecall as <-; done.
    + apply has_name_spec in Eh. injection Ecall as <-. split; [done|]. intros (_ & Hn' & Hu & _).
      by rewrite (names_of_fun t anc d _ _ Ht Hn' Hn) in Hu.
  - split; [|intros (? & _); done]. intros Hin. exfalso.
    destruct (die_tag d); try done;
      try (destruct (namespace_of _ _) as [ns|]; [|done]); injection E as <- _; by apply elem_of_nil in Hin.
Qed.

End one_unit.

Lemma scan_unit_symbols (t : unit_tree) (l : list found) (symbol : str) (info : sym_debug) :
  t ∈ ts -> scan_unit (map encode ts) (encode t) = Some l ->
  FoundSymbol symbol info ∈ l <-> exists anc d, within (ut_dies t) anc d /\ describes t anc d symbol info.
Proof.
  intros Ht E. unfold scan_unit in E. destruct (subprogram_namespaces (encode t)) as [nss|] eqn:Hnss; [|done].
  cbn [un_entries encode] in E. rewrite walk_flatten in E. destruct (visits_spec _ _ _ _ E) as [H1 H2]. split.
  - intros Hin. destruct (H2 _ Hin) as (anc & d & st & os & f & Hw & Hst & He & Hx). exists anc, d. split; [done|].
    by eapply scan_symbol; [| |eapply scan_stack| |].
  - intros (anc & d & Hw & Hd). destruct (H1 _ _ Hw) as (st & os & f & Hst & He & Hx). apply Hx.
    by eapply scan_symbol; [| |eapply scan_stack| |].
Qed.

Lemma scan_unit_inlined (t : unit_tree) (l : list found) (i : inlined) :
  own_references ts -> t ∈ ts -> scan_unit (map encode ts) (encode t) = Some l ->
  FoundInlined i ∈ l <-> exists anc d, within (ut_dies t) anc d /\ inlined_call ts t anc d i.
Proof.
  intros Hown Ht E. unfold scan_unit in E. destruct (subprogram_namespaces (encode t)) as [nss|] eqn:Hnss; [|done].
  cbn [un_entries encode] in E. rewrite walk_flatten in E. destruct (visits_spec _ _ _ _ E) as [H1 H2]. split.
  - intros Hin. destruct (H2 _ Hin) as (anc & d & st & os & f & Hw & Hst & He & Hx). exists anc, d. split; [done|].
    by eapply scan_inlined.
  - intros (anc & d & Hw & Hd). destruct (H1 _ _ Hw) as (st & os & f & Hst & He & Hx). apply Hx.
    by eapply scan_inlined.
Qed.

(** ** The whole binary *)

Lemma artifacts_symbols (l : list found) (symbol : str) (info : sym_debug) :
  ar_symbols (artifacts_of l) !! symbol = Some info -> FoundSymbol symbol info ∈ l.
Proof.
  cbn [artifacts_of ar_symbols]. induction l as [|f l IH] using rev_ind; [cbn [foldl]; by rewrite lookup_empty|].
  rewrite foldl_app. cbn [foldl]. intros E. apply elem_of_app. destruct f as [|s d]; [left; by apply IH|].
  destruct (decide (s = symbol)) as [->|Hne].
  - rewrite lookup_insert in E. injection E as ->. right. left.
  - rewrite lookup_insert_ne in E by done. left. by apply IH.
Qed.

Lemma artifacts_recorded (l : list found) (symbol : str) (info : sym_debug) :
  FoundSymbol symbol info ∈ l -> is_Some (ar_symbols (artifacts_of l) !! symbol).
Proof.
  cbn [artifacts_of ar_symbols]. induction l as [|f l IH] using rev_ind; intros Hin; [by apply elem_of_nil in Hin|].
  rewrite foldl_app. cbn [foldl]. apply elem_of_app in Hin as [Hin|Hin].
  - destruct f as [|s d]; [by apply IH|]. destruct (decide (s = symbol)) as [->|Hne]; [rewrite lookup_insert; by eexists|].
    rewrite lookup_insert_ne by done. by apply IH.
  - apply elem_of_list_singleton in Hin as <-. rewrite lookup_insert. by eexists.
Qed.

Lemma from_dwarf_spec (in_std : str -> bool) (ar : artifacts) :
  from_dwarf in_std (map encode ts) = Some ar ->
  exists l, ar = artifacts_of l /\
  forall x, x ∈ l <-> exists t l', t ∈ ts /\ in_std (unit_dir t) = false /\ scan_unit (map encode ts) (encode t) = Some l' /\ x ∈ l'.
Proof.
  unfold from_dwarf, scan_units. destruct (flat_mapM _ _) as [l|] eqn:E; [|done]. intros [= <-]. exists l. split; [done|].
  destruct (flat_mapM_elem _ _ _ E) as [Hall Hel]. intros x. rewrite Hel. split.
  - intros (u & y & Hu & Ey & Hx). apply elem_of_list_fmap in Hu as (t & -> & Ht). rewrite compdir_encode in Ey.
    destruct (in_std (unit_dir t)) eqn:Es; [injection Ey as <-; by apply elem_of_nil in Hx|].
    by exists t, y.
  - intros (t & l' & Ht & Es & El & Hx). exists (encode t), l'. split_and!; [by apply elem_of_list_fmap_1| |done].
    by rewrite compdir_encode, Es.
Qed.


(** ** Readable units *)

Lemma spec_in (attrs : list attr) (r : die_ref) : specification_attr attrs = Some r -> AtSpecification r ∈ attrs.
Proof.
  unfold specification_attr, first_attr. induction attrs as [|a l IH]; [done|]. destruct a; cbn; try (intros E; right; by apply IH).
  intros [= ->]. left.
Qed.

Lemma linkage_in (attrs : list attr) (s : str) : linkage_attr attrs = Some s -> AtLinkage s ∈ attrs.
Proof.
  unfold linkage_attr, first_attr. induction attrs as [|a l IH]; [done|]. destruct a; cbn; try (intros E; right; by apply IH).
  intros [= ->]. left.
Qed.

Lemma name_in (attrs : list attr) (s : str) : name_attr attrs = Some s -> AtName s ∈ attrs.
Proof.
  unfold name_attr, first_attr. induction attrs as [|a l IH]; [done|]. destruct a; cbn; try (intros E; right; by apply IH).
  intros [= ->]. left.
Qed.

Section readable_unit.
Context (t : unit_tree) (Ht : t ∈ ts) (Hown : own_references ts) (Hread0 : readable ts t).

Lemma Hread (anc : list die) (d : die) : within (ut_dies t) anc d ->
  (forall n, AtName n ∈ die_attrs d -> utf8_valid n = true) /\
  AtDeclFile None ∉ die_attrs d /\ AtCallFile None ∉ die_attrs d /\
  (forall r, AtOrigin r ∈ die_attrs d -> resolved ts 10 t r) /\
  (forall s, AtLinkage s ∈ die_attrs d -> is_Some (is_look_through s)).
Proof.
  intros Hw. destruct (Hread0 anc d Hw) as [Hn H]. split; [|exact H].
  intros n Hin. apply utf8_valid_spec. by apply Hn.
Qed.

Lemma namespace_of_total (parent : option (list str)) (anc : list die) (d : die) :
  within (ut_dies t) anc d -> is_Some (namespace_of parent (die_attrs d)).
Proof.
  intros Hw. destruct Hlay as (H1 & _). destruct (H1 t anc d Ht Hw) as [_ (Hnd & _)].
  unfold namespace_of. rewrite (last_name_first _ Hnd). destruct (name_attr (die_attrs d)) as [n|] eqn:En; [|by eexists].
  destruct (Hread anc d Hw) as (Hn & _). rewrite (Hn n (name_in _ _ En)). by eexists.
Qed.

Lemma namespaces_total : is_Some (subprogram_namespaces (encode t)).
Proof.
  unfold subprogram_namespaces. cbn [un_entries encode]. rewrite walk_flatten.
  destruct (visits_total namespace_entry (ut_dies t) []) as [l ->]; [|by eexists].
  intros anc d st Hw _. unfold handle_die, namespace_entry.
  destruct (die_tag d); try by eexists.
  all: destruct (namespace_of_total (match st with p :: _ => p | [] => None end) anc d Hw) as [ns ->]; by eexists.
Qed.

Lemma names_at_total (nss : gmap nat (list str)) (resolve : die_ref -> option sym_and_name) (o : nat) (attrs : list attr) :
  forall n0, (forall n, AtName n ∈ attrs -> utf8_valid n = true) ->
  (forall r, specification_attr attrs = Some r -> is_Some (resolve r)) -> is_Some (names_at nss resolve o attrs n0).
Proof.
  induction attrs as [|a attrs IH]; intros n0 Hn Hr; [by eexists|].
  assert (forall n, AtName n ∈ attrs -> utf8_valid n = true) as Hn' by (intros n Hin; apply Hn; by right).
  destruct a as [s|s|r|r|f|k|k|f|k|k|lo|fi|]; cbn [names_at]; try (apply IH; [exact Hn'|exact Hr]).
  - rewrite (Hn s (elem_of_list_here _ _)). apply IH; [exact Hn'|exact Hr].
  - by apply Hr.
Qed.

Lemma get_names_total (nss : gmap nat (list str)) (k : nat) : forall r,
  resolved ts k t r -> (exists anc d, points_to ts t r t anc d) -> is_Some (get_names (S k) (map encode ts) (encode t) nss r).
Proof.
  induction k as [|k IH]; intros r Hr (anc & d & Hp).
  all: cbn [get_names]; rewrite (target_found t r anc d Ht Hp); pose proof Hp as (Hw & _);
    rewrite (entry_at_within t anc d Ht Hw); destruct (Hread anc d Hw) as (Hn & _); apply names_at_total; [exact Hn|].
  all: intros r' Er'; inversion Hr as [? ? ? t' anc' d' Hp' Hs|k0 ? ? t' anc' d' r2 Hp' Hs Hr2]; subst;
    destruct (points_to_fun _ _ _ _ _ _ _ _ Ht Hp Hp') as (<- & <- & <-); try congruence.
  assert (r2 = r') as -> by congruence. apply (IH r' Hr2). apply (Hown t anc d r' Ht Hw). right. by apply spec_in.
Qed.

Lemma inline_total (nss : gmap nat (list str)) (st : list frame_state) (anc : list die) (d : die) :
  within (ut_dies t) anc d -> forall s, is_Some (inline_attrs (map encode ts) (encode t) nss st (die_attrs d) s).
Proof.
  intros Hw. destruct (Hread anc d Hw) as (Hn & _ & Hf & Hr & _). pose proof (fun r => Hown t anc d r Ht Hw) as Ho.
  induction (die_attrs d) as [|a attrs IH]; intros s; [by eexists|]. cbn [inline_attrs].
  assert (is_Some (inline_attr (map encode ts) (encode t) nss st s a)) as [s' ->].
  { destruct s as [names low call start]. destruct a as [n|l|r|r|f|k|k|f|k|k|lo|fi|]; cbn [inline_attr]; try by eexists.
    - rewrite (Hn n (elem_of_list_here _ _)). by eexists.
    - destruct (get_names_total nss 10 r) as [names' ->]; [apply Hr; left|apply Ho; left; left|by eexists].
    - destruct f as [[dir file]|]; [by eexists|]. exfalso. apply Hf. left. }
  apply IH.
  - intros n Hin. apply Hn. by right.
  - intros Hin. apply Hf. by right.
  - intros r Hin. apply Hr. by right.
  - intros r [Hin|Hin]; apply Ho; [left|right]; by right.
Qed.

Lemma denotes_symbol (r : die_ref) (n : sym_and_name) (s : str) (t0 : unit_tree) :
  denotes ts t0 r n -> t0 = t -> (exists anc d, points_to ts t r t anc d) -> sn_symbol n = Some s -> is_Some (is_look_through s).
Proof.
  induction 1 as [t0 r t' anc d Hp Hs|t0 r t' anc d r' names Hp Hs Hd IH]; intros -> (anc' & d' & Hp') Hsym.
  - destruct (points_to_fun _ _ _ _ _ _ _ _ Ht Hp Hp') as (-> & -> & ->). destruct Hp' as [Hw _].
    destruct (Hread anc' d' Hw) as (_ & _ & _ & _ & Hl). apply Hl. by apply linkage_in.
  - destruct (points_to_fun _ _ _ _ _ _ _ _ Ht Hp Hp') as (-> & -> & ->). apply IH; [done| |done].
    destruct Hp' as [Hw _]. apply (Hown t anc' d' r' Ht Hw). right. by apply spec_in.
Qed.

Lemma names_symbol (anc : list die) (d : die) (n : sym_and_name) (s : str) :
  within (ut_dies t) anc d -> names_of ts t anc d n -> sn_symbol n = Some s -> is_Some (is_look_through s).
Proof.
  intros Hw. unfold names_of. destruct (code_tag (die_tag d)); [|by intros ->].
  destruct (origin_attr (die_attrs d)) as [r|] eqn:Er.
  - intros Hd Hs. eapply denotes_symbol; [exact Hd|done| |done]. apply (Hown t anc d r Ht Hw). left.
    unfold origin_attr, first_attr in Er. clear -Er. induction (die_attrs d) as [|a l IH]; [done|].
    destruct a; cbn in Er; try (right; by apply IH). injection Er as ->. left.
  - intros -> Hs. destruct (Hread anc d Hw) as (_ & _ & _ & _ & Hl). apply Hl. by apply linkage_in.
Qed.

Lemma caller_total (anc : list die) : forall d st call, within (ut_dies t) anc d -> frames_ok t anc st -> is_Some (find_caller st call).
Proof.
  induction anc as [|p anc IH]; intros d [|f st] call Hw Hok; cbn [find_caller]; [by eexists|by destruct Hok|by destruct Hok|].
  destruct Hok as (Hn & _ & Hok). pose proof (within_up _ _ _ _ Hw) as Hw'.
  destruct (has_name (fs_names f)); [|by eapply IH]. destruct (sn_symbol (fs_names f)) as [s|] eqn:Es; [|by eexists].
  destruct (names_symbol anc p _ s Hw' Hn Es) as [[] ->]; [by eapply IH|by eexists].
Qed.

Lemma scan_unit_total : is_Some (scan_unit (map encode ts) (encode t)).
Proof.
  unfold scan_unit. destruct namespaces_total as [nss Hnss]. rewrite Hnss. cbn [un_entries encode]. rewrite walk_flatten.
  apply visits_total. intros anc d st Hw Hst. pose proof (scan_frames t Ht nss Hnss Hown anc d st Hw Hst) as Hok.
  unfold handle_die, scan_entry.
  assert (is_Some (debug_info (encode t) st (foldl symbol_attr (SymbolScan None None None None None) (die_attrs d)))) as [info Hinfo].
  { destruct Hlay as (H1 & _). destruct (H1 t anc d Ht Hw) as [_ (Hnd & _)]. destruct (Hread anc d Hw) as (Hn & Hf & _).
    rewrite (symbol_scan_spec _ Hnd). unfold debug_info. cbn [ss_name ss_linkage ss_line ss_column ss_file].
    assert (match name_attr (die_attrs d) with Some n => utf8_valid n | None => true end = true) as ->.
    { destruct (name_attr (die_attrs d)) as [n|] eqn:En; [|done]. apply Hn. by apply name_in. }
    destruct (match linkage_attr (die_attrs d) with Some l => Some l | None => name_attr (die_attrs d) end); [|by eexists].
    destruct (decl_line (die_attrs d)); [|by eexists].
    destruct (first_attr _ (die_attrs d)) as [[[dir path]|]|] eqn:Ef; [by eexists| |by eexists].
    exfalso. apply Hf. clear -Ef. unfold first_attr in Ef. induction (die_attrs d) as [|a l IH]; [done|].
    destruct a; cbn in Ef; try (right; by apply IH). injection Ef as ->. left. }
  assert (forall s, is_Some (inlined_function st s)) as Hin.
  { intros s. unfold inlined_function. destruct (has_name (is_names s)); [|by eexists].
    destruct (is_low s) as [low|]; [|by eexists]. destruct (is_start s) as [start|]; [|by eexists].
    destruct (Nat.leb low 1); [by eexists|]. destruct (caller_total anc d st (is_call s) Hw Hok) as [[[from call]|] ->]; by eexists. }
  pose proof (inline_total nss st anc d Hw (InlineScan (SymAndName None None) None (no_call (encode t)) None)) as [s Hs].
  rewrite Hs. destruct (Hin s) as [call Hcall]. rewrite Hcall. rewrite Hinfo.
  destruct (namespace_of_total (current_namespace st) anc d Hw) as [ns Hns]. rewrite Hns.
  destruct (die_tag d); try by eexists.
  all: destruct (bool_decide _); by eexists.
Qed.

End readable_unit.

Lemma from_dwarf_total (in_std : str -> bool) :
  own_references ts -> (forall t, t ∈ ts -> in_std (unit_dir t) = false -> readable ts t) ->
  is_Some (from_dwarf in_std (map encode ts)).
Proof.
  intros Hown Hread. unfold from_dwarf, scan_units.
  destruct (flat_mapM_is_Some (fun u => if in_std (compdir_of u) then Some [] else scan_unit (map encode ts) u) (map encode ts)) as [l ->];
    [|by eexists].
  intros u Hu. apply elem_of_list_fmap in Hu as (t & -> & Ht). rewrite compdir_encode.
  destruct (in_std (unit_dir t)) eqn:Es; [by eexists|]. by apply scan_unit_total; [| |apply Hread].
Qed.

End layout.
