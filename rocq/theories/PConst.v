(** Proofs about creating calibration values, value specifications and constants. *)
From Verif Require Import Base PBase MNum MXml MEnum MRefTab MRef PRef MCodec MElem0 MElem1 MElemA MElemB MElemC MElem2 MElemD MElem3 MElem4 MElemE MElem5 MElemF MArxml MFind MValue MEvent MPort SPort PPort MAccess SAccess PAccess MRunnable SRunnable PRunnable MIface SIface PIface MData SFormat SData PData MConst SConst.
Open Scope list_scope.
Ltac splits := repeat match goal with |- _ /\ _ => split end.

(** ** Arguments *)
Lemma lenient_means {A} (f : arg -> result A) (M : arg -> A -> Prop) a l : (forall l x, ~ M (AList l) x) -> (forall a x, f a = Ok x <-> M a x) ->
  (lenient f a = Ok l <-> means_if_any M a l).
Proof.
  intros NL F. assert (P : forall l r, mapM f l = Ok r <-> Forall2 M l r) by (intros l0 r0; apply mapM_iff; intros; apply F).
  assert (Q : (forall l, a <> AList l) -> (lenient f a = Ok l <-> means_if_any M a l)).
  { intros NA. assert (E : lenient f a = match f a with Ok x => Ok [x] | Err _ => Ok [] end) by (destruct a; try reflexivity; now destruct (NA l0)). rewrite E.
    destruct (f a) as [x|e] eqn:X; split.
    - intros H. injection H as <-. apply any_one. now apply F.
    - intros H. inversion H as [a0 y Y|r ys Y|a0 N1 N2]; subst; [apply F in Y; congruence|now destruct (NA r)|]. destruct (N1 x). now apply F.
    - intros H. injection H as <-. apply any_other; [|exact NA]. intros x Y. apply F in Y. congruence.
    - intros H. inversion H as [a0 y Y|r ys Y|a0 N1 N2]; subst; [apply F in Y; congruence|now destruct (NA r)|reflexivity]. }
  destruct a as [| | | |r| | | | ]; try (apply Q; discriminate). cbn [lenient]. rewrite P. split.
  - apply any_list.
  - intros H. inversion H as [a0 y Y|r0 ys Y|a0 N1 N2]; subst; [now apply NL in Y|exact Y|now destruct (N2 r)].
Qed.
Lemma lenient_iff {A} (f : arg -> result A) (M : arg -> A -> Prop) kw k l : (forall l x, ~ M (AList l) x) -> (forall x, ~ M ANone x) -> (forall a x, f a = Ok x <-> M a x) ->
  (lenient f (kwarg k kw) = Ok l <-> holds_list (means_if_any M) kw k l).
Proof.
  intros NL NN F. unfold holds_list. destruct (given k kw) as [a|] eqn:G.
  - apply given_some in G as [-> N]. now apply lenient_means.
  - apply given_none in G as ->. rewrite (lenient_means f M ANone l NL F). split.
    + intros H. inversion H as [a0 y Y|r ys Y|a0 N1 N2]; subst; [now apply NN in Y|reflexivity].
    + intros ->. apply any_other; [exact NN|discriminate].
Qed.
Lemma number_of_iff a x : number_of a = Ok x <-> means_any_number a x.
Proof.
  split.
  - destruct a as [|b|n| | | | |o| ]; try discriminate; cbn [number_of].
    + intros E. injection E as <-. constructor. destruct b; constructor.
    + intros E. injection E as <-. constructor. constructor.
    + destruct o; try discriminate. intros E. injection E as <-. constructor.
  - intros [b n [m| | ]|v]; reflexivity.
Qed.
Lemma no_number_text s x : number_of (AStr s) <> Ok x.
Proof. discriminate. Qed.
Lemma value_list_iff a l : make_value_list a = Ok (mkValueList l) <-> means_numbers a l.
Proof.
  assert (P : forall l r, mapM number_of l = Ok r <-> Forall2 means_any_number l r) by (intros l0 r0; apply mapM_iff; intros; apply number_of_iff).
  unfold make_value_list. rewrite bind_iff. split.
  - intros (x & E & H). injection H as ->. destruct a as [|b|n|s|r|r|r|o| ]; cbn [iterable] in E; try discriminate.
    + injection E as <-. constructor.
    + cbn in E. injection E as <-. constructor. destruct b; constructor.
    + cbn in E. injection E as <-. constructor. constructor.
    + destruct s as [|c s]; [injection E as <-; constructor|discriminate].
    + apply P in E. now constructor.
    + apply P in E. now constructor.
    + destruct r as [|[k v] r]; [injection E as <-; constructor|discriminate].
    + destruct o; try discriminate. rename e into p. destruct (SwDataDefProps_variants p) eqn:V; [injection E as <-; now constructor|discriminate].
  - intros H. exists l. split; [|reflexivity]. destruct H as [|a n [m| | ]|r ns F|r ns F| | |p E]; try reflexivity; try (now apply P). cbn. now rewrite E.
Qed.
Lemma sw_value_iff a x : sw_value_of a = Ok x <-> means_sw_value a x.
Proof.
  split.
  - destruct a as [|b|n|s| | | |o| ]; try discriminate; cbn [sw_value_of].
    + intros E. injection E as <-. constructor. constructor. destruct b; constructor.
    + intros E. injection E as <-. constructor. constructor. constructor.
    + intros E. injection E as <-. constructor.
    + destruct o; try discriminate; intros E; injection E as <-; constructor. constructor.
  - intros [s|b n [c m [k| | ]|v]|l vs]; reflexivity.
Qed.
Lemma sw_value_list l x : ~ means_sw_value (AList l) x.
Proof. rewrite <- sw_value_iff. discriminate. Qed.
Lemma sw_value_none x : ~ means_sw_value ANone x.
Proof. rewrite <- sw_value_iff. discriminate. Qed.
Lemma sw_values_iff a l : make_sw_values a = Ok (mkSwValues l) <-> means_if_any means_sw_value a l.
Proof.
  unfold make_sw_values. rewrite bind_iff, <- (lenient_means _ _ a l sw_value_list sw_value_iff). split.
  - intros (x & E & H). injection H as ->. exact E.
  - intros E. exists l. split; [exact E|reflexivity].
Qed.
Lemma label_iff kw k v : optional group_label (kwarg k kw) = Ok v <-> holds means_label kw k v.
Proof.
  apply opt_iff. intros a x _. split.
  - destruct a as [| | | | |r| |o| ]; try discriminate.
    + destruct r as [|y r]; [discriminate|]. destruct y as [| | | | | | |o| ]; destruct r as [|y r]; try discriminate; destruct o; try discriminate.
      destruct y; try discriminate; intros E; injection E as <-; constructor.
    + destruct o; try discriminate; intros E; injection E as <-; constructor.
  - intros [l|t|g s r|g r]; reflexivity.
Qed.
Lemma new_group_iff kw label values : new_value_group kw = Ok (label, values) <-> describes_group kw label values.
Proof.
  assert (V : forall l, lenient sw_value_of (kwarg "values" kw) = Ok l <-> holds_list (means_if_any means_sw_value) kw "values" l)
    by (intros l; apply lenient_iff; [apply sw_value_list|apply sw_value_none|apply sw_value_iff]).
  unfold new_value_group, describes_group, make_sw_values. split.
  - intros H. apply bind_iff in H as (u & K & H). apply keywords_iff in K. apply bind_iff in H as (x & E & H). apply bind_iff in E as (y & E & X). injection X as <-. apply V in E.
    apply bind_iff in H as (z & L & H). apply label_iff in L. injection H as <- <-. auto.
  - intros (K & L & E). apply bind_iff. exists tt. split; [now apply keywords_iff|]. apply bind_iff. exists (mkSwValues values). split.
    + apply bind_iff. exists values. split; [now apply V|reflexivity].
    + apply bind_iff. exists label. split; [now apply label_iff|reflexivity].
Qed.
Lemma index_iff kw k v : optional axis_index (kwarg k kw) = Ok v <-> holds means_index kw k v.
Proof.
  apply opt_iff. intros a x _. split.
  - destruct a as [|b|[z|f]|s| | | | | ]; try discriminate; intros E; injection E as <-; [destruct b| |]; constructor.
  - intros [z|s| | ]; reflexivity.
Qed.
Lemma values_iff kw k v : optional (strict sw_values_of) (kwarg k kw) = Ok v <-> holds means_values kw k v.
Proof.
  apply opt_iff. intros a x _. split.
  - destruct a as [| | | | | | |o| ]; try discriminate. destruct o; try discriminate; intros E; injection E as <-; constructor.
  - intros [v0|l vs]; reflexivity.
Qed.
Lemma axis_category_iff kw k v : optional (strict axis_category_of) (kwarg k kw) = Ok v <-> holds (is_a OCalibrationAxisCategory) kw k v.
Proof. apply a_iff; is_pick. Qed.
Lemma display_name_iff kw k v : optional (strict unit_names_of) (kwarg k kw) = Ok v <-> holds (is_a OUnitNames) kw k v.
Proof. apply a_iff; is_pick. Qed.
Lemma array_size_iff kw k v : optional (strict array_size_of) (kwarg k kw) = Ok v <-> holds (is_a OValueList) kw k v.
Proof. apply a_iff; is_pick. Qed.
Lemma value_cont_iff kw k v : optional (strict value_cont_of) (kwarg k kw) = Ok v <-> holds (is_a OSwValueCont) kw k v.
Proof. apply a_iff; is_pick. Qed.
Lemma axes_iff kw k l : one_or_list (strict axis_of) (kwarg k kw) = Ok l <-> holds_list (means_list (is_a OSwAxisCont)) kw k l.
Proof. apply some_iff; is_pick. Qed.
Lemma unit_iff kw k v : opt_ref_strict rc_UnitRef (kwarg k kw) = Ok v <-> holds (of_class "UnitRef") kw k v.
Proof. apply (ref_strict_iff rc_UnitRef). Qed.
Lemma specification_iff a x : strict specification_of a = Ok x <-> means_value_specification a x.
Proof. apply strict_iff; is_pick. Qed.
Lemma own_text_iff kw k v : opt_text_strict (kwarg k kw) = Ok v <-> holds (fun a s => a = AStr s) kw k v.
Proof. apply opt_iff. intros a x _. split; [destruct a; try discriminate; intros E; now injection E as <-|now intros ->]. Qed.

(** ** Constructors *)
Ltac conv_to H := first [apply keywords_iff in H|apply identifiable_iff in H|apply axis_category_iff in H|apply display_name_iff in H|apply array_size_iff in H|apply value_cont_iff in H|
  apply axes_iff in H|apply unit_iff in H|apply index_iff in H|apply values_iff in H|apply own_text_iff in H|apply opt_value_specification_iff in H].
Ltac conv_of := first [apply identifiable_iff|apply axis_category_iff|apply display_name_iff|apply array_size_iff|apply value_cont_iff|
  apply axes_iff|apply unit_iff|apply index_iff|apply values_iff|apply own_text_iff|apply opt_value_specification_iff]; eassumption.
Ltac undo_all := repeat match goal with
  | H : bind _ _ = Ok _ |- _ => let x := fresh "x" in let E := fresh "E" in apply bind_iff in H as (x & E & H); try conv_to E
  | H : Ok _ = Ok _ |- _ => injection H as <-
  end.
Ltac redo_all := repeat (apply bind_iff; first [exists tt; split; [apply keywords_iff; eassumption|]|eexists; split; [conv_of|]]; cbv beta iota).
Lemma new_axis_iff kw c : new_axis_cont kw = Ok c <-> describes_axis kw c.
Proof.
  unfold new_axis_cont, describes_axis. split; [intros H; undo_all; splits; assumption|].
  intros (H1 & H2 & H3 & H4 & H5 & H6 & H7). destruct c. cbn in H2, H3, H4, H5, H6, H7. redo_all. reflexivity.
Qed.
Lemma new_value_cont_iff kw c : new_value_cont kw = Ok c <-> describes_value_cont kw c.
Proof.
  unfold new_value_cont, describes_value_cont. split; [intros H; undo_all; splits; assumption|].
  intros (H1 & H2 & H3 & H4 & H5). destruct c. cbn in H2, H3, H4, H5. redo_all. reflexivity.
Qed.
Lemma new_application_iff label kw e : new_application_value label kw = Ok e <->
  exists category axes value, e = ApplicationValueSpecification label category axes value /\ describes_application kw category axes value.
Proof.
  unfold new_application_value, describes_application. split.
  - intros H. undo_all. do 3 eexists. splits; try reflexivity; assumption.
  - intros (c & a & v & -> & H1 & H2 & H3 & H4). redo_all. reflexivity.
Qed.
Lemma elements_iff a l : lenient (strict specification_of) a = Ok l <-> means_if_any means_value_specification a l.
Proof. apply lenient_means; [intros r x H; discriminate H|exact specification_iff]. Qed.
Lemma new_constant_iff name kw c : new_constant name kw = Ok c <-> describes_constant name kw c.
Proof. unfold new_constant, describes_constant. split; [intros H; undo_all; splits; assumption|]. intros (H1 & H2 & H3). destruct c. cbn in H2, H3. redo_all. reflexivity. Qed.
Lemma constant_reference_iff label a e : new_constant_reference label a = Ok e <-> exists r, e = ConstantReference label r /\ means_constant a r.
Proof.
  assert (D : forall s, ref_default rc_ConstantRef s = Ok (mkRef s IdentifiableSubTypes_CONSTANT_SPECIFICATION)) by reflexivity.
  unfold new_constant_reference. rewrite bind_iff. split.
  - intros (r & E & H). injection H as <-. exists r. split; [reflexivity|].
    assert (G : a <> ANone -> (forall s, a <> AStr s) -> exists x, r = Some x /\ as_ref rc_ConstantRef a = Some x).
    { intros N1 N2. destruct a as [| | |s| | | | | ]; try contradiction; try (now destruct (N2 s)); cbn [as_ref] in E |- *; try discriminate.
      match type of E with match ?t with _ => _ end = _ => destruct t as [x|]; [|discriminate] end. injection E as <-. eauto. }
    destruct a as [| | |s| | | | | ]; try (destruct G as (x & -> & G); [discriminate|discriminate|]; constructor; now apply as_ref_iff in G).
    + injection E as <-. constructor.
    + rewrite D in E. injection E as <-. constructor.
  - intros (r & -> & H). exists r. split; [|reflexivity]. destruct H as [|s|a r H]; [reflexivity|now rewrite D|].
    pose proof H as H'. apply (as_ref_iff rc_ConstantRef) in H. destruct H' as [c r E]. now rewrite H.
Qed.
