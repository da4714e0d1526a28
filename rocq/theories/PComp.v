(** Proofs about creating ports, components and connectors. *)
From Verif Require Import Base PBase MNum MXml MEnum MRefTab MRef PRef MCodec MElem0 MElem1 MElemA MElemB MElemC MElem2 MElemD MElem3 MElem4 MElemE MElem5 MElemF MArxml MFind MValue MEvent MPort SPort PPort MAccess SAccess PAccess MRunnable SRunnable PRunnable MIface SIface PIface MData SFormat SData PData MConst SConst PConst MParts SParts PParts MPoint SPoint PPoint MOccur SOccur POccur MComp SComp.
Open Scope list_scope.
Ltac splits := repeat match goal with |- _ /\ _ => split end.

(** ** Arguments *)
Section OneOrSeveral.
  Context {A : Type} (pick : lib_object -> option A) (make : A -> lib_object).
  Hypothesis pick_make : forall x, pick (make x) = Some x.
  Hypothesis pick_only : forall o x, pick o = Some x -> o = make x.
  Lemma one_or_several_iff kw k l : one_or_several pick (kwarg k kw) = Ok l <-> holds_list (means_one_or_more (is_a make)) kw k l.
  Proof.
    assert (S : forall a x, strict pick a = Ok x <-> is_a make a x) by (intros; now apply strict_iff).
    assert (F : forall i xs, mapM (strict pick) i = Ok xs <-> Forall2 (is_a make) i xs) by (intros; apply mapM_iff; intros; apply S).
    unfold holds_list. destruct (given k kw) as [a|] eqn:G.
    2: { apply given_none in G as ->. cbn. split; [intros H; now injection H as <-|now intros ->]. }
    apply given_some in G as [-> N]. split.
    - destruct a as [| | | |i|i| |o|]; try discriminate; [now elim N|..]; cbn [one_or_several].
      + intros H. apply more_list. now apply F.
      + intros H. apply more_tuple. now apply F.
      + intros H. apply bind_iff in H as (x & E & H). injection H as <-. apply more_one. now apply S.
    - intros [b x H|i xs H|i xs H]; [|now apply F|now apply F]. pose proof H as K. unfold is_a in K. subst b. cbn [one_or_several]. apply bind_iff. exists x. split; [now apply S|reflexivity].
  Qed.
End OneOrSeveral.
Lemma one_or_several_ProvidePortComSpec_iff kw k l : one_or_several ProvidePortComSpec_object (kwarg k kw) = Ok l <-> holds_list (means_one_or_more (is_a OProvidePortComSpec)) kw k l.
Proof. apply one_or_several_iff; is_pick. Qed.
Lemma one_or_several_RequirePortComSpec_iff kw k l : one_or_several RequirePortComSpec_object (kwarg k kw) = Ok l <-> holds_list (means_one_or_more (is_a ORequirePortComSpec)) kw k l.
Proof. apply one_or_several_iff; is_pick. Qed.
Lemma own_PortInterfaceRef_iff kw k v : opt_ref_strict rc_PortInterfaceRef (kwarg k kw) = Ok v <-> holds (of_class "PortInterfaceRef") kw k v.
Proof. apply (ref_strict_iff rc_PortInterfaceRef). Qed.
Lemma own_SwComponentPrototypeRef_iff kw k v : opt_ref_strict rc_SwComponentPrototypeRef (kwarg k kw) = Ok v <-> holds (of_class "SwComponentPrototypeRef") kw k v.
Proof. apply (ref_strict_iff rc_SwComponentPrototypeRef). Qed.
Lemma own_SwComponentTypeRef_iff kw k v : opt_ref_strict rc_SwComponentTypeRef (kwarg k kw) = Ok v <-> holds (of_class "SwComponentTypeRef") kw k v.
Proof. apply (ref_strict_iff rc_SwComponentTypeRef). Qed.
Lemma PortInCompositionTypeInstanceRef_object_iff kw k v : optional (strict PortInCompositionTypeInstanceRef_object) (kwarg k kw) = Ok v <-> holds (is_a OPortInCompositionTypeInstanceRef) kw k v.
Proof. apply a_iff; is_pick. Qed.
Lemma one_or_list_PortPrototype_object_iff kw k l : one_or_list (strict PortPrototype_object) (kwarg k kw) = Ok l <-> holds_list (means_list (is_a OPortPrototype)) kw k l.
Proof. apply some_iff; is_pick. Qed.
Lemma SwcInternalBehavior_object_iff kw k v : optional (strict SwcInternalBehavior_object) (kwarg k kw) = Ok v <-> holds (is_a OSwcInternalBehavior) kw k v.
Proof. apply a_iff; is_pick. Qed.
Lemma SymbolProps_object_iff kw k v : optional (strict SymbolProps_object) (kwarg k kw) = Ok v <-> holds (is_a OSymbolProps) kw k v.
Proof. apply a_iff; is_pick. Qed.
Lemma one_or_list_SwComponentPrototype_object_iff kw k l : one_or_list (strict SwComponentPrototype_object) (kwarg k kw) = Ok l <-> holds_list (means_list (is_a OSwComponentPrototype)) kw k l.
Proof. apply some_iff; is_pick. Qed.
Lemma one_or_list_SwConnector_object_iff kw k l : one_or_list (strict SwConnector_object) (kwarg k kw) = Ok l <-> holds_list (means_list (is_a OSwConnector)) kw k l.
Proof. apply some_iff; is_pick. Qed.
Ltac conv_to H := first [apply keywords_iff in H|apply identifiable_iff in H|apply own_PortInterfaceRef_iff in H|apply one_or_several_ProvidePortComSpec_iff in H|apply opt_bool_iff in H|apply one_or_several_RequirePortComSpec_iff in H|apply own_SwComponentPrototypeRef_iff in H|apply own_PortPrototypeRef_iff in H|apply own_SwComponentTypeRef_iff in H|apply PortInCompositionTypeInstanceRef_object_iff in H|apply one_or_list_PortPrototype_object_iff in H|apply SwcInternalBehavior_object_iff in H|apply SymbolProps_object_iff in H|apply one_or_list_SwComponentPrototype_object_iff in H|apply one_or_list_SwConnector_object_iff in H].
Ltac conv_of := first [apply identifiable_iff|apply own_PortInterfaceRef_iff|apply one_or_several_ProvidePortComSpec_iff|apply opt_bool_iff|apply one_or_several_RequirePortComSpec_iff|apply own_SwComponentPrototypeRef_iff|apply own_PortPrototypeRef_iff|apply own_SwComponentTypeRef_iff|apply PortInCompositionTypeInstanceRef_object_iff|apply one_or_list_PortPrototype_object_iff|apply SwcInternalBehavior_object_iff|apply SymbolProps_object_iff|apply one_or_list_SwComponentPrototype_object_iff|apply one_or_list_SwConnector_object_iff]; eassumption.
Ltac undo_all := repeat match goal with
  | H : bind _ _ = Ok _ |- _ => let x := fresh "x" in let E := fresh "E" in apply bind_iff in H as (x & E & H); try conv_to E
  | H : Ok _ = Ok _ |- _ => injection H as <-
  end.
Ltac redo_all := repeat (apply bind_iff; first [exists tt; split; [apply keywords_iff; eassumption|]|eexists; split; [conv_of|]]; cbv beta iota).

(** ** Ports *)
Lemma init_ProvidePortPrototype_iff name kw x : init_ProvidePortPrototype name kw = Ok x <-> describes_ProvidePortPrototype name kw x.
Proof.
  unfold init_ProvidePortPrototype, describes_ProvidePortPrototype. split; [intros H; undo_all; splits; solve [assumption|reflexivity]|].
  intros (H0 & H1 & H2 & H3). destruct x. cbn in H1, H2, H3. redo_all. reflexivity.
Qed.
Lemma append_ProvidePortPrototype_com_spec_iff x a y : append_ProvidePortPrototype_com_spec x a = Ok y <-> one_more_ProvidePortPrototype_com_spec x a y.
Proof.
  unfold append_ProvidePortPrototype_com_spec, one_more_ProvidePortPrototype_com_spec. assert (F : forall e, strict ProvidePortComSpec_object a = Ok e <-> is_a OProvidePortComSpec a e) by (intros e; apply strict_iff; is_pick). rewrite bind_iff. split.
  - intros (e & E & H). injection H as <-. exists e. split; [now apply F|]. cbn. splits; reflexivity.
  - intros (e & E & H0 & H1 & H2). exists e. split; [now apply F|]. destruct x, y. cbn in *. now subst.
Qed.
Lemma init_RequirePortPrototype_iff name kw x : init_RequirePortPrototype name kw = Ok x <-> describes_RequirePortPrototype name kw x.
Proof.
  unfold init_RequirePortPrototype, describes_RequirePortPrototype. split; [intros H; undo_all; splits; solve [assumption|reflexivity]|].
  intros (H0 & H1 & H2 & H3 & H4). destruct x. cbn in H1, H2, H3, H4. redo_all. reflexivity.
Qed.
Lemma append_RequirePortPrototype_com_spec_iff x a y : append_RequirePortPrototype_com_spec x a = Ok y <-> one_more_RequirePortPrototype_com_spec x a y.
Proof.
  unfold append_RequirePortPrototype_com_spec, one_more_RequirePortPrototype_com_spec. assert (F : forall e, strict RequirePortComSpec_object a = Ok e <-> is_a ORequirePortComSpec a e) by (intros e; apply strict_iff; is_pick). rewrite bind_iff. split.
  - intros (e & E & H). injection H as <-. exists e. split; [now apply F|]. cbn. splits; reflexivity.
  - intros (e & E & H0 & H1 & H2 & H3). exists e. split; [now apply F|]. destruct x, y. cbn in *. now subst.
Qed.

(** ** Components and connectors *)
Lemma init_PortInCompositionTypeInstanceRef_iff kw x : init_PortInCompositionTypeInstanceRef kw = Ok x <-> describes_PortInCompositionTypeInstanceRef kw x.
Proof.
  unfold init_PortInCompositionTypeInstanceRef, describes_PortInCompositionTypeInstanceRef. split; [intros H; undo_all; splits; solve [assumption|reflexivity]|].
  intros (H0 & H1 & H2). destruct x. cbn in H1, H2. redo_all. reflexivity.
Qed.
Lemma init_SwComponentPrototype_iff name kw x : init_SwComponentPrototype name kw = Ok x <-> describes_SwComponentPrototype name kw x.
Proof.
  unfold init_SwComponentPrototype, describes_SwComponentPrototype. split; [intros H; undo_all; splits; solve [assumption|reflexivity]|].
  intros (H0 & H1 & H2). destruct x. cbn in H1, H2. redo_all. reflexivity.
Qed.
Lemma init_AssemblySwConnector_iff name kw x : init_AssemblySwConnector name kw = Ok x <-> describes_AssemblySwConnector name kw x.
Proof.
  unfold init_AssemblySwConnector, describes_AssemblySwConnector. split; [intros H; undo_all; splits; solve [assumption|reflexivity]|].
  intros (H0 & H1 & H2 & H3). destruct x. cbn in H1, H2, H3. redo_all. reflexivity.
Qed.
Lemma init_DelegationSwConnector_iff name kw x : init_DelegationSwConnector name kw = Ok x <-> describes_DelegationSwConnector name kw x.
Proof.
  unfold init_DelegationSwConnector, describes_DelegationSwConnector. split; [intros H; undo_all; splits; solve [assumption|reflexivity]|].
  intros (H0 & H1 & H2 & H3). destruct x. cbn in H1, H2, H3. redo_all. reflexivity.
Qed.
Lemma init_PassThroughSwConnector_iff name kw x : init_PassThroughSwConnector name kw = Ok x <-> describes_PassThroughSwConnector name kw x.
Proof.
  unfold init_PassThroughSwConnector, describes_PassThroughSwConnector. split; [intros H; undo_all; splits; solve [assumption|reflexivity]|].
  intros (H0 & H1 & H2 & H3). destruct x. cbn in H1, H2, H3. redo_all. reflexivity.
Qed.
Lemma init_ApplicationSoftwareComponentType_iff name kw x : init_ApplicationSoftwareComponentType name kw = Ok x <-> describes_ApplicationSoftwareComponentType name kw x.
Proof.
  unfold init_ApplicationSoftwareComponentType, describes_ApplicationSoftwareComponentType. split; [intros H; undo_all; splits; solve [assumption|reflexivity]|].
  intros (H0 & H1 & H2 & H3 & H4). destruct x. cbn in H1, H2, H3, H4. redo_all. reflexivity.
Qed.
Lemma init_CompositionSwComponentType_iff name kw x : init_CompositionSwComponentType name kw = Ok x <-> describes_CompositionSwComponentType name kw x.
Proof.
  unfold init_CompositionSwComponentType, describes_CompositionSwComponentType. split; [intros H; undo_all; splits; solve [assumption|reflexivity]|].
  intros (H0 & H1 & H2 & H3 & H4). destruct x. cbn in H1, H2, H3, H4. redo_all. reflexivity.
Qed.
Lemma append_ApplicationSoftwareComponentType_ports_iff x a y : append_ApplicationSoftwareComponentType_ports x a = Ok y <-> one_more_ApplicationSoftwareComponentType_ports x a y.
Proof.
  unfold append_ApplicationSoftwareComponentType_ports, one_more_ApplicationSoftwareComponentType_ports. assert (F : forall e, strict PortPrototype_object a = Ok e <-> is_a OPortPrototype a e) by (intros e; apply strict_iff; is_pick). rewrite bind_iff. split.
  - intros (e & E & H). injection H as <-. exists e. split; [now apply F|]. cbn. splits; reflexivity.
  - intros (e & E & H0 & H1 & H2 & H3). exists e. split; [now apply F|]. destruct x, y. cbn in *. now subst.
Qed.
Lemma append_CompositionSwComponentType_ports_iff x a y : append_CompositionSwComponentType_ports x a = Ok y <-> one_more_CompositionSwComponentType_ports x a y.
Proof.
  unfold append_CompositionSwComponentType_ports, one_more_CompositionSwComponentType_ports. assert (F : forall e, strict PortPrototype_object a = Ok e <-> is_a OPortPrototype a e) by (intros e; apply strict_iff; is_pick). rewrite bind_iff. split.
  - intros (e & E & H). injection H as <-. exists e. split; [now apply F|]. cbn. splits; reflexivity.
  - intros (e & E & H0 & H1 & H2 & H3). exists e. split; [now apply F|]. destruct x, y. cbn in *. now subst.
Qed.
Lemma append_CompositionSwComponentType_components_iff x a y : append_CompositionSwComponentType_components x a = Ok y <-> one_more_CompositionSwComponentType_components x a y.
Proof.
  unfold append_CompositionSwComponentType_components, one_more_CompositionSwComponentType_components. assert (F : forall e, strict SwComponentPrototype_object a = Ok e <-> is_a OSwComponentPrototype a e) by (intros e; apply strict_iff; is_pick). rewrite bind_iff. split.
  - intros (e & E & H). injection H as <-. exists e. split; [now apply F|]. cbn. splits; reflexivity.
  - intros (e & E & H0 & H1 & H2 & H3). exists e. split; [now apply F|]. destruct x, y. cbn in *. now subst.
Qed.
Lemma append_CompositionSwComponentType_connectors_iff x a y : append_CompositionSwComponentType_connectors x a = Ok y <-> one_more_CompositionSwComponentType_connectors x a y.
Proof.
  unfold append_CompositionSwComponentType_connectors, one_more_CompositionSwComponentType_connectors. assert (F : forall e, strict SwConnector_object a = Ok e <-> is_a OSwConnector a e) by (intros e; apply strict_iff; is_pick). rewrite bind_iff. split.
  - intros (e & E & H). injection H as <-. exists e. split; [now apply F|]. cbn. splits; reflexivity.
  - intros (e & E & H0 & H1 & H2 & H3). exists e. split; [now apply F|]. destruct x, y. cbn in *. now subst.
Qed.

(** ** Ports of both directions *)
Lemma given_kwarg k kw : kwarg k kw <> ANone -> given k kw = Some (kwarg k kw).
Proof. unfold given, kwarg. destruct (assoc k kw) as [x|]; [|congruence]. destruct x; congruence. Qed.
Lemma either_iff a e : either_com_spec a = Ok e <-> is_com_spec a e.
Proof.
  split; [|now intros []]. destruct a as [| | | | | | |o|]; try discriminate. destruct o; try discriminate; cbn; intros H; injection H as <-; constructor.
Qed.
Lemma sides_iff l ps rs : sides l ps rs <-> ps = provided_of l /\ rs = required_of l.
Proof.
  split.
  - induction 1 as [|e l ps rs _ [-> ->]|e l ps rs _ [-> ->]]; split; reflexivity.
  - intros [-> ->]. induction l as [|[e|e] l IH]; constructor; exact IH.
Qed.
Lemma com_specs_iff a l : (exists i, iterable a = Some i /\ mapM either_com_spec i = Ok l) <-> means_com_specs a l.
Proof.
  assert (F : forall i xs, mapM either_com_spec i = Ok xs <-> Forall2 is_com_spec i xs) by (intros; apply mapM_iff; intros; apply either_iff).
  split.
  - intros (i & I & E). destruct a as [|b|n|s|k|k|k|o|]; try discriminate I; cbn in I.
    + injection I as <-. destruct s as [|c s]; [injection E as <-; constructor|discriminate E].
    + injection I as <-. apply F in E. now constructor.
    + injection I as <-. apply F in E. now constructor.
    + injection I as <-. destruct k as [|[k v] r]; [injection E as <-; constructor|discriminate E].
    + destruct o; try discriminate I. injection I as <-. destruct (SwDataDefProps_variants e) as [|c r] eqn:V; [|discriminate E]. injection E as <-. now constructor.
  - intros [i xs H|i xs H| | |p V]; try (exists i; split; [reflexivity|now apply F]).
    + exists []. split; reflexivity.
    + exists []. split; reflexivity.
    + exists []. cbn. rewrite V. split; reflexivity.
Qed.
Lemma provided_iff kw p : provided_argument (kwarg "provided_com_spec" kw) (kwarg "required_com_spec" kw) = Ok p <->
  gives_provided (given "required_com_spec" kw) (given "provided_com_spec" kw) p.
Proof.
  destruct (given "provided_com_spec" kw) as [a|] eqn:G.
  2: { apply given_none in G as ->. cbn. split; [intros H; injection H as <-; constructor|intros H; inversion H; reflexivity]. }
  apply given_some in G as [-> N].
  assert (B : forall b, match kwarg "required_com_spec" kw with AList _ | ATuple _ => match iterable b with Some l => mapM either_com_spec l | None => Err TypeError end | _ => Err TypeError end = Ok p <->
    exists r, given "required_com_spec" kw = Some r /\ is_sequence r /\ means_com_specs b p).
  { intros b. assert (T : match iterable b with Some l => mapM either_com_spec l | None => Err TypeError end = Ok p <-> means_com_specs b p).
    { rewrite <- com_specs_iff. destruct (iterable b) as [i|]; split; [eauto|intros (j & J & E); now injection J as <-|discriminate|now intros (j & J & _)]. }
    split.
    - intros H. exists (kwarg "required_com_spec" kw).
      destruct (kwarg "required_com_spec" kw) as [| | | |l|l| | |] eqn:K; try discriminate H; (splits; [rewrite <- K; apply given_kwarg; rewrite K; discriminate|exists l; auto|now apply T]).
    - intros (r & E & (l & S) & M). apply given_some in E as [-> _]. destruct S as [-> | ->]; now apply T. }
  assert (D : (exists e, a = AObj (OProvidePortComSpec e)) \/
    (provided_argument a (kwarg "required_com_spec" kw) = match kwarg "required_com_spec" kw with AList _ | ATuple _ => match iterable a with Some l => mapM either_com_spec l | None => Err TypeError end | _ => Err TypeError end)).
  { destruct a as [| | | | | | |o|]; try (right; reflexivity); [now elim N|]. destruct o; try (right; reflexivity). left. eauto. }
  destruct D as [[e ->]|D].
  - cbn. split; [intros H; injection H as <-; constructor|]. intros H. inversion H as [|f|r b l E S M]; [reflexivity|inversion M].
  - rewrite D, B. split.
    + intros (r & E & S & M). now apply (gives_more_provided _ r).
    + intros H. inversion H as [|f E|r b l E S M]; [|eauto]. subst. discriminate D || (cbn in D; exfalso; destruct (kwarg "required_com_spec" kw); discriminate D).
Qed.
Lemma required_iff kw r : required_argument (kwarg "required_com_spec" kw) = Ok r <-> gives_required (given "required_com_spec" kw) r.
Proof.
  assert (F : forall i xs, mapM either_com_spec i = Ok xs <-> Forall2 is_com_spec i xs) by (intros; apply mapM_iff; intros; apply either_iff).
  destruct (given "required_com_spec" kw) as [a|] eqn:G.
  2: { apply given_none in G as ->. cbn. split; [intros H; injection H as <-; constructor|intros H; inversion H; reflexivity]. }
  apply given_some in G as [-> N]. split.
  - destruct a as [| | | |l|l| |o|]; try discriminate; [now elim N|..]; cbn.
    + intros H. apply F in H. apply gives_more_required; [exists l; auto|now constructor].
    + intros H. apply F in H. apply gives_more_required; [exists l; auto|now constructor].
    + destruct o; try discriminate. intros H. injection H as <-. constructor.
  - intros H. inversion H as [|e|b l (i & S) M]; [reflexivity|]. subst. destruct S as [-> | ->]; inversion M; subst; now apply F.
Qed.
Lemma init_PRPortPrototype_iff name kw x : init_PRPortPrototype name kw = Ok x <-> describes_PRPortPrototype name kw x.
Proof.
  unfold init_PRPortPrototype, describes_PRPortPrototype. split.
  - intros H. undo_all. splits; try assumption. cbn. match goal with P : provided_argument _ _ = Ok ?p, R : required_argument _ = Ok ?r |- _ => exists p, r; apply provided_iff in P; apply required_iff in R end.
    splits; [assumption|assumption|]. now apply sides_iff.
  - intros (H0 & H1 & H2 & p & r & P & R & S). destruct x. cbn in *. apply sides_iff in S as [-> ->]. redo_all.
    apply bind_iff. exists p. split; [now apply provided_iff|]. apply bind_iff. exists r. split; [now apply required_iff|]. reflexivity.
Qed.
Lemma append_PRPortPrototype_iff x a y : append_PRPortPrototype x a = Ok y <-> one_more_PRPortPrototype x a y.
Proof.
  unfold append_PRPortPrototype, one_more_PRPortPrototype. rewrite bind_iff. split.
  - intros (e & E & H). injection H as <-. apply either_iff in E. cbn. splits; try reflexivity. destruct E; [left|right]; exists e; cbn; now rewrite app_nil_r.
  - intros (I & P & [(e & -> & A & B)|(e & -> & A & B)]); [exists (inl e)|exists (inr e)]; (split; [reflexivity|]); destruct x, y; cbn in *; subst; now rewrite app_nil_r.
Qed.
