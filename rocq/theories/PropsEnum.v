(** Property theorems about enumerations and references (C20, C21).
    Vocabulary: SEnum.v.  Models: MEnum.v, MRefTab.v (tables), MRef.v. *)
From Verif Require Import Base PBase MEnum PEnum MRefTab MXml SXml MRef SEnum PRef.

(** ** C20 *)

(** Every member of every enumeration with tables has a text. *)
Theorem C20_every_member_has_text : forall A m, In (SomeEnum A m) all_enums -> has_tables (SomeEnum A m) ->
  forall a, exists t, enum_to_xml m a 51 = Ok t.
Proof.
  intros A m I M a. pose proof all_good as G. rewrite Forall_forall in G. specialize (G _ I M).
  destruct (good_write m a G) as (t & o & W & _). exists t. rewrite W.
  assert (K : okv o 51 = true); [|now rewrite K].
  assert (X : Forall (the (fun A m => forall to, em_to m = Some to -> forallb (fun e => okv (vers e) 51) to = true)) all_enums).
  { unfold all_enums.
    repeat (apply Forall_cons; [intros to E; first [discriminate E | injection E as <-; vm_compute; reflexivity]|]). apply Forall_nil. }
  rewrite Forall_forall in X. specialize (X _ I). destruct G as (from & to & F & T & G). specialize (X to T).
  destruct (G a) as (t' & e & N & E & _). rewrite forallb_forall in X. specialize (X e (nth_error_In _ _ N)).
  specialize (W 51%N). unfold enum_to_xml in W. rewrite T, N, entry_value_eq, X in W. destruct (okv o 51); [reflexivity|discriminate].
Qed.

(** Writing and reading a member gives the member back, under every schema version in which it
    can be written. *)
Theorem C20_member_survives : forall A m, In (SomeEnum A m) all_enums -> has_tables (SomeEnum A m) ->
  forall a version t, enum_to_xml m a version = Ok t -> xml_to_enum m t version = Ok a.
Proof.
  intros A m I M a v t. pose proof all_good as G. rewrite Forall_forall in G. specialize (G _ I M).
  destruct (good_write m a G) as (t' & o & W & R). rewrite W. destruct (okv o v) eqn:O; [|discriminate].
  intros E. injection E as <-. now rewrite R, O.
Qed.

(** Different members have different texts. *)
Theorem C20_texts_differ : forall A m, In (SomeEnum A m) all_enums -> has_tables (SomeEnum A m) ->
  forall a b version t, enum_to_xml m a version = Ok t -> enum_to_xml m b version = Ok t -> a = b.
Proof.
  intros A m I M a b v t Ea Eb. apply (C20_member_survives A m I M) in Ea, Eb. congruence.
Qed.

(** Except for the axis categories (which have spelling variants), a text is accepted iff it is
    the text of a member, and then it stands for that member. *)
Theorem C20_accepted_texts : forall A m, In (SomeEnum A m) all_enums -> has_tables (SomeEnum A m) ->
  em_name m <> "CalibrationAxisCategory" ->
  forall text version a, xml_to_enum m text version = Ok a <-> enum_to_xml m a version = Ok text.
Proof.
  intros A m I M NE s v a. split.
  - pose proof all_exact as G. rewrite Forall_forall in G. specialize (G _ I M NE). now apply exact_read.
  - now apply C20_member_survives.
Qed.

(** The axis categories are read from their text with a hyphen or with an underscore. *)
Definition axis_name (a : CalibrationAxisCategory) : string :=
  match a with
  | CalibrationAxisCategory_COM_AXIS => "COM" | CalibrationAxisCategory_CURVE_AXIS => "CURVE"
  | CalibrationAxisCategory_FIX_AXIS => "FIX" | CalibrationAxisCategory_RES_AXIS => "RES"
  | CalibrationAxisCategory_STD_AXIS => "STD"
  end.
Theorem C20_axis_category_texts : forall text version a,
  (xml_to_enum em_CalibrationAxisCategory text version = Ok a <->
   text = (axis_name a ++ "-AXIS")%string \/ text = (axis_name a ++ "_AXIS")%string) /\
  enum_to_xml em_CalibrationAxisCategory a version = Ok (axis_name a ++ "-AXIS")%string.
Proof.
  intros s v a. split; [split|].
  - unfold xml_to_enum. cbn [em_from em_CalibrationAxisCategory]. destruct (assoc s _) as [e|] eqn:E; [|discriminate].
    apply assoc_in in E. repeat (destruct E as [E|E]; [injection E as <- <-; cbn [entry_value]; intros X; injection X as <-; cbn; auto|]).
    destruct E.
  - destruct a; intros [-> | ->]; reflexivity.
  - destruct a; reflexivity.
Qed.

(** Any other text is rejected, never mapped to a member. *)
Theorem C20_unknown_text : forall A m, In (SomeEnum A m) all_enums -> has_tables (SomeEnum A m) ->
  em_name m <> "CalibrationAxisCategory" ->
  forall text version, (forall a, enum_to_xml m a version <> Ok text) ->
  xml_to_enum m text version = Err KeyError \/ xml_to_enum m text version = Err VersionError.
Proof.
  intros A m I M NE s v H. destruct (xml_to_enum m s v) as [a|e] eqn:E.
  - exfalso. apply (H a). now apply (C20_accepted_texts A m I M NE).
  - destruct M as [M _]. unfold xml_to_enum in E. destruct (em_from m) as [tbl|]; [|congruence].
    destruct (assoc s tbl) as [en|]; [|injection E as <-; auto].
    rewrite entry_value_eq in E. destruct (okv (vers en) v); [discriminate|injection E as <-; auto].
Qed.

(** Reading and writing agree on the versions in which a member may be used. *)
Theorem C20_version_gate : forall A m, In (SomeEnum A m) all_enums -> has_tables (SomeEnum A m) ->
  forall a v1 t v2, enum_to_xml m a v1 = Ok t ->
  (enum_to_xml m a v2 = Ok t /\ xml_to_enum m t v2 = Ok a) \/
  (enum_to_xml m a v2 = Err VersionError /\ xml_to_enum m t v2 = Err VersionError).
Proof.
  intros A m I M a v1 t v2. pose proof all_good as G. rewrite Forall_forall in G. specialize (G _ I M).
  destruct (good_write m a G) as (t' & o & W & R). rewrite W. destruct (okv o v1); [|discriminate]. intros E. injection E as <-.
  rewrite W, R. destruct (okv o v2); auto.
Qed.

(** The one gated enumeration: array implementation policies exist in versions 49, 50 and 51. *)
Theorem C20_array_policy_versions : forall a version,
  ((exists t, enum_to_xml em_ArrayImplPolicy a version = Ok t) <-> In version [49; 50; 51]%N) /\
  (~ In version [49; 50; 51]%N -> enum_to_xml em_ArrayImplPolicy a version = Err VersionError).
Proof.
  intros a v.
  assert (H : exists t, enum_to_xml em_ArrayImplPolicy a v = if existsb (N.eqb v) [49; 50; 51]%N then Ok t else Err VersionError).
  { destruct a; eexists; reflexivity. }
  destruct H as (t & H). rewrite H. destruct (existsb (N.eqb v) [49; 50; 51]%N) eqn:E.
  - apply existsb_exists in E as (x & I & E). apply N.eqb_eq in E. subst x. split; [split; eauto|]. intros NI. contradiction.
  - assert (NI : ~ In v [49; 50; 51]%N). { intros I. rewrite (proj2 (existsb_exists _ _)) in E; [discriminate|]. exists v. split; auto. apply N.eqb_refl. }
    split; [|auto]. split; [intros (t' & X); discriminate|contradiction].
Qed.

(** Members of one enumeration have different values, so none is an alias of another. *)
Theorem C20_members_differ : forall A m, In (SomeEnum A m) all_enums -> forall a b, em_value m a = em_value m b -> a = b.
Proof.
  assert (X : Forall (the (fun A m => mapped m \/ forall a b, em_value m a = em_value m b -> a = b)) all_enums).
  { unfold all_enums. repeat (apply Forall_cons; [first [left; split; discriminate | right; let a := fresh in let b := fresh in intros a b; destruct a, b; first [reflexivity|discriminate]]|]).
    apply Forall_nil. }
  intros A m I a b E. rewrite Forall_forall in X. destruct (X _ I) as [M|D]; [|now apply D].
  pose proof all_good as G. rewrite Forall_forall in G. specialize (G _ I M). destruct G as (from & to & F & T & G).
  destruct (G a) as (t & e & N & V & e1 & As & V1 & _), (G b) as (t' & e' & N' & V' & e1' & As' & V1' & _). congruence.
Qed.

(** The enumerations without tables: neither direction ever succeeds. *)
Theorem C20_without_tables : forall A m, In (SomeEnum A m) all_enums -> ~ has_tables (SomeEnum A m) ->
  In (em_name m) ["CallPoint"; "CompuScaleContent"; "ModeAccess"; "PortAccess"; "ReadResult"; "ServiceKind"; "ValueFormat"] /\
  (forall a version, enum_to_xml m a version = Err KeyError) /\ (forall text version, xml_to_enum m text version = Err KeyError).
Proof.
  assert (X : Forall (the (fun A m => ~ (em_from m <> None /\ em_to m <> None) ->
     existsb (String.eqb (em_name m)) ["CallPoint"; "CompuScaleContent"; "ModeAccess"; "PortAccess"; "ReadResult"; "ServiceKind"; "ValueFormat"] = true /\
     (em_from m, em_to m) = (None, None))) all_enums).
  { unfold all_enums. repeat (apply Forall_cons; [intros H; first [exfalso; apply H; split; discriminate | split; vm_compute; reflexivity]|]). apply Forall_nil. }
  intros A m I NM. rewrite Forall_forall in X. destruct (X _ I NM) as [N E]. injection E as E1 E2. split; [|split].
  - apply existsb_exists in N as (x & Ix & Ex). apply String.eqb_eq in Ex. now subst.
  - intros. unfold enum_to_xml. now rewrite E2.
  - intros. unfold xml_to_enum. now rewrite E1.
Qed.

Example C20_nonvacuous : In (SomeEnum _ em_IdentifiableSubTypes) all_enums /\ has_tables (SomeEnum _ em_IdentifiableSubTypes) /\
  enum_to_xml em_IdentifiableSubTypes IdentifiableSubTypes_IMPLEMENTATION_DATA_TYPE 51 = Ok "IMPLEMENTATION-DATA-TYPE" /\
  xml_to_enum em_IdentifiableSubTypes "IMPLEMENTATION_DATA_TYPE" 51 = Err KeyError.
Proof.
  split; [|split; [split; discriminate|split; reflexivity]].
  assert (K : nth_error all_enums 19 = Some (SomeEnum _ em_IdentifiableSubTypes)) by reflexivity. exact (nth_error_In _ _ K).
Qed.

(** ** C21 *)

(** Construction with an explicit destination succeeds iff the class accepts it. *)
Theorem C21_construct : forall c value dest,
  (In dest (rc_accepted c) -> ref_new c value (Some dest) = Ok (mkRef value dest)) /\
  (~ In dest (rc_accepted c) -> ref_new c value (Some dest) = Err ValueError).
Proof.
  intros c v d. rewrite ref_new_some. split; intros H.
  - apply accepts_spec in H. now rewrite H.
  - destruct (accepts c d) eqn:E; [apply accepts_spec in E; contradiction|reflexivity].
Qed.

(** Without a destination it succeeds exactly for the classes with one destination. *)
Theorem C21_construct_without_dest : forall c value, In c all_ref_classes ->
  (forall d, single c d -> ref_new c value None = Ok (mkRef value d) /\ ref_default c value = Ok (mkRef value d)) /\
  (multiple c -> (exists e, ref_new c value None = Err e) /\ exists e, ref_default c value = Err e).
Proof.
  intros c v I. split.
  - intros d S. unfold single in S. assert (A : accepts c d = true) by (apply accepts_spec; rewrite S; now left).
    assert (N : ref_new c v None = Ok (mkRef v d)) by (unfold ref_new; rewrite S; cbn [bind]; now rewrite A).
    split; [exact N|]. unfold ref_default. destruct (rc_default c) as [d'|] eqn:D; [|exact N].
    pose proof (default_single c I d' D) as S'. rewrite S in S'. injection S' as <-. rewrite ref_new_some, A. reflexivity.
  - intros M. unfold multiple in M. assert (N : ref_new c v None = Err TypeError).
    { unfold ref_new. destruct (rc_accepted c) as [|x [|y l]]; cbn in M; try lia. reflexivity. }
    split; [eauto|]. unfold ref_default. destruct (rc_default c) as [d'|] eqn:D; [|eauto].
    rewrite (default_single c I d' D) in M. cbn in M. lia.
Qed.

(** Every class has at least one destination, so exactly one of the two cases above applies. *)
Theorem C21_single_or_multiple : forall c, In c all_ref_classes -> (exists d, single c d) \/ multiple c.
Proof.
  intros c I. pose proof (class_in c I) as C. unfold class_ok in C. rewrite !andb_true_iff in C. destruct C as [[C _] _].
  unfold single, multiple. destruct (rc_accepted c) as [|x [|y l]]; [discriminate|left; eauto|right; cbn; lia].
Qed.

(** Assigning a str. *)
Theorem C21_assign_string : forall c s r, In c all_ref_classes ->
  (check_and_set_reference (RefStr s) c = Ok r <-> exists d, single c d /\ r = mkRef s d).
Proof.
  intros c s r I. unfold check_and_set_reference, single. split.
  - destruct (rc_accepted c) as [|x [|y l]] eqn:E; try discriminate. rewrite ref_new_some.
    destruct (accepts c x); [|discriminate]. intros H. injection H as <-. eauto.
  - intros (d & E & ->). rewrite E. apply (proj1 (C21_construct c s d)). rewrite E. now left.
Qed.

(** Assigning a reference object of any class: it succeeds iff the destination is accepted --
    which is always the case for a reference of the same class -- and keeps address and
    destination; otherwise the attribute is not changed. *)
Theorem C21_assign_reference : forall c c' r, In c all_ref_classes -> In c' all_ref_classes -> valid_ref c' r ->
  (In (rf_dest r) (rc_accepted c) -> check_and_set_reference (RefObj c' r) c = Ok r) /\
  (~ In (rf_dest r) (rc_accepted c) -> check_and_set_reference (RefObj c' r) c = Err TypeError) /\
  (c' = c -> In (rf_dest r) (rc_accepted c)).
Proof.
  intros c c' r I I' V. assert (NE : exists x l, rc_accepted c = x :: l).
  { destruct (C21_single_or_multiple c I) as [(d & S)|M]; unfold single, multiple in *; [eauto|]. destruct (rc_accepted c); cbn in M; [lia|eauto]. }
  destruct NE as (x & l & NE). unfold check_and_set_reference. rewrite NE. split; [|split].
  - rewrite <- NE. intros H. pose proof H as A. apply accepts_spec in A. rewrite A, orb_true_r. rewrite ref_new_some, A. destruct r; reflexivity.
  - rewrite <- NE. intros H. destruct (accepts c (rf_dest r)) eqn:A; [apply accepts_spec in A; contradiction|]. rewrite orb_false_r.
    destruct (String.eqb_spec (rc_name c') (rc_name c)) as [E|]; [|reflexivity].
    exfalso. apply H. rewrite <- (class_name_inj c' c I' I E). exact V.
  - rewrite <- NE. intros <-. exact V.
Qed.

(** Whatever way a reference comes into being, its destination is accepted by its class. *)
Theorem C21_always_valid : forall c r,
  (exists value dest, ref_new c value dest = Ok r) \/ (exists value, ref_default c value = Ok r) \/
  (exists a, check_and_set_reference a c = Ok r) \/ (exists version x, read_ref c version x = Ok r) ->
  valid_ref c r.
Proof.
  assert (N : forall c v d r, ref_new c v d = Ok r -> valid_ref c r).
  { intros c v d r H. unfold ref_new in H. destruct (match d with Some d => Ok d | None => _ end) as [x|]; [|discriminate]. cbn [bind] in H.
    destruct (accepts c x) eqn:A; [|discriminate]. injection H as <-. now apply accepts_spec. }
  intros c r [(v & d & H)|[(v & H)|[(a & H)|(version & x & H)]]]; eauto.
  - unfold check_and_set_reference in H. destruct (rc_accepted c) as [|y l]; [discriminate|].
    destruct a as [s|c' r'|]; [destruct l; [eauto|discriminate]|destruct (_ || _); [eauto|discriminate]|discriminate].
  - unfold read_ref in H. destruct (assoc _ _); [|discriminate]. destruct (rc_reader c) as [t| |]; [destruct (String.eqb _ _); [unfold ref_default in H; eauto|discriminate]| |discriminate].
    destruct (xml_to_enum _ _ _); [cbn [bind] in H; eauto|discriminate].
Qed.

(** Writing a reference and reading it back gives the same reference, for every class the
    reader knows and every schema version. *)
Theorem C21_round_trip : forall c, In c all_ref_classes -> rc_reader c <> NoReader ->
  forall version tag r step depth, valid_ref c r ->
  exists w, write_ref tag r = Ok [w] /\ read_ref c version (element step depth w) = Ok r.
Proof. exact ref_round_trip. Qed.

(** Two classes have no reader. *)
Theorem C21_classes_without_reader : forall c, In c all_ref_classes -> rc_reader c = NoReader ->
  c = rc_PackageRef \/ c = rc_SwcImplementationRef.
Proof.
  intros c I H. assert (X : Forall (fun c => rc_reader c = NoReader -> c = rc_PackageRef \/ c = rc_SwcImplementationRef) all_ref_classes).
  { unfold all_ref_classes. repeat (apply Forall_cons; [intros E; first [discriminate E|auto]|]). apply Forall_nil. }
  rewrite Forall_forall in X. auto.
Qed.

Example C21_nonvacuous : In rc_PortInterfaceRef all_ref_classes /\ multiple rc_PortInterfaceRef /\
  valid_ref rc_PortInterfaceRef (mkRef "/If/Speed" IdentifiableSubTypes_SENDER_RECEIVER_INTERFACE) /\
  single rc_UnitRef IdentifiableSubTypes_UNIT.
Proof.
  repeat split; try (unfold multiple; cbn; lia); [|unfold valid_ref; cbn; tauto].
  assert (K : existsb (fun c => String.eqb (rc_name c) "PortInterfaceRef") all_ref_classes = true) by reflexivity.
  apply existsb_exists in K as (c & I & E). apply String.eqb_eq in E.
  assert (X : Forall (fun c => rc_name c = "PortInterfaceRef" -> c = rc_PortInterfaceRef) all_ref_classes).
  { unfold all_ref_classes. repeat (apply Forall_cons; [intros N; first [discriminate N|reflexivity]|]). apply Forall_nil. }
  rewrite Forall_forall in X. now rewrite <- (X c I E).
Qed.

Print Assumptions C20_every_member_has_text.
Print Assumptions C20_member_survives.
Print Assumptions C20_texts_differ.
Print Assumptions C20_accepted_texts.
Print Assumptions C20_axis_category_texts.
Print Assumptions C20_unknown_text.
Print Assumptions C20_version_gate.
Print Assumptions C20_array_policy_versions.
Print Assumptions C20_members_differ.
Print Assumptions C20_without_tables.
Print Assumptions C21_construct.
Print Assumptions C21_construct_without_dest.
Print Assumptions C21_single_or_multiple.
Print Assumptions C21_assign_string.
Print Assumptions C21_assign_reference.
Print Assumptions C21_always_valid.
Print Assumptions C21_round_trip.
Print Assumptions C21_classes_without_reader.
