(** C71: computation methods, data constraints and base types are what the calls describe, and mean the same
    after saving and loading. *)
From Verif Require Import Base MNum SNum MXml SXml MEnum MRefTab MRef SEnum MCodec SCodec MElem0 MElem1 MElemA MElemB MElemC MElem2 MElemD MElem3 MElem4 MElemE MElem5 MElemF MArxml
  SElem1 SElemA SElem SArxml MFind MValue MEvent MPort MAccess SPort SAccess MPack MMeth SMeth SFit PPort PIface PFit PMeth PXml2 PropsElem.
From Coq Require Import QArith.
Open Scope list_scope.
Open Scope string_scope.
Local Ltac splits := repeat match goal with |- _ /\ _ => split end.

(** ** Creating *)
Lemma named_iff {A} name kw (f : identifiable -> A) a :
  (let* _ := check_keywords identifiable_keywords kw in let* i := MAccess.new_identifiable name kw in Ok (f i)) = Ok a <-> exists i, named name kw i /\ a = f i.
Proof.
  split.
  - intros H. apply bind_iff in H as (u & K & H). apply bind_iff in H as (i & E & H). injection H as <-. apply keywords_iff in K. apply identifiable_iff in E. exists i. split; [split; assumption|reflexivity].
  - intros (i & (K & E) & ->). rewrite (proj2 (keywords_iff identifiable_keywords kw tt) K). cbn [bind]. rewrite (proj2 (identifiable_iff name kw i) E). reflexivity.
Qed.
(** Packages and address methods: named as said, and empty. *)
Theorem C71_package_iff name kw p : new_package name kw = Ok p <-> exists i, named name kw i /\ p = mkPackage i [] [].
Proof. apply named_iff. Qed.
Theorem C71_addr_method_iff name kw a : new_addr_method name kw = Ok a <-> named name kw (SwAddrMethod_ident a).
Proof. unfold new_addr_method. rewrite named_iff. split; [intros (i & H & ->); exact H|]. destruct a as [i]. eauto. Qed.
(** Base types have every given value. *)
Theorem C71_base_type_iff name size max_size encoding alignment order native kw b :
  new_base_type name size max_size encoding alignment order native kw = Ok b <->
  named name kw (SwBaseType_ident b) /\ SwBaseType_size b = size /\ SwBaseType_max_size b = max_size /\ SwBaseType_encoding b = encoding /\
  SwBaseType_alignment b = alignment /\ SwBaseType_byte_order b = order /\ SwBaseType_native_declaration b = native.
Proof.
  unfold new_base_type. rewrite named_iff. split; [intros (i & H & ->); cbn; auto 8|]. destruct b. cbn. intros (H & -> & -> & -> & -> & -> & ->). eauto.
Qed.
(** Computation methods have every given part. *)
Theorem C71_method_iff name i2p p2i unit format kw m : new_compu_method name i2p p2i unit format kw = Ok m <->
  named name kw (CompuMethod_ident m) /\ CompuMethod_int_to_phys m = i2p /\ CompuMethod_phys_to_int m = p2i /\ CompuMethod_unit_ref m = unit /\ CompuMethod_display_format m = format.
Proof. unfold new_compu_method. rewrite named_iff. split; [intros (i & H & ->); cbn; auto 8|]. destruct m. cbn. intros (H & -> & -> & -> & ->). eauto. Qed.
(** make_physical and make_internal: one rule, which has the constraint with every given value and nothing else. *)
Definition has_limits (c : ConstraintBase) (lower upper : option pynum) (scales : option (list ScaleConstraint)) (gradient diff : option pynum) (monotony : option Monotony) (lt ut : IntervalType) : Prop :=
  ConstraintBase_lower_limit c = lower /\ ConstraintBase_upper_limit c = upper /\ ConstraintBase_lower_limit_type c = lt /\ ConstraintBase_upper_limit_type c = ut /\
  ConstraintBase_scale_constrs c = match scales with Some l => l | None => [] end /\
  ConstraintBase_max_gradient c = gradient /\ ConstraintBase_max_diff c = diff /\ ConstraintBase_monotony c = monotony.
Theorem C71_physical_iff name lower upper scales gradient diff monotony unit lt ut kw d :
  make_physical name lower upper scales gradient diff monotony unit lt ut kw = Ok d <->
  named name kw (DataConstraint_ident d) /\ exists c, DataConstraint_rules d = [mkDataConstraintRule None (Some (mkPhysicalConstraint c unit)) None] /\
    has_limits c lower upper scales gradient diff monotony lt ut.
Proof.
  unfold make_physical, new_data_constraint. rewrite named_iff. split.
  - intros (i & H & ->). split; [exact H|]. eexists. split; [reflexivity|]. repeat split.
  - destruct d as [i r]. cbn. intros (H & c & -> & (<- & <- & <- & <- & E & <- & <- & <-)). exists i. split; [exact H|]. unfold new_rule, new_physical_constraint, new_constraint_base.
    rewrite <- E. destruct c. reflexivity.
Qed.
Theorem C71_internal_iff name lower upper scales gradient diff monotony lt ut kw d :
  make_internal name lower upper scales gradient diff monotony lt ut kw = Ok d <->
  named name kw (DataConstraint_ident d) /\ exists c, DataConstraint_rules d = [mkDataConstraintRule (Some (mkInternalConstraint c)) None None] /\
    has_limits c lower upper scales gradient diff monotony lt ut.
Proof.
  unfold make_internal, new_data_constraint. rewrite named_iff. split.
  - intros (i & H & ->). split; [exact H|]. eexists. split; [reflexivity|]. repeat split.
  - destruct d as [i r]. cbn. intros (H & c & -> & (<- & <- & <- & <- & E & <- & <- & <-)). exists i. split; [exact H|]. unfold new_rule, new_internal_constraint, new_constraint_base.
    rewrite <- E. destruct c. reflexivity.
Qed.
Theorem C71_constraint_iff name rules kw d : new_data_constraint name rules kw = Ok d <->
  named name kw (DataConstraint_ident d) /\ DataConstraint_rules d = match rules with Some l => l | None => [] end.
Proof. unfold new_data_constraint. rewrite named_iff. split; [intros (i & H & ->); cbn; auto|]. destruct d. cbn. intros (H & ->). eauto. Qed.

(** Parts: a scale of a constraint accepts exactly the numbers within its limits and keeps label, description and validity; a rule keeps its two
    constraints and its level; a scale of a computation keeps every given value. *)
Theorem C71_scale_accepts label desc lo up validity lt ut n : is_number lo -> is_number up -> is_number n ->
  let s := new_scale_constraint label desc (Some lo) (Some up) validity lt ut in
  (exists b, scale_check s n = Ok b /\ (b = true <-> within lo up lt ut n)) /\
  ScaleConstraint_label s = label /\ ScaleConstraint_desc s = desc /\ ScaleConstraint_validity s = validity.
Proof. intros A B C s. split; [|repeat split]. now apply (scale_check_within s lo up n). Qed.
Theorem C71_rule_parts internal physical level : let r := new_rule internal physical level in
  DataConstraintRule_internal r = internal /\ DataConstraintRule_physical r = physical /\ DataConstraintRule_level r = level.
Proof. repeat split. Qed.
Theorem C71_scale_parts content lo up label symbol desc mask inverse lt ut : let s := new_compu_scale content lo up label symbol desc mask inverse lt ut in
  (forall x, applies_to s x <-> above lo lt x /\ below up ut x) /\ CompuScale_content s = content /\ CompuScale_label s = label /\ CompuScale_symbol s = symbol /\
  CompuScale_desc s = desc /\ CompuScale_mask s = mask /\ default_as_given inverse (CompuScale_inverse_value s).
Proof. intros s. splits; try (intros; reflexivity). destruct inverse as [[o|v]|]; cbn; eauto. Qed.

(** ** What a value table and a rational computation convert *)
(** The number of a text, and only that, is converted to that text; nothing else is converted. *)
Theorem C71_value_table ts def al c : value_table (map TText ts) def al = Ok c ->
  forall x y, converts c x y <-> exists k t, nth_error ts k = Some t /\ (x == inject_Z (Z.of_nat k))%Q /\ y = Text t.
Proof. intros E x y. now apply value_table_converts with (def := def) (al := al). Qed.
Theorem C71_value_table_exists ts def al : exists c, value_table (map TText ts) def al = Ok c.
Proof. unfold value_table. destruct (value_scales_texts al ts 0) as (s & -> & _). eexists. reflexivity. Qed.
(** Tables with ranges: every number of a range, and only those, is converted to the value of the range; the
    default value is the given one.  The call succeeds exactly if every entry has one of the three forms. *)
Theorem C71_table l def al c : value_table l def al = Ok c ->
  (forall x y, converts c x y <-> exists k t lo up v, nth_error l k = Some t /\ entry k t lo up v /\ above (Some lo) IntervalType_CLOSED x /\ below (Some up) IntervalType_CLOSED x /\ stands_for v y) /\
  default_as_given def (Computation_default_value c).
Proof.
  intros E. split; [intros x y; now apply table_converts with (def := def) (al := al)|]. unfold value_table in E. apply bind_iff in E as (s & _ & E). injection E as <-.
  destruct def as [[o|v]|]; cbn; eauto.
Qed.
Theorem C71_table_exists l def al : (exists c, value_table l def al = Ok c) <-> forall k t, nth_error l k = Some t -> exists lo up v, entry k t lo up v.
Proof.
  unfold value_table. pose proof (value_scales_entries al l 0) as V. destruct (value_scales al 0 l) as [s|e]; cbn [bind]; split.
  - intros _ k t T. destruct V as [_ N]. destruct (N k t T) as (lo & up & v & la & _ & _ & H). destruct t as [z|[|a [|b [|w [|? ?]]]]|]; try contradiction; do 3 eexists; constructor.
  - eauto.
  - intros [c C]. discriminate.
  - intros H. destruct V as (k & t & T & B). destruct (H k t T) as (lo & up & v & X). destruct X; contradiction.
Qed.
(** x between the limits is converted to offset + factor * x, and nothing else is. *)
Theorem C71_rational factor offset lo up def lt ut p q : meaning factor = Fin p -> meaning offset = Fin q ->
  forall x y, converts (rational_computation factor offset lo up def lt ut) x y <-> above lo lt x /\ below up ut x /\ exists r, y = Number r /\ (r == q + p * x)%Q.
Proof. intros P Q x y. now apply rational_converts. Qed.

Theorem C71_rational_default factor offset lo up def lt ut : default_as_given def (Computation_default_value (rational_computation factor offset lo up def lt ut)).
Proof. destruct def as [[o|v]|]; cbn; eauto. Qed.

(** ** Saving and loading *)
(** A computation method converts the same values to the same results, in both directions. *)
Theorem C71_same_conversions v e : good_CompuMethod e -> exists e', reloads_as (write_compu_method v) (read_compu_method v) e e' /\
  same_conversions (CompuMethod_int_to_phys e) (CompuMethod_int_to_phys e') /\ same_conversions (CompuMethod_phys_to_int e) (CompuMethod_phys_to_int e').
Proof.
  intros G. destruct (C27_compu_method v e G) as (e' & R & (_ & A & B & _)). exists e'. split; [exact R|]. split; now apply same_conversions_of.
Qed.
(** From the list of texts to the loaded method: the enumeration is intact. *)
Theorem C71_enumeration v name kw ts al i2p m : fit_text name -> fit_keywords v kw -> Forall good_text ts ->
  value_table (map TText ts) None al = Ok i2p -> new_compu_method name (Some i2p) None None None kw = Ok m ->
  exists m' c, reloads_as (write_compu_method v) (read_compu_method v) m m' /\ CompuMethod_int_to_phys m' = Some c /\
    forall x y, converts c x y <-> exists k t, nth_error ts k = Some t /\ (x == inject_Z (Z.of_nat k))%Q /\ y = Text t.
Proof.
  intros N K T V M. assert (G : good_CompuMethod m).
  { unfold new_compu_method in M. apply bind_iff in M as (u & _ & M). apply bind_iff in M as (i & E & M). injection M as <-.
    destruct (ident_fit v name kw N K _ E) as [F _]. unfold good_CompuMethod. cbn. splits; auto.
    unfold value_table in V. apply bind_iff in V as (s & S & V). injection V as <-. split; [exact (value_scales_good _ _ _ _ T S)|exact I]. }
  destruct (C71_same_conversions v m G) as (m' & R & A & _). apply C71_method_iff in M as (_ & M & _). rewrite M in A.
  destruct (CompuMethod_int_to_phys m') as [c|] eqn:C; [|contradiction]. exists m', c. splits; auto. intros x y. rewrite <- (C71_value_table _ _ _ _ V x y). symmetry. apply A.
Qed.
(** The same for a linear conversion with limits. *)
Theorem C71_linear v name kw factor offset lo up lt ut p q m : fit_text name -> fit_keywords v kw ->
  good_number offset -> good_number (NFloat (to_float factor)) -> good_number lo -> good_number up -> meaning factor = Fin p -> meaning offset = Fin q ->
  new_compu_method name (Some (rational_computation factor offset (Some (SNum lo)) (Some (SNum up)) None lt ut)) None None None kw = Ok m ->
  exists m' c, reloads_as (write_compu_method v) (read_compu_method v) m m' /\ CompuMethod_int_to_phys m' = Some c /\
    forall x y, converts c x y <-> above (Some (SNum lo)) lt x /\ below (Some (SNum up)) ut x /\ exists r, y = Number r /\ (r == q + p * x)%Q.
Proof.
  intros N K GO GF GL GU P Q M. assert (G : good_CompuMethod m).
  { unfold new_compu_method in M. apply bind_iff in M as (u & _ & M). apply bind_iff in M as (i & E & M). injection M as <-.
    destruct (ident_fit v name kw N K _ E) as [F _]. unfold good_CompuMethod. cbn. splits; auto.
    unfold good_Computation. cbn. split; [|exact I]. split; [|exact I]. unfold good_CompuScale. cbn. splits; auto. unfold good_CompuRational. cbn. splits; auto. discriminate. }
  destruct (C71_same_conversions v m G) as (m' & R & A & _). apply C71_method_iff in M as (_ & M & _). rewrite M in A.
  destruct (CompuMethod_int_to_phys m') as [c|] eqn:C; [|contradiction]. exists m', c. splits; auto. intros x y. rewrite <- (C71_rational factor offset _ _ None lt ut p q P Q x y). symmetry. apply A.
Qed.
(** Every rule of a data constraint, and every scale of it, accepts the same numbers (or raises the same exception). *)
Definition same_checks (a b : ConstraintBase) : Prop :=
  (forall n, constraint_check a n = constraint_check b n) /\
  Forall2 (fun s t => forall n, scale_check s n = scale_check t n) (ConstraintBase_scale_constrs a) (ConstraintBase_scale_constrs b).
Theorem C71_same_checks v e : good_DataConstraint e -> exists e', reloads_as (write_data_constraint v) (read_data_constraint v) e e' /\
  Forall2 (fun r r' => opt_rel (fun a b => same_checks (InternalConstraint_base a) (InternalConstraint_base b)) (DataConstraintRule_internal r) (DataConstraintRule_internal r') /\
                       opt_rel (fun a b => same_checks (PhysicalConstraint_base a) (PhysicalConstraint_base b)) (DataConstraintRule_physical r) (DataConstraintRule_physical r'))
    (DataConstraint_rules e) (DataConstraint_rules e').
Proof.
  intros G. destruct (C27_data_constraint v e G) as (e' & R & (_ & A)). exists e'. split; [exact R|]. revert A.
  assert (B : forall a b, same_ConstraintBase a b -> same_checks a b).
  { intros a b H. split; [intros n; now apply same_constraint_check|]. destruct H as (_ & _ & _ & _ & F & _). revert F. clear. induction 1; constructor; auto. intros n. now apply same_scale_check. }
  clear R G. induction 1 as [|r r' l l' (H1 & H2 & _) _ IH]; constructor; auto. split.
  - destruct (DataConstraintRule_internal r), (DataConstraintRule_internal r'); cbn in *; auto.
  - destruct (DataConstraintRule_physical r), (DataConstraintRule_physical r'); cbn in *; auto. apply B, H2.
Qed.
(** From the limits given to make_internal to the loaded constraint: it accepts exactly the numbers between them. *)
Theorem C71_limits v name kw lo up lt ut d : fit_text name -> fit_keywords v kw -> good_number lo -> good_number up -> is_number lo -> is_number up ->
  make_internal name (Some lo) (Some up) None None None None lt ut kw = Ok d ->
  exists d' c, reloads_as (write_data_constraint v) (read_data_constraint v) d d' /\
    DataConstraint_rules d' = [mkDataConstraintRule (Some (mkInternalConstraint c)) None None] /\
    forall n, is_number n -> exists b, constraint_check c n = Ok b /\ (b = true <-> within lo up lt ut n).
Proof.
  intros N K GL GU NL NU M. pose proof M as M0. apply C71_internal_iff in M as (_ & c & R & L).
  assert (G : good_DataConstraint d).
  { unfold make_internal, new_data_constraint in M0. apply bind_iff in M0 as (u & _ & M0). apply bind_iff in M0 as (i & E & M0). injection M0 as <-.
    destruct (ident_fit v name kw N K _ E) as [F _]. unfold good_DataConstraint, good_DataConstraintRule, good_InternalConstraint, good_ConstraintBase. cbn.
    splits; auto; try exact I. }
  destruct (C27_data_constraint v d G) as (d' & S & (_ & A)). rewrite R in A. inversion A as [|? r ? l (H1 & H2 & H3) H4 E1 E2]; subst. inversion H4; subst.
  destruct r as [[[c']|] [ph|] [le|]]; cbn in H1, H2, H3; try contradiction; try discriminate. exists d', c'. splits; auto. intros n NN.
  destruct L as (L1 & L2 & L3 & L4 & _). destruct (constraint_check_within c lo up n L1 L2 NL NU NN) as (b & E & B). exists b. rewrite <- (same_constraint_check _ _ n H1), <- L3, <- L4. auto.
Qed.

(** ** Examples *)
Example C71_example_enumeration : exists i2p m, value_table (map TText ["Off"; "On"; "Error"]) None true = Ok i2p /\
  new_compu_method "State" (Some i2p) None None None [("desc", AStr "States"); ("category", AStr "TEXTTABLE")] = Ok m /\
  fit_text "State" /\ fit_keywords 51 [("desc", AStr "States"); ("category", AStr "TEXTTABLE")] /\ Forall good_text ["Off"; "On"; "Error"] /\
  converts i2p (inject_Z 1) (Text "On") /\ ~ converts i2p (inject_Z 3) (Text "On").
Proof.
  do 2 eexists. split; [vm_compute; reflexivity|]. split; [vm_compute; reflexivity|].
  assert (T : forall s, safe_textb s = true -> safe_attrb s = true -> s <> "" -> fit_text s).
  { intros s A B C. split; [split; [exact C|now apply safe_textb_sound]|now apply safe_attrb_sound]. }
  split; [apply T; (reflexivity || discriminate)|]. split.
  { repeat (apply Forall_cons; [split; [apply T; (reflexivity || discriminate)|split; [cbn; intros K; exfalso; intuition discriminate|split; cbn [fst]; discriminate]]|]). apply Forall_nil. }
  split; [repeat constructor; try discriminate; apply safe_textb_sound; reflexivity|]. split.
  - apply (C71_value_table ["Off"; "On"; "Error"] None true); [vm_compute; reflexivity|]. exists 1%nat, "On". repeat split.
  - intros C. apply (C71_value_table ["Off"; "On"; "Error"] None true) in C; [|vm_compute; reflexivity]. destruct C as (k & t & N & X & E). injection E as <-.
    destruct k as [|[|[|[|k]]]]; try discriminate N. discriminate X.
Qed.
Example C71_example_ranges : exists c, value_table [TText "Off"; TTuple [SNum (NInt 5); SNum (NInt 7); SText "On"]; TTuple [SNum (NInt 9); SNum (NInt 1)]] (Some (ConstValue (SText "Bad"))) true = Ok c /\
  converts c (inject_Z 6) (Text "On") /\ converts c (inject_Z 9) (Number (inject_Z 1)) /\ ~ converts c (inject_Z 8) (Text "On").
Proof.
  eexists. split; [vm_compute; reflexivity|]. match goal with |- converts ?c _ _ /\ _ => assert (T : value_table [TText "Off"; TTuple [SNum (NInt 5); SNum (NInt 7); SText "On"]; TTuple [SNum (NInt 9); SNum (NInt 1)]]
    (Some (ConstValue (SText "Bad"))) true = Ok c) by (vm_compute; reflexivity) end.
  apply C71_table in T as [T _]. splits.
  - apply T. exists 1%nat. do 4 eexists. split; [reflexivity|]. split; [constructor|]. splits; try reflexivity; vm_compute; discriminate.
  - apply T. exists 2%nat. do 4 eexists. split; [reflexivity|]. split; [constructor|]. splits; try (vm_compute; discriminate). do 2 eexists. splits; reflexivity.
  - intros C. apply T in C as (k & t & lo & up & v & K & E & A & B & Y). destruct k as [|[|[|[|k]]]]; try discriminate K; injection K as <-; inversion E; subst; cbn in A, B, Y; try discriminate Y.
    + vm_compute in B. congruence.
    + destruct Y as (p & q & _ & _ & Y). discriminate Y.
Qed.
Example C71_example_linear : meaning (NFloat (FFin false 25 (-2))) = Fin (qv false 25 (-2)) /\ good_number (NFloat (to_float (NFloat (FFin false 25 (-2))))) /\
  converts (rational_computation (NFloat (FFin false 25 (-2))) (NInt (-40)) (Some (SNum (NInt 0))) (Some (SNum (NInt 255))) None IntervalType_CLOSED IntervalType_CLOSED) (inject_Z 100) (Number (inject_Z (-15))).
Proof.
  split; [reflexivity|]. split.
  - exists (FFin false 25 (-2)). split; [reflexivity|]. split; [repeat split; discriminate|split; reflexivity].
  - apply (C71_rational _ _ _ _ _ _ _ (qv false 25 (-2)) (inject_Z (-40))); [reflexivity|reflexivity|]. splits; try (vm_compute; discriminate). eexists. split; reflexivity.
Qed.
Example C71_example_limits : exists d, make_internal "Range" (Some (NInt 0)) (Some (NInt 10)) None None None None IntervalType_CLOSED IntervalType_OPEN [] = Ok d /\
  good_number (NInt 0) /\ is_number (NInt 0) /\ within (NInt 0) (NInt 10) IntervalType_CLOSED IntervalType_OPEN (NInt 9) /\ ~ within (NInt 0) (NInt 10) IntervalType_CLOSED IntervalType_OPEN (NInt 10).
Proof.
  eexists. split; [reflexivity|]. split; [exact I|]. split; [discriminate|]. split; [split; [vm_compute; discriminate|vm_compute; reflexivity]|]. intros [_ H]. vm_compute in H. discriminate.
Qed.

Print Assumptions C71_package_iff.
Print Assumptions C71_addr_method_iff.
Print Assumptions C71_base_type_iff.
Print Assumptions C71_method_iff.
Print Assumptions C71_physical_iff.
Print Assumptions C71_internal_iff.
Print Assumptions C71_constraint_iff.
Print Assumptions C71_value_table.
Print Assumptions C71_value_table_exists.
Print Assumptions C71_scale_accepts.
Print Assumptions C71_rule_parts.
Print Assumptions C71_scale_parts.
Print Assumptions C71_table.
Print Assumptions C71_table_exists.
Print Assumptions C71_rational_default.
Print Assumptions C71_rational.
Print Assumptions C71_same_conversions.
Print Assumptions C71_enumeration.
Print Assumptions C71_linear.
Print Assumptions C71_same_checks.
Print Assumptions C71_limits.
