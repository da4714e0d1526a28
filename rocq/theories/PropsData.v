(** Data definition properties, data types, mapping sets and units are what the calls describe: C53. *)
From Verif Require Import Base PBase MNum MXml MEnum MRefTab MRef PRef MCodec MElem0 MElem1 MElemA MElemB MElemC MElem2 MElemD MElem3 MElem4 MElemE MElem5 MElemF MArxml MFind MValue MEvent MPort SPort PPort MAccess SAccess PAccess MRunnable SRunnable PRunnable MIface SIface PIface SFormat PropsFormat MData SData PData.
Open Scope list_scope.

(** ** Data definition properties *)
Theorem C53_bits_iff kw b : new_bit_representation kw = Ok b <-> describes_bits kw b.
Proof. apply new_bits_iff. Qed.
Theorem C53_text_props_iff kw t : new_text_props kw = Ok t <-> describes_text_props kw t.
Proof. apply new_text_props_iff. Qed.
Theorem C53_pointer_iff kw p : new_pointer_target_props kw = Ok p <-> describes_pointer kw p.
Proof. apply new_pointer_iff. Qed.
Theorem C53_conditional_iff kw c : new_conditional kw = Ok c <-> describes_conditional kw c.
Proof. apply new_conditional_iff. Qed.
Theorem C53_props_iff a p : new_props a = Ok p <->
  (a = ANone /\ SwDataDefProps_variants p = []) \/ means_list (is_a OSwDataDefPropsConditional) a (SwDataDefProps_variants p).
Proof. apply new_props_iff. Qed.
Theorem C53_append_variant_iff p a p' : append_variant p a = Ok p' <->
  exists c, a = AObj (OSwDataDefPropsConditional c) /\ SwDataDefProps_variants p' = SwDataDefProps_variants p ++ [c].
Proof.
  unfold append_variant. split.
  - intros H. apply bind_iff in H as (c & E & H). apply (strict_iff conditional_of OSwDataDefPropsConditional) in E; [|is_pick ..]. injection H as <-. eauto.
  - intros (c & -> & E). destruct p' as [l]. cbn in E. subst l. reflexivity.
Qed.
(** props[i]: the i-th variant, from the end for negative numbers, else IndexError. *)
Theorem C53_variant_at p i c : let n := Z.of_nat (List.length (SwDataDefProps_variants p)) in
  variant_at p i = Ok c <-> exists before after, SwDataDefProps_variants p = before ++ c :: after /\
    (Z.of_nat (List.length before) = i \/ Z.of_nat (List.length before) = i + n)%Z.
Proof.
  cbv zeta. set (l := SwDataDefProps_variants p). assert (V : variant_at p i = let j := if (i <? 0)%Z then (i + Z.of_nat (List.length l))%Z else i in
    if (j <? 0)%Z then Err IndexError else match nth_error l (Z.to_nat j) with Some c => Ok c | None => Err IndexError end) by reflexivity. rewrite V. clear V. cbv zeta.
  set (j := if (i <? 0)%Z then (i + Z.of_nat (List.length l))%Z else i). split.
  - destruct (j <? 0)%Z eqn:J; [discriminate|]. apply Z.ltb_ge in J. destruct (nth_error l (Z.to_nat j)) as [d|] eqn:N; [|discriminate]. intros E. injection E as <-.
    apply nth_error_split in N as (a & b & E & L). exists a, b. split; [exact E|]. rewrite L, Z2Nat.id by exact J. unfold j. destruct (i <? 0)%Z; auto.
  - intros (a & b & E & L). assert (K : (Z.of_nat (List.length a) < Z.of_nat (List.length l))%Z) by (rewrite E, app_length; cbn; lia).
    assert (j = Z.of_nat (List.length a)) as ->. { unfold j. destruct (i <? 0)%Z eqn:I; [apply Z.ltb_lt in I|apply Z.ltb_ge in I]; lia. }
    rewrite (proj2 (Z.ltb_ge _ _)) by lia. rewrite Nat2Z.id, E, nth_error_app2, Nat.sub_diag by lia. reflexivity.
Qed.
Theorem C53_variant_missing p i : variant_at p i = Err IndexError <->
  (i < - Z.of_nat (List.length (SwDataDefProps_variants p)) \/ Z.of_nat (List.length (SwDataDefProps_variants p)) <= i)%Z.
Proof.
  unfold variant_at. cbv zeta. set (l := SwDataDefProps_variants p). destruct (i <? 0)%Z eqn:I; [apply Z.ltb_lt in I|apply Z.ltb_ge in I].
  - destruct (i + Z.of_nat (List.length l) <? 0)%Z eqn:J; [apply Z.ltb_lt in J; split; [lia|reflexivity]|]. apply Z.ltb_ge in J.
    destruct (nth_error l _) eqn:N; [split; [discriminate|lia]|]. apply nth_error_None in N. lia.
  - rewrite (proj2 (Z.ltb_ge _ _)) by exact I. destruct (nth_error l (Z.to_nat i)) eqn:N; split; try discriminate; try reflexivity.
    + intros H. assert (B : nth_error l (Z.to_nat i) <> None) by congruence. apply nth_error_Some in B. lia.
    + apply nth_error_None in N. lia.
Qed.
(** ** Data types *)
Theorem C53_symbol_iff name kw s : new_symbol_props name kw = Ok s <-> describes_symbol name kw s.
Proof. apply new_symbol_iff. Qed.
Theorem C53_type_element_iff name kw e : new_type_element name kw = Ok e <-> describes_type_element name kw e.
Proof. apply new_type_element_iff. Qed.
Theorem C53_implementation_type_iff name kw t : new_implementation_type name kw = Ok t <-> describes_implementation_type name kw t.
Proof. apply new_implementation_type_iff. Qed.
Theorem C53_primitive_iff name kw t : new_primitive_type name kw = Ok t <-> describes_primitive name kw t.
Proof. apply new_primitive_iff. Qed.
Theorem C53_array_element_iff name kw e : new_array_element name kw = Ok e <-> describes_array_element name kw e.
Proof. apply new_array_element_iff. Qed.
Theorem C53_array_iff name kw t : new_array_type name kw = Ok t <-> describes_array name kw t.
Proof. apply new_array_iff. Qed.
Theorem C53_record_element_iff name kw e : new_record_element name kw = Ok e <-> describes_record_element name kw e.
Proof. apply new_record_element_iff. Qed.
Theorem C53_record_iff name kw t : new_record_type name kw = Ok t <-> describes_record name kw t.
Proof. apply new_record_iff. Qed.
Theorem C53_mapping_set_iff name kw s : new_mapping_set name kw = Ok s <-> describes_mapping_set name kw s.
Proof. apply new_mapping_set_iff. Qed.
(** ** Adding elements *)
Theorem C53_append_to_type_iff t a t' r : append_to_type t a = Ok (t', r) <->
  exists e, a = AObj (OImplementationDataTypeElement e) /\ type_with t e t' /\ r = None.
Proof.
  unfold append_to_type. split.
  - intros H. apply bind_iff in H as (e & E & H). apply (strict_iff type_element_of OImplementationDataTypeElement) in E; [|is_pick ..]. injection H as <- <-. exists e. unfold type_with. cbn. auto 10.
  - intros (e & -> & (E1 & E2 & E3 & E4 & E5 & E6 & E7) & ->). destruct t'. cbn in *. now subst.
Qed.
Theorem C53_append_to_element_iff t a t' r : append_to_element t a = Ok (t', r) <->
  exists e, a = AObj (OImplementationDataTypeElement e) /\ element_with t e t' /\ r = None.
Proof.
  unfold append_to_element. split.
  - intros H. apply bind_iff in H as (e & E & H). apply (strict_iff type_element_of OImplementationDataTypeElement) in E; [|is_pick ..]. injection H as <- <-. exists e. unfold element_with. cbn. auto 12.
  - intros (e & -> & (E1 & E2 & E3 & E4 & E5 & E6 & E7 & E8) & ->). destruct t'. cbn in *. now subst.
Qed.
Theorem C53_append_to_record_iff t a t' r : append_to_record t a = Ok (t', r) <->
  exists e, a = AObj (OApplicationRecordElement e) /\ record_with t [e] t' /\ r = None.
Proof.
  unfold append_to_record. split.
  - intros H. apply bind_iff in H as (e & E & H). apply (strict_iff record_element_of OApplicationRecordElement) in E; [|is_pick ..]. injection H as <- <-. exists e. unfold record_with. cbn. auto.
  - intros (e & -> & (E1 & E2 & E3) & ->). destruct t'. cbn in *. now subst.
Qed.
(** extend adds all elements; if something else is in the list, those in front of it stay added. *)
Theorem C53_extend_iff t l t' u : extend_record t l = (t', u) <->
  exists es, record_with t es t' /\
    ((l = map (fun e => AObj (OApplicationRecordElement e)) es /\ u = Ok tt) \/
     (exists a rest, l = map (fun e => AObj (OApplicationRecordElement e)) es ++ a :: rest /\ (forall e, a <> AObj (OApplicationRecordElement e)) /\ u = Err TypeError)).
Proof.
  assert (Wrong : forall t a, (forall e, a <> AObj (OApplicationRecordElement e)) -> append_to_record t a = Err TypeError).
  { intros t0 a N. unfold append_to_record. destruct a; try reflexivity. destruct o; try reflexivity. now destruct (N e). }
  assert (Pick : forall a, (exists e, a = AObj (OApplicationRecordElement e)) \/ (forall e, a <> AObj (OApplicationRecordElement e))).
  { intros [| | | | | | |o| ]; try (right; intros; discriminate). destruct o; try (right; intros; discriminate). left. eauto. }
  assert (Same : forall t0 t1, record_with t0 [] t1 <-> t1 = t0).
  { intros [i p es] [i1 p1 es1]. unfold record_with. cbn. rewrite app_nil_r. split; [intros (-> & -> & ->); reflexivity|intros E; injection E as -> -> ->; auto]. }
  assert (Next : forall t0 e es t1, record_with t0 (e :: es) t1 <->
    record_with (mkApplicationRecordDataType (ApplicationRecordDataType_ident t0) (ApplicationRecordDataType_sw_data_def_props t0) (ApplicationRecordDataType_elements t0 ++ [e])) es t1).
  { intros. unfold record_with. cbn. rewrite <- app_assoc. reflexivity. }
  revert t. induction l as [|a l IH]; intros t; cbn [extend_record].
  - split.
    + intros E. injection E as <- <-. exists []. split; [now apply Same|]. left. auto.
    + intros (es & W & [[E ->]|(b & rest & E & _)]); destruct es; try discriminate. apply Same in W as ->. reflexivity.
  - destruct (Pick a) as [[e ->]|N].
    + cbn [append_to_record strict record_element_of bind]. rewrite IH. split.
      * intros (es & W & C). exists (e :: es). split; [now apply Next|]. cbn. destruct C as [[-> ->]|(b & rest & -> & NB & ->)]; [left; auto|right; eauto].
      * intros (es & W & C). destruct es as [|e' es].
        -- destruct C as [[E _]|(b & rest & E & NB & _)]; [discriminate|]. cbn in E. injection E as <- _. now destruct (NB e).
        -- destruct C as [[E ->]|(b & rest & E & NB & ->)]; cbn in E; injection E as <- ->; exists es; (split; [now apply Next|]); [left|right]; eauto.
    + rewrite (Wrong t a N). split.
      * intros E. injection E as <- <-. exists []. split; [now apply Same|]. right. exists a, l. auto.
      * intros (es & W & C). destruct es as [|e' es].
        -- apply Same in W as ->. destruct C as [[E _]|(b & rest & E & NB & ->)]; [discriminate|reflexivity].
        -- destruct C as [[E _]|(b & rest & E & _)]; cbn in E; injection E as E _; now destruct (N e').
Qed.
Theorem C53_append_map_iff s a s' : append_map s a = Ok s' <->
  exists m, a = AObj (ODataTypeMap m) /\ DataTypeMappingSet_data_type_maps s' = DataTypeMappingSet_data_type_maps s ++ [m] /\ DataTypeMappingSet_ident s' = DataTypeMappingSet_ident s.
Proof.
  unfold append_map. split.
  - intros H. apply bind_iff in H as (e & E & H). apply (strict_iff type_map_of ODataTypeMap) in E; [|is_pick ..]. injection H as <-. exists e. auto.
  - intros (e & -> & E1 & E2). destruct s'. cbn in *. now subst.
Qed.
(** Elements that were added to a type have no reference. *)
Theorem C53_element_reference_refuted : exists t a t' e, new_record_type "Rec" [] = Ok t /\ a = AObj (OApplicationRecordElement e) /\
  append_to_record t a = Ok (t', None) /\ ApplicationRecordDataType_elements t' = [e].
Proof.
  eexists. exists (AObj (OApplicationRecordElement (mkApplicationRecordElement (mkIdent "X" None None None None None None None) None None None))).
  do 2 eexists. splits; reflexivity.
Qed.
(** Elements of a record in a tuple are left out without an error. *)
Theorem C53_record_tuple_refuted name e : exists t, new_record_type name [("elements", ATuple [AObj (OApplicationRecordElement e)])] = Ok t /\
  ApplicationRecordDataType_elements t = [].
Proof. eexists. split; reflexivity. Qed.

(** ** Units *)
(** As described, unless the physical dimension is given as a text. *)
Theorem C53_unit_iff_partial name kw : (forall s, given "physical_dimension_ref" kw <> Some (AStr s)) ->
  forall u, (exists m, new_unit name kw = Ok m /\ unit_of m = Some u) <-> describes_unit name kw u.
Proof.
  intros NT u. set (Dim := fun a r => of_class "PhysicalDimensionRef" a r \/ exists s, a = AStr s /\ r = mkRef s IdentifiableSubTypes_PHYSICAL_DIMENSION).
  assert (D : forall v, optional (dimension_of (kwarg "display_name" kw)) (kwarg "physical_dimension_ref" kw) = Ok v <->
                exists r, v = option_map DimRef r /\ holds Dim kw "physical_dimension_ref" r).
  { intros v. unfold holds. destruct (given "physical_dimension_ref" kw) as [a|] eqn:G.
    - apply given_some in G as [-> N]. replace (optional (dimension_of (kwarg "display_name" kw)) a) with (let* r := match as_ref rc_PhysicalDimensionRef a with Some r => Ok (DimRef r) | None => Err TypeError end in Ok (Some r)).
      2: { destruct a; try reflexivity; [contradiction|now destruct (NT s)]. }
      destruct (as_ref rc_PhysicalDimensionRef a) as [r|] eqn:As.
      + apply as_ref_iff in As. cbn [bind]. split.
        * intros E. injection E as <-. exists (Some r). split; [reflexivity|]. now left.
        * intros ([r'|] & -> & H); [|contradiction]. destruct H as [H|(s & -> & _)]; [|now destruct (NT s)]. destruct As as [c r0 _]. inversion H. now subst.
      + cbn [bind]. split; [discriminate|]. intros ([r'|] & -> & H); [|contradiction]. exfalso. destruct H as [H|(s & -> & _)]; [|now destruct (NT s)].
        apply (as_ref_iff rc_PhysicalDimensionRef) in H. congruence.
    - apply given_none in G as ->. cbn. split; [intros E; injection E as <-; now exists None|]. intros ([r|] & -> & H); [contradiction|reflexivity]. }
  unfold describes_unit, new_unit. fold Dim. split.
  - intros (m & H & U). apply bind_iff in H as (x & K & H). apply keywords_iff in K. apply bind_iff in H as (i & I & H). apply identifiable_iff in I.
    apply bind_iff in H as (n & En & H). apply unit_names_iff in En. apply bind_iff in H as (d & Ed & H). apply D in Ed as (r & -> & Hr).
    apply bind_iff in H as (f & Ef & H). apply opt_float_iff in Ef. apply bind_iff in H as (o & Eo & H). apply opt_float_iff in Eo. injection H as <-.
    destruct r as [r|]; cbn in U; injection U as <-; splits; assumption.
  - intros (K & I & En & Hr & Ef & Eo). destruct u as [i n r f o]. cbn in *. exists (mkMadeUnit i n (option_map DimRef r) f o). split; [|now destruct r].
    apply bind_iff. exists tt. split; [now apply keywords_iff|]. apply bind_iff. exists i. split; [now apply identifiable_iff|]. apply bind_iff. exists n. split; [now apply unit_names_iff|].
    apply bind_iff. exists (option_map DimRef r). split; [apply D; eauto|]. apply bind_iff. exists f. split; [now apply opt_float_iff|]. apply bind_iff. exists o. split; [now apply opt_float_iff|]. reflexivity.
Qed.
(** A text for the physical dimension is not used: the reference is made from the display name. *)
Theorem C53_unit_dimension_text name kw s u : given "physical_dimension_ref" kw = Some (AStr s) -> new_unit name kw = Ok u ->
  mu_dimension u = Some (DimOf (kwarg "display_name" kw)).
Proof.
  intros G H. apply given_some in G as [G _]. unfold new_unit in H. rewrite G in H. apply bind_iff in H as (x & _ & H). apply bind_iff in H as (i & _ & H). apply bind_iff in H as (n & _ & H).
  cbn [optional dimension_of bind] in H. apply bind_iff in H as (f & _ & H). apply bind_iff in H as (o & _ & H). now injection H as <-.
Qed.
Theorem C53_unit_dimension_refuted : exists kw m u, new_unit "Metre" kw = Ok m /\ unit_of m = Some u /\
  given "physical_dimension_ref" kw = Some (AStr "/Dimensions/Length") /\ ~ describes_unit "Metre" kw u /\
  Unit_physical_dimension_ref u = Some (mkRef "m" IdentifiableSubTypes_PHYSICAL_DIMENSION).
Proof.
  exists [("display_name", AStr "m"); ("physical_dimension_ref", AStr "/Dimensions/Length")]. do 2 eexists. splits; [reflexivity ..| |reflexivity].
  intros (_ & _ & _ & H & _). unfold holds in H. cbn in H. destruct H as [H|(s & E & F)]; [inversion H|]. injection E as <-. discriminate.
Qed.
(** Without a display name, the reference has no text at all. *)
Theorem C53_unit_dimension_lost name s : exists m, new_unit name [("physical_dimension_ref", AStr s)] = Ok m /\ mu_dimension m = Some (DimOf ANone) /\ unit_of m = None.
Proof. eexists. splits; reflexivity. Qed.

(** ** Examples *)
Definition ex_conditional_args : keyword_args :=
  [("base_type_ref", AStr "/Base/uint8"); ("alignment", AStr "PTR"); ("display_format", AStr "%5d"); ("step_size", ANum (NInt 2)); ("is_virtual", ABool false);
   ("annotations", ATuple []); ("unit_ref", AObj (ORef rc_UnitRef (mkRef "/Units/m" IdentifiableSubTypes_UNIT)))].
Example C53_conditional_example : exists c, describes_conditional ex_conditional_args c /\ dd_base_type_ref c = Some (mkRef "/Base/uint8" IdentifiableSubTypes_SW_BASE_TYPE) /\
  dd_alignment c = Some (IText "PTR") /\ dd_unit_ref c = Some (mkRef "/Units/m" IdentifiableSubTypes_UNIT).
Proof. eexists. rewrite <- C53_conditional_iff. splits; reflexivity. Qed.
Example C53_bits_example : describes_bits [("position", AStr " -1_0 "); ("num_bits", ANum (NFloat (FFin false 45 (-1))))] (mkSwBitRepresentation (Some (-10)%Z) (Some 4%Z)).
Proof. rewrite <- C53_bits_iff. reflexivity. Qed.
Example C53_type_example : exists e t, describes_type_element "X" [("array_size", ANum (NInt 4)); ("is_optional", ANum (NInt 1))] e /\
  describes_implementation_type "Point" [("category", AStr "STRUCTURE"); ("sub_elements", AList [AObj (OImplementationDataTypeElement e)])] t /\
  ImplementationDataType_sub_elements t = [e] /\ id_category (ImplementationDataType_ident t) = Some "STRUCTURE" /\
  new_implementation_type "Point" [("sub_elements", AObj (OImplementationDataTypeElement e))] = Err TypeError.
Proof. do 2 eexists. rewrite <- C53_type_element_iff, <- C53_implementation_type_iff. splits; reflexivity. Qed.
Example C53_application_example : exists e f t r, describes_array_element "E" [("max_number_of_elements", ANum (NInt 8));
    ("type_ref", AObj (ORef rc_ApplicationDataTypeRef (mkRef "/T/Speed" IdentifiableSubTypes_APPLICATION_PRIMITIVE_DATA_TYPE)))] e /\
  describes_array "Speeds" [("element", AObj (OApplicationArrayElement e))] t /\ ApplicationArrayDataType_element t = Some e /\
  describes_record_element "F" [("is_optional", ABool true)] f /\ describes_record "Rec" [("elements", AObj (OApplicationRecordElement f))] r /\
  ApplicationRecordDataType_elements r = [f] /\ new_record_element "F" [("type_ref", AStr "/T/Speed")] = Err TypeError /\
  snd (extend_record r [AObj (OApplicationRecordElement f); AStr "F"; AObj (OApplicationRecordElement f)]) = Err TypeError /\
  ApplicationRecordDataType_elements (fst (extend_record r [AObj (OApplicationRecordElement f); AStr "F"; AObj (OApplicationRecordElement f)])) = [f; f].
Proof. do 4 eexists. rewrite <- C53_array_element_iff, <- C53_array_iff, <- C53_record_element_iff, <- C53_record_iff. splits; reflexivity. Qed.
Example C53_unit_example : exists u, describes_unit "Metre" [("display_name", AStr "m"); ("factor", ANum (NInt 1));
  ("physical_dimension_ref", AObj (ORef rc_PhysicalDimensionRef (mkRef "/D/Length" IdentifiableSubTypes_PHYSICAL_DIMENSION)))] u /\
  Unit_display_name u = Some [PText "m"] /\ Unit_physical_dimension_ref u = Some (mkRef "/D/Length" IdentifiableSubTypes_PHYSICAL_DIMENSION).
Proof. eexists. rewrite <- C53_unit_iff_partial by (intros s; discriminate). splits; [eexists; split; reflexivity|reflexivity ..]. Qed.
Example C53_props_example c : exists p, new_props (AList [AObj (OSwDataDefPropsConditional c)]) = Ok p /\ variant_at p (-1) = Ok c /\ variant_at p 1 = Err IndexError /\
  new_props (ATuple [AObj (OSwDataDefPropsConditional c)]) = Err TypeError.
Proof. eexists. splits; reflexivity. Qed.

Print Assumptions C53_bits_iff.
Print Assumptions C53_text_props_iff.
Print Assumptions C53_pointer_iff.
Print Assumptions C53_conditional_iff.
Print Assumptions C53_props_iff.
Print Assumptions C53_append_variant_iff.
Print Assumptions C53_variant_at.
Print Assumptions C53_variant_missing.
Print Assumptions C53_symbol_iff.
Print Assumptions C53_type_element_iff.
Print Assumptions C53_implementation_type_iff.
Print Assumptions C53_primitive_iff.
Print Assumptions C53_array_element_iff.
Print Assumptions C53_array_iff.
Print Assumptions C53_record_element_iff.
Print Assumptions C53_record_iff.
Print Assumptions C53_mapping_set_iff.
Print Assumptions C53_append_to_type_iff.
Print Assumptions C53_append_to_element_iff.
Print Assumptions C53_append_to_record_iff.
Print Assumptions C53_extend_iff.
Print Assumptions C53_append_map_iff.
Print Assumptions C53_element_reference_refuted.
Print Assumptions C53_record_tuple_refuted.
Print Assumptions C53_unit_iff_partial.
Print Assumptions C53_unit_dimension_text.
Print Assumptions C53_unit_dimension_refuted.
Print Assumptions C53_unit_dimension_lost.
