(** Nested elements modelled by hand: round trips. *)
From Verif Require Import Base PBase MNames PNames MNum SNum PNum PNum3 PNum4 MXml SXml PXml PXml2 MEnum PEnum MRefTab MRef SEnum PRef MCodec SCodec PCodec PPiece PIdent MElem0 PElem0 PElemRef MElem1 SElem1 PElem1 MElemA SElemA PElemA MElemB SElemB.
Open Scope list_scope.

(** ** Recursive readers *)
Lemma height_kid y x : In y (x_kids x) -> (height y < height x)%nat.
Proof.
  destruct x as [tag a t k]. cbn [x_kids height]. intros I. apply Nat.lt_succ_r. induction k as [|z k IH]; cbn in *; [tauto|].
  destruct I as [->|I]; [lia|]. specialize (IH I). lia.
Qed.
(** A method looks at descendants only. *)
Definition local {A} (step : (xml -> result A) -> xml -> result A) : Prop :=
  forall f g x, (forall y, (height y < height x)%nat -> f y = g y) -> step f x = step g x.
Lemma deep_enough {A} (step : (xml -> result A) -> xml -> result A) : local step ->
  forall n m x, (height x <= n)%nat -> (height x <= m)%nat -> deep n step x = deep m step x.
Proof.
  intros L. induction n as [|n IH]; intros m x Hn Hm; [destruct x; cbn in Hn; lia|]. destruct m as [|m]; [destruct x; cbn in Hm; lia|].
  cbn [deep]. apply L. intros y Hy. apply IH; lia.
Qed.
Lemma recursive_eq {A} (step : (xml -> result A) -> xml -> result A) : local step ->
  forall x, recursive step x = step (recursive step) x.
Proof.
  intros L x. unfold recursive at 1. destruct (height x) as [|n] eqn:H; [destruct x; cbn in H; lia|]. cbn [deep]. apply L.
  intros y Hy. unfold recursive. apply deep_enough; auto; lia.
Qed.
Lemma get_in tag k x : get tag k = Some x -> In x k.
Proof. induction k as [|y k IH]; cbn; [discriminate|]. destruct (String.eqb tag (x_tag y)); [injection 1 as ->; auto|auto]. Qed.
Lemma findall_in tag k x : In x (findall tag k) -> In x k.
Proof. unfold findall. intros I. now apply filter_In in I. Qed.
Lemma child_ext {A} tag k (f g : xml -> result A) : (forall y, In y k -> f y = g y) -> child tag k f = child tag k g.
Proof. intros H. unfold child. destruct (get tag k) eqn:E; auto. now rewrite (H _ (get_in _ _ _ E)). Qed.
Lemma mapM_ext {A B} (f g : A -> result B) l : (forall y, In y l -> f y = g y) -> mapM f l = mapM g l.
Proof. induction l as [|a l IH]; intros H; auto. cbn. rewrite (H a) by now left. rewrite IH; auto. intros y I. apply H. now right. Qed.
Lemma children_ext {A} c tag k (f g : xml -> result A) : (forall z y, In z k -> In y (x_kids z) -> f y = g y) ->
  children c tag k f = children c tag k g.
Proof. intros H. unfold children. destruct (get c k) eqn:E; auto. apply mapM_ext. intros y I. eapply H; [eapply get_in, E|eapply findall_in, I]. Qed.
Lemma children_any_ext {A} c k (f g : xml -> result A) : (forall z y, In z k -> In y (x_kids z) -> f y = g y) ->
  children_any c k f = children_any c k g.
Proof. intros H. unfold children_any. destruct (get c k) eqn:E; auto. apply mapM_ext. intros y I. eapply H; [eapply get_in, E|exact I]. Qed.

(** ** Annotations *)
Lemma p_annotations l : all_ok good_annotation l -> piece ["ANNOTATIONS"] (if_some l (write_annotations l))
  (fun k => child "ANNOTATIONS" k read_annotations = Ok (match l with [] => None | a :: _ => Some [a] end)).
Proof.
  intros G. destruct l as [|a l]; cbn [if_some].
  - apply piece_none. intros k F. apply child_none, F. now left.
  - destruct (each (a :: l) (fun a => node "ANNOTATIONS" [] (write_annotation a)) read_annotations (fun a => [a]) (fun w => w_tag w = "ANNOTATIONS"))
      as (L & E & F & LL & M).
    { intros b I. destruct (c_list "ANNOTATIONS" "ANNOTATION" [b] write_annotation read_annotation (fun a => a) eq_refl) as (w & W & T & S & R).
      { intros c [<-|[]]. apply c_annotation. eapply all_in; eauto. }
      exists w. splits; auto. unfold for_each in W. cbn [map cat] in W. destruct (c_annotation b (all_in _ _ _ G I)) as (w' & W' & _). rewrite W' in *.
      cbn in W. exact W. }
    exists L. split; [exact E|]. split; [eapply Forall_impl; [|exact F]; intros w [T S]; cbn; auto|].
    intros step d kids Hk. destruct L as [|w L]; [discriminate|]. unfold child. rewrite get_findall, (Hk _ (in_head _)), findall_all by exact F.
    cbn [map hd_error]. specialize (M step d). cbn [map mapM] in M. destruct (read_annotations (element step d w)) as [x|]; [|discriminate].
    cbn [bind] in *. destruct (mapM read_annotations (map (element step d) L)); [|discriminate]. cbn in M. injection M as -> _. reflexivity.
Qed.
Lemma annotations_back (l : list Annotation) : annotations_of (match l with [] => None | a :: _ => Some [a] end) = first_only l.
Proof. now destruct l. Qed.

(** ** Data definition properties *)
Lemma c_alignment tag i : name_okb tag = true -> good_alignment i -> carries tag (content tag (Ok (index_text i))) rd_alignment i.
Proof.
  intros N G. destruct i as [z|s]; cbn [index_text].
  - apply e_leaf; auto using attrs_ok_nil, calm_safe, zstr_calm. unfold rd_alignment. rewrite text_opt_ne by apply zstr_ne. now rewrite int0_zstr.
  - destruct G as [[NE SF] [_ I]]. apply e_leaf; auto using attrs_ok_nil. unfold rd_alignment. rewrite text_opt_ne by assumption. now rewrite I.
Qed.
Lemma assign_alignment_ok o : opt_ok good_alignment o -> assign_alignment o = Ok o.
Proof. destruct o as [[z|s]|]; cbn; auto. now intros (_ & -> & _). Qed.
Lemma assign_display_format_ok o : opt_ok good_display_format o -> assign_display_format o = Ok o.
Proof. destruct o as [s|]; cbn; auto. now intros (_ & ->). Qed.
Lemma display_format_text o : opt_ok good_display_format o -> opt_ok good_text o.
Proof. destruct o as [s|]; cbn; auto. now intros (? & _). Qed.

Lemma rt_pointer {R} v (self : R -> out) (rd : xml -> result R) (f : R -> R) (ok : R -> Prop) e :
  (forall r, SwPointerTargetProps_sw_data_def_props e = Some r -> ok r -> carries "SW-DATA-DEF-PROPS" (self r) rd (f r)) ->
  good_SwPointerTargetProps_ ok e ->
  carries "SW-POINTER-TARGET-PROPS" (write_sw_pointer_target_props_ self e) (read_sw_pointer_target_props_ v rd) (norm_SwPointerTargetProps_ f e).
Proof.
  intros H (Gt & Gp & Gf). unfold write_sw_pointer_target_props_. destruct (SwPointerTargetProps_is_empty e) eqn:E.
  { unfold SwPointerTargetProps_is_empty in E. apply e_empty; [reflexivity|]. destruct e. cbn in E. emptied E. subst. reflexivity. }
  eapply e_node; [|reflexivity|exact attrs_ok_nil|].
  { eapply piece_cons; [exact (p_text "TARGET-CATEGORY" _ eq_refl Gt)| |].
    eapply piece_cons; [exact (p_child "SW-DATA-DEF-PROPS" _ _ _ f (fun a E => H a E (opt_in _ _ a Gp E)))| |].
    eapply piece_cat1. exact (p_child_id "FUNCTION-POINTER-SIGNATURE-REF" _ _ _ (fun a E => k_FunctionPtrSignatureRef v "FUNCTION-POINTER-SIGNATURE-REF" a eq_refl (opt_in _ _ a Gf E))).
    all: reflexivity. }
  intros t k ktl K. cbv beta in K. unand K. unfold read_sw_pointer_target_props_. cbn [x_kids]. use_facts. reflexivity.
Qed.
Lemma rt_conditional {P} v (self : P -> out) (rd : xml -> result P) (f : P -> P) (ok : P -> Prop) e :
  (forall r, dd_ptr_target_props e = Some r -> ok r -> carries "SW-POINTER-TARGET-PROPS" (self r) rd (f r)) ->
  good_SwDataDefPropsConditional_ ok e ->
  carries "SW-DATA-DEF-PROPS-CONDITIONAL" (write_sw_data_def_props_conditional_ v self e) (read_sw_data_def_props_conditional_ v rd)
    (norm_SwDataDefPropsConditional_ f e).
Proof.
  intros H (Gs & Ga & Gam & Gal & Gb & Gbr & Gt & Gc & Gd & Gdf & Gi & Gq & Gr & Gim & Gp & Gu). unfold write_sw_data_def_props_conditional_.
  destruct (SwDataDefPropsConditional_is_empty e) eqn:E.
  { unfold SwDataDefPropsConditional_is_empty in E. apply e_empty; [reflexivity|]. destruct e. cbn in E. emptied E. subst. reflexivity. }
  eapply e_node; [|reflexivity|exact attrs_ok_nil|].
  { eapply piece_cons; [exact (p_child_id "DISPLAY-PRESENTATION" _ _ _ (fun a E => c_enum em_DisplayPresentation "DISPLAY-PRESENTATION" a ok_DisplayPresentation eq_refl))| |].
    eapply piece_cons; [exact (p_child_id "STEP-SIZE" _ _ _ (fun a E => c_float "STEP-SIZE" a eq_refl (opt_in _ _ a Gs E)))| |].
    eapply piece_cons; [exact (p_annotations _ Ga)| |].
    eapply piece_cons; [exact (p_child_id "SW-ADDR-METHOD-REF" _ _ _ (fun a E => k_SwAddrMethodRef v "SW-ADDR-METHOD-REF" a eq_refl (opt_in _ _ a Gam E)))| |].
    eapply piece_cons; [exact (p_child_id "SW-ALIGNMENT" _ _ _ (fun a E => c_alignment "SW-ALIGNMENT" a eq_refl (opt_in _ _ a Gal E)))| |].
    eapply piece_cons; [exact (p_child_id "BASE-TYPE-REF" _ _ _ (fun a E => k_SwBaseTypeRef v "BASE-TYPE-REF" a eq_refl (opt_in _ _ a Gb E)))| |].
    eapply piece_cons; [exact (p_child_id "SW-BIT-REPRESENTATION" _ _ _ (fun a E => rt_SwBitRepresentation v a (opt_in _ _ a Gbr E)))| |].
    eapply piece_cons; [exact (p_child_id "SW-CALIBRATION-ACCESS" _ _ _ (fun a E => c_enum em_SwCalibrationAccess "SW-CALIBRATION-ACCESS" a ok_SwCalibrationAccess eq_refl))| |].
    eapply piece_cons; [exact (p_child_id "SW-TEXT-PROPS" _ _ _ (fun a E => rt_SwTextProps v a (opt_in _ _ a Gt E)))| |].
    eapply piece_cons; [exact (p_child_id "COMPU-METHOD-REF" _ _ _ (fun a E => k_CompuMethodRef v "COMPU-METHOD-REF" a eq_refl (opt_in _ _ a Gc E)))| |].
    eapply piece_cons; [exact (p_text "DISPLAY-FORMAT" _ eq_refl (display_format_text _ Gdf))| |].
    eapply piece_cons; [exact (p_child_id "DATA-CONSTR-REF" _ _ _ (fun a E => k_DataConstraintRef v "DATA-CONSTR-REF" a eq_refl (opt_in _ _ a Gd E)))| |].
    eapply piece_cons; [exact (p_child_id "IMPLEMENTATION-DATA-TYPE-REF" _ _ _ (fun a E => k_ImplementationDataTypeRef v "IMPLEMENTATION-DATA-TYPE-REF" a eq_refl (opt_in _ _ a Gi E)))| |].
    eapply piece_cons; [exact (p_child_id "SW-IMPL-POLICY" _ _ _ (fun a E => c_enum em_SwImplPolicy "SW-IMPL-POLICY" a ok_SwImplPolicy eq_refl))| |].
    eapply piece_cons; [exact (p_text "ADDITIONAL-NATIVE-TYPE-QUALIFIER" _ eq_refl Gq)| |].
    eapply piece_cons; [exact (p_child "SW-INTENDED-RESOLUTION" _ _ _ reread (fun a E => c_number "SW-INTENDED-RESOLUTION" a eq_refl (opt_in _ _ a Gr E)))| |].
    eapply piece_cons; [exact (p_text "SW-INTERPOLATION-METHOD" _ eq_refl Gim)| |].
    eapply piece_cons; [exact (p_child_id "SW-IS-VIRTUAL" _ _ _ (fun a E => c_bool "SW-IS-VIRTUAL" a eq_refl))| |].
    eapply piece_cons; [exact (p_child "SW-POINTER-TARGET-PROPS" _ _ _ f (fun a E => H a E (opt_in _ _ a Gp E)))| |].
    eapply piece_cat1. exact (p_child_id "UNIT-REF" _ _ _ (fun a E => k_UnitRef v "UNIT-REF" a eq_refl (opt_in _ _ a Gu E))).
    all: reflexivity. }
  intros t k ktl K. cbv beta in K. unand K. unfold read_sw_data_def_props_conditional_. cbn [x_kids]. use_facts.
  rewrite assign_alignment_ok, assign_display_format_ok by assumption. cbn [bind]. rewrite annotations_back. reflexivity.
Qed.
Fixpoint SwDataDefProps_ind2 (Q : SwDataDefProps -> Prop)
  (H : forall l, (forall c p r, In c l -> dd_ptr_target_props c = Some p -> SwPointerTargetProps_sw_data_def_props p = Some r -> Q r) ->
       Q (mkSwDataDefProps l)) (e : SwDataDefProps) {struct e} : Q e.
Proof.
  destruct e as [l]. apply H. induction l as [|c l IH]; intros c' p r I; [destruct I|]. destruct I as [I|I].
  - subst c'. destruct c as [? ? ? ? ? ? ? ? ? ? ? ? ? ? ? ? ? ? [[tc [r'|] fr]|] ?]; cbn; intros E; [| |inversion E].
    + injection E as <-. cbn. intros E. injection E as <-. exact (SwDataDefProps_ind2 Q H r').
    + injection E as <-. cbn. intros E. inversion E.
  - intros E1 E2. exact (IH _ _ _ I E1 E2).
Defined.
Lemma read_sw_data_def_props_local v : local (read_sw_data_def_props_ v).
Proof.
  intros f g x H. unfold read_sw_data_def_props_. erewrite children_ext; [reflexivity|]. intros z y Iz Iy. cbv beta.
  unfold read_sw_data_def_props_conditional_. cbv zeta. rewrite (child_ext "SW-POINTER-TARGET-PROPS" (x_kids y) _ (read_sw_pointer_target_props_ v g)); [reflexivity|].
  intros w Iw. unfold read_sw_pointer_target_props_. cbv zeta. rewrite (child_ext "SW-DATA-DEF-PROPS" (x_kids w) f g); [reflexivity|].
  intros u Iu. apply H. apply height_kid in Iz, Iy, Iw, Iu. lia.
Qed.
Lemma rt_SwDataDefProps v tag e : name_okb tag = true -> good_SwDataDefProps e ->
  carries tag (write_sw_data_def_props v tag e) (read_sw_data_def_props v) (norm_SwDataDefProps e).
Proof.
  revert tag. induction e as [l IH] using SwDataDefProps_ind2. intros tag NT G. cbn [good_SwDataDefProps] in G.
  cbn [write_sw_data_def_props norm_SwDataDefProps].
  destruct (no_items l) eqn:E; [apply no_items_nil in E; subst; now apply e_empty|].
  eapply carries_as.
  - eapply e_node; [|exact NT|exact attrs_ok_nil|].
    + refine (p_children "SW-DATA-DEF-PROPS-VARIANTS" "SW-DATA-DEF-PROPS-CONDITIONAL" l _
        (read_sw_data_def_props_conditional_ v (read_sw_pointer_target_props_ v (read_sw_data_def_props v))) _ eq_refl _).
      intros c I. refine (rt_conditional v _ _ (norm_SwPointerTargetProps_ norm_SwDataDefProps) _ c _ (all_in _ _ c G I)).
      intros p Ep Gp. refine (rt_pointer v _ _ norm_SwDataDefProps _ p _ Gp). intros r Er Gr. eapply IH; eauto.
    + intros t k ktl K. refine (_ : (fun x => children "SW-DATA-DEF-PROPS-VARIANTS" "SW-DATA-DEF-PROPS-CONDITIONAL" (x_kids x)
        (read_sw_data_def_props_conditional_ v (read_sw_pointer_target_props_ v (read_sw_data_def_props v)))) _ = _). exact K.
  - intros x T R. unfold read_sw_data_def_props. rewrite recursive_eq by apply read_sw_data_def_props_local.
    unfold read_sw_data_def_props_ at 1. fold (read_sw_data_def_props v). cbv beta in R.
    change (recursive (read_sw_data_def_props_ v)) with (read_sw_data_def_props v). rewrite R. reflexivity.
Qed.
Lemma rt_SwPointerTargetProps v e : good_SwPointerTargetProps e ->
  carries "SW-POINTER-TARGET-PROPS" (write_sw_pointer_target_props v e) (read_sw_pointer_target_props v) (norm_SwPointerTargetProps e).
Proof. intros G. refine (rt_pointer v _ _ norm_SwDataDefProps _ e _ G). intros r _ Gr. now apply rt_SwDataDefProps. Qed.
Lemma rt_SwDataDefPropsConditional v e : good_SwDataDefPropsConditional e ->
  carries "SW-DATA-DEF-PROPS-CONDITIONAL" (write_sw_data_def_props_conditional v e) (read_sw_data_def_props_conditional v) (norm_SwDataDefPropsConditional e).
Proof. intros G. refine (rt_conditional v _ _ norm_SwPointerTargetProps _ e _ G). intros r _ Gr. now apply rt_SwPointerTargetProps. Qed.

(** ** Elements of implementation data types *)
Fixpoint ImplementationDataTypeElement_ind2 (Q : ImplementationDataTypeElement -> Prop)
  (H : forall e, (forall s, In s (ImplementationDataTypeElement_sub_elements e) -> Q s) -> Q e) (e : ImplementationDataTypeElement) {struct e} : Q e.
Proof.
  apply H. destruct e as [i p a b c d sub o]. cbn. induction sub as [|s sub IH]; intros s' I; [destruct I|]. destruct I as [I|I]; [|exact (IH s' I)].
  subst s'. exact (ImplementationDataTypeElement_ind2 Q H s).
Defined.
Lemma read_implementation_data_type_element_local v : local (read_implementation_data_type_element_ v).
Proof.
  intros f g x H. unfold read_implementation_data_type_element_. cbv zeta.
  rewrite (children_ext "SUB-ELEMENTS" "IMPLEMENTATION-DATA-TYPE-ELEMENT" (x_kids x) f g); [reflexivity|].
  intros z y Iz Iy. apply H. apply height_kid in Iz, Iy. lia.
Qed.
Lemma rt_ImplementationDataTypeElement v e : good_ImplementationDataTypeElement e ->
  carries "IMPLEMENTATION-DATA-TYPE-ELEMENT" (write_implementation_data_type_element v e) (read_implementation_data_type_element v)
    (norm_ImplementationDataTypeElement e).
Proof.
  induction e as [e IH] using ImplementationDataTypeElement_ind2. destruct e as [ident props size policy handling semantics sub optional].
  cbn [ImplementationDataTypeElement_sub_elements] in IH. cbn [good_ImplementationDataTypeElement write_implementation_data_type_element norm_ImplementationDataTypeElement].
  intros (Gi & Gp & Gs & Gsub). eapply e_node; [|reflexivity|exact attrs_ok_nil|].
  { eapply p_ident; [exact (ident_of _ Gi)| |].
    { eapply piece_cons; [exact (p_child_id "ARRAY-IMPL-POLICY" _ _ _ (fun a E => c_enum em_ArrayImplPolicy "ARRAY-IMPL-POLICY" a ok_ArrayImplPolicy eq_refl))| |].
      eapply piece_cons; [exact (p_child_id "ARRAY-SIZE" _ _ _ (fun a E => c_int "ARRAY-SIZE" a eq_refl))| |].
      eapply piece_cons; [exact (p_child_id "ARRAY-SIZE-HANDLING" _ _ _ (fun a E => c_enum em_ArraySizeHandling "ARRAY-SIZE-HANDLING" a ok_ArraySizeHandling eq_refl))| |].
      eapply piece_cons; [exact (p_child_id "ARRAY-SIZE-SEMANTICS" _ _ _ (fun a E => c_enum em_ArraySizeSemantics "ARRAY-SIZE-SEMANTICS" a ok_ArraySizeSemantics eq_refl))| |].
      eapply piece_cons; [exact (p_child_id "IS-OPTIONAL" _ _ _ (fun a E => c_bool "IS-OPTIONAL" a eq_refl))| |].
      eapply piece_cons; [exact (p_children "SUB-ELEMENTS" "IMPLEMENTATION-DATA-TYPE-ELEMENT" sub _ _ norm_ImplementationDataTypeElement eq_refl (fun a I => IH a I (all_in _ _ a Gsub I)))| |].
      eapply piece_cat1. exact (p_child "SW-DATA-DEF-PROPS" _ _ _ norm_SwDataDefProps (fun a E => rt_SwDataDefProps v "SW-DATA-DEF-PROPS" a eq_refl (opt_in _ _ a Gp E))).
      all: reflexivity. }
    reflexivity. }
  intros t k ktl H. cbv beta in H. unand H. unfold read_implementation_data_type_element. rewrite recursive_eq by apply read_implementation_data_type_element_local.
  unfold read_implementation_data_type_element_ at 1. change (recursive (read_implementation_data_type_element_ v)) with (read_implementation_data_type_element v).
  cbn [x_attrs x_kids]. match goal with H : ident_read _ k |- _ => rewrite (H _ (no_uuid _ Gi)); clear H end. cbn [bind]. use_facts.
  rewrite new_ident by exact (ident_of _ Gi). cbn [bind]. rewrite opt_positive_ok by assumption. reflexivity.
Qed.

(** ** Value specifications *)
Lemma rt_SwValueCont v e : good_SwValueCont e -> carries "SW-VALUE-CONT" (write_sw_value_cont v e) (read_sw_value_cont v) (norm_SwValueCont e).
Proof.
  intros (Gu & Gn & Ga & Gv). unfold write_sw_value_cont. destruct (SwValueCont_is_empty e) eqn:E.
  { unfold SwValueCont_is_empty in E. apply e_empty; [reflexivity|]. destruct e. cbn in E. emptied E. subst. reflexivity. }
  eapply e_node; [|reflexivity|exact attrs_ok_nil|].
  { eapply piece_cons; [exact (p_child_id "UNIT-REF" _ _ _ (fun a E => k_UnitRef v "UNIT-REF" a eq_refl (opt_in _ _ a Gu E)))| |].
    eapply piece_cons; [exact (p_child "UNIT-DISPLAY-NAME" _ _ _ merged (fun a E => c_unit_names "UNIT-DISPLAY-NAME" a eq_refl (opt_in _ _ a Gn E)))| |].
    eapply piece_cons; [exact (p_child "SW-ARRAYSIZE" _ _ _ norm_ValueList (fun a E => rt_ValueList v a (opt_in _ _ a Ga E)))| |].
    eapply piece_cat1. exact (p_child "SW-VALUES-PHYS" _ _ _ norm_SwValues (fun a E => rt_SwValues v a (opt_in _ _ a Gv E))). all: reflexivity. }
  intros t k ktl H. cbv beta in H. unand H. unfold read_sw_value_cont. cbn [x_kids]. use_facts. reflexivity.
Qed.
Fixpoint ValueSpecificationElement_ind2 (Q : ValueSpecificationElement -> Prop)
  (Hbase : forall e, match e with ArrayValueSpecification _ _ | RecordValueSpecification _ _ => False | _ => True end -> Q e)
  (Harray : forall label l, (forall s, In s l -> Q s) -> Q (ArrayValueSpecification label l))
  (Hrecord : forall label l, (forall s, In s l -> Q s) -> Q (RecordValueSpecification label l)) (e : ValueSpecificationElement) {struct e} : Q e.
Proof.
  destruct e as [| | |label l|label l| | ]; try (apply Hbase; exact I).
  - apply Harray. induction l as [|s l IH]; intros s' I; [destruct I|]. destruct I as [I|I]; [|exact (IH s' I)]. subst s'. exact (ValueSpecificationElement_ind2 Q Hbase Harray Hrecord s).
  - apply Hrecord. induction l as [|s l IH]; intros s' I; [destruct I|]. destruct I as [I|I]; [|exact (IH s' I)]. subst s'. exact (ValueSpecificationElement_ind2 Q Hbase Harray Hrecord s).
Defined.
Lemma read_value_specification_element_local v : local (read_value_specification_element_ v).
Proof.
  intros f g x H. unfold read_value_specification_element_. cbv zeta.
  assert (X : forall c, children_any c (x_kids x) f = children_any c (x_kids x) g).
  { intros c. apply children_any_ext. intros z y Iz Iy. apply H. apply height_kid in Iz, Iy. lia. }
  now rewrite !X.
Qed.
Lemma c_plain tag n : name_okb tag = true -> good_plain n ->
  exists m, carries tag (content tag (format_any n)) rd_number m /\ norm_plain n = Bare m.
Proof.
  intros N G. destruct n as [n|[n f]]; cbn [good_plain format_any norm_plain] in *.
  - eauto using c_number.
  - destruct G as [F G]. cbn [nv_format nv_value] in *. exists (reread n). split; auto. unfold format_numval. cbn [nv_format nv_value].
    destruct F; subst f; now apply c_number.
Qed.
Lemma p_plain o : opt_ok good_plain o -> exists m, option_map norm_plain o = option_map Bare m /\
  piece ["VALUE"] (if_set o (fun a => content "VALUE" (format_any a))) (fun k => child "VALUE" k rd_number = Ok m).
Proof.
  destruct o as [n|]; cbn [opt_ok]; intros G.
  - destruct (c_plain "VALUE" n eq_refl G) as (m & C & E). exists (Some m). cbn [option_map if_set]. rewrite E. split; auto. now apply p_always.
  - exists None. split; auto. apply piece_none. intros k F. apply child_none, F. now left.
Qed.
Lemma new_not_available_ok label p : opt_ok (fun z => (0 <= z)%Z) p -> new_not_available label p = Ok (NotAvailableValueSpecification label p).
Proof. destruct p as [z|]; cbn; auto. intros G. destruct (Z.ltb_spec z 0); auto. lia. Qed.
Ltac value_spec := unfold read_value_specification_element; rewrite recursive_eq by apply read_value_specification_element_local;
  unfold read_value_specification_element_ at 1; cbn [x_tag x_kids String.eqb Ascii.eqb Bool.eqb];
  match goal with |- context[recursive (read_value_specification_element_ ?v)] =>
    change (recursive (read_value_specification_element_ v)) with (read_value_specification_element v) | _ => idtac end.
Lemma rt_ValueSpecificationElement v e : good_ValueSpecificationElement e ->
  exists tag, carries tag (write_value_specification_element v e) (read_value_specification_element v) (norm_ValueSpecificationElement e).
Proof.
  induction e as [e B|label l IH|label l IH] using ValueSpecificationElement_ind2.
  - destruct e as [label value|label value|label p|label l|label l|label category axes cont|label r]; try contradiction; clear B;
      cbn [good_ValueSpecificationElement write_value_specification_element norm_ValueSpecificationElement].
    + intros (Gl & Gv). exists "TEXT-VALUE-SPECIFICATION". destruct (_ && _) eqn:E; [emptied E; subst; now apply e_empty|].
      eapply e_node; [|reflexivity|exact attrs_ok_nil|].
      { eapply piece_cons; [exact (p_text "SHORT-LABEL" _ eq_refl Gl)| |]. eapply piece_cat1. exact (p_text "VALUE" _ eq_refl Gv). reflexivity. }
      intros t k ktl K. cbv beta in K. unand K. value_spec. use_facts. reflexivity.
    + intros (Gl & Gv). exists "NUMERICAL-VALUE-SPECIFICATION". destruct (_ && _) eqn:E; [emptied E; subst; now apply e_empty|].
      destruct (p_plain _ Gv) as (m & Em & Pm). eapply e_node; [|reflexivity|exact attrs_ok_nil|].
      { eapply piece_cons; [exact (p_text "SHORT-LABEL" _ eq_refl Gl)| |]. eapply piece_cat1. exact Pm. reflexivity. }
      intros t k ktl K. cbv beta in K. unand K. value_spec. use_facts. now rewrite Em.
    + intros (Gl & Gv). exists "NOT-AVAILABLE-VALUE-SPECIFICATION". destruct (_ && _) eqn:E; [emptied E; subst; now apply e_empty|].
      eapply e_node; [|reflexivity|exact attrs_ok_nil|].
      { eapply piece_cons; [exact (p_text "SHORT-LABEL" _ eq_refl Gl)| |].
        eapply piece_cat1. exact (p_child_id "DEFAULT-PATTERN" _ _ _ (fun a E => c_positive "DEFAULT-PATTERN" a eq_refl (opt_in _ _ a Gv E))). reflexivity. }
      intros t k ktl K. cbv beta in K. unand K. value_spec. use_facts. now apply new_not_available_ok.
    + intros (Gl & Gc & Ga & Gv). exists "APPLICATION-VALUE-SPECIFICATION". destruct (_ && _) eqn:E; [emptied E; subst; now apply e_empty|].
      eapply e_node; [|reflexivity|exact attrs_ok_nil|].
      { eapply piece_cons; [exact (p_text "SHORT-LABEL" _ eq_refl Gl)| |]. eapply piece_cons; [exact (p_text "CATEGORY" _ eq_refl Gc)| |].
        eapply piece_cons; [exact (p_children "SW-AXIS-CONTS" "SW-AXIS-CONT" _ _ _ norm_SwAxisCont eq_refl (fun a I => rt_SwAxisCont v a (all_in _ _ a Ga I)))| |].
        eapply piece_cat1. exact (p_child "SW-VALUE-CONT" _ _ _ norm_SwValueCont (fun a E => rt_SwValueCont v a (opt_in _ _ a Gv E))). all: reflexivity. }
      intros t k ktl K. cbv beta in K. unand K. value_spec. use_facts. reflexivity.
    + intros (Gl & Gv). exists "CONSTANT-REFERENCE". destruct (_ && _) eqn:E; [emptied E; subst; now apply e_empty|].
      eapply e_node; [|reflexivity|exact attrs_ok_nil|].
      { eapply piece_cons; [exact (p_text "SHORT-LABEL" _ eq_refl Gl)| |].
        eapply piece_cat1. exact (p_child_id "CONSTANT-REF" _ _ _ (fun a E => k_ConstantRef v "CONSTANT-REF" a eq_refl (opt_in _ _ a Gv E))). reflexivity. }
      intros t k ktl K. cbv beta in K. unand K. value_spec. use_facts. reflexivity.
  - cbn [good_ValueSpecificationElement write_value_specification_element norm_ValueSpecificationElement]. intros (Gl & Gv).
    exists "ARRAY-VALUE-SPECIFICATION". destruct (_ && _) eqn:E; [emptied E; subst; now apply e_empty|].
    eapply e_node; [|reflexivity|exact attrs_ok_nil|].
    { eapply piece_cons; [exact (p_text "SHORT-LABEL" _ eq_refl Gl)| |].
      eapply piece_cat1. exact (p_children_any "ELEMENTS" l _ _ norm_ValueSpecificationElement eq_refl (fun a I => IH a I (all_in _ _ a Gv I))). reflexivity. }
    intros t k ktl K. cbv beta in K. unand K. value_spec. use_facts. reflexivity.
  - cbn [good_ValueSpecificationElement write_value_specification_element norm_ValueSpecificationElement]. intros (Gl & Gv).
    exists "RECORD-VALUE-SPECIFICATION". destruct (_ && _) eqn:E; [emptied E; subst; now apply e_empty|].
    eapply e_node; [|reflexivity|exact attrs_ok_nil|].
    { eapply piece_cons; [exact (p_text "SHORT-LABEL" _ eq_refl Gl)| |].
      eapply piece_cat1. exact (p_children_any "FIELDS" l _ _ norm_ValueSpecificationElement eq_refl (fun a I => IH a I (all_in _ _ a Gv I))). reflexivity. }
    intros t k ktl K. cbv beta in K. unand K. value_spec. use_facts. reflexivity.
Qed.
