(** Reading back what was written changes a representation at most once: [norm_] is idempotent, and
    its results satisfy [good_] again. *)
From Verif Require Import Base PBase MNames PNames MNum SNum PNum PNum3 MXml SXml PXml PXml2 MEnum PEnum MRefTab MRef SEnum PRef MCodec SCodec PCodec PPiece PIdent MElem0 PElem0 PElemRef MElem1 MElemA MElemB MElemC MElem2 MElemD MElem3 MElem4 MElemE MElem5 MElemF SElem1 SElemA SElemB SElemC SElem2 SElemD SElem3 SElem4 SElemE SElem5 SElemF PElem1 PElemA PElemB PElemC PElem2 PElemD PElem3 PElem4 PElemE PElem5 PElemF MArxml SArxml PArxml.
Open Scope list_scope.

Local Arguments opt_ok : simpl never.
Local Arguments all_ok : simpl never.
(** [f] keeps [P] and does nothing the second time. *)
Definition stable {A} (P : A -> Prop) (f : A -> A) : Prop := forall a, P a -> P (f a) /\ f (f a) = f a.
Lemma stable_opt {A} (P : A -> Prop) f : stable P f -> stable (opt_ok P) (option_map f).
Proof. intros H [a|]; cbn; auto. intros G. destruct (H a G) as [G' E]. split; [exact G'|]. now rewrite E. Qed.
Lemma stable_all {A} (P : A -> Prop) f : stable P f -> stable (all_ok P) (map f).
Proof.
  intros H l. induction l as [|a l IH]; cbn [map]; auto. intros [G K]. destruct (H a G) as [G' E]. destruct (IH K) as [K' E'].
  split; [split; assumption|]. cbn [map]. now rewrite E, E'.
Qed.
(** One step of a proof that a class is stable. *)
Create HintDb st.
Ltac st_field := match goal with
  | |- opt_ok ?P (option_map ?f ?o) => refine (proj1 (stable_opt P f _ o _)); [solve [auto with st]|assumption]
  | |- all_ok ?P (map ?f ?o) => refine (proj1 (stable_all P f _ o _)); [solve [auto with st]|assumption]
  | G : opt_ok ?P ?o |- option_map ?f (option_map ?f ?o) = option_map ?f ?o => refine (proj2 (stable_opt P f _ o G)); solve [auto with st]
  | G : all_ok ?P ?o |- map ?f (map ?f ?o) = map ?f ?o => refine (proj2 (stable_all P f _ o G)); solve [auto with st]
  | |- _ => assumption
  | |- _ => reflexivity
  end.
Ltac st_record := let e := fresh "e" in let G := fresh "G" in intros e G; destruct e; cbn in G; unand G; split; cbn; [splits|f_equal]; st_field.

Lemma stable_reread : stable good_number reread.
Proof.
  intros [z|f] G; [split; auto|]. destruct f as [neg| |neg c e]; try (split; [exact G|reflexivity]). cbn [reread].
  destruct (0 <=? e)%Z eqn:E; [split; [exact I|reflexivity]|]. split; [exact G|]. cbn [reread]. now rewrite E.
Qed.
#[export] Hint Resolve stable_reread : st.
Lemma stable_merged : stable good_names merged.
Proof. intros l G. unfold good_names in *. now rewrite merged_merged. Qed.
#[export] Hint Resolve stable_merged : st.
(** ** Computations and constraints *)
Lemma stable_scalar : stable good_numeric reread_scalar.
Proof. intros [n|s] G; [|destruct G]. cbn in *. destruct (stable_reread n G) as [A B]. split; [exact A|now rewrite B]. Qed.
#[export] Hint Resolve stable_scalar : st.
Lemma stable_limit {A} (P : A -> Prop) f o ty : stable P f -> limit_ok P o ty ->
  limit_ok P (option_map f o) ty /\ option_map f (option_map f o) = option_map f o.
Proof. intros H. destruct o as [a|]; cbn; auto. intros G. destruct (H a G) as [X Y]. split; [exact X|now rewrite Y]. Qed.
Ltac st_field' := match goal with
  | G : limit_ok ?P ?o ?ty |- limit_ok ?P (option_map ?f ?o) ?ty => refine (proj1 (stable_limit P f o ty _ G)); solve [auto with st]
  | G : limit_ok ?P ?o ?ty |- option_map ?f (option_map ?f ?o) = option_map ?f ?o => refine (proj2 (stable_limit P f o ty _ G)); solve [auto with st]
  | |- _ => st_field
  end.
Ltac st_record' := let e := fresh "e" in let G := fresh "G" in intros e G; destruct e; cbn in G; unand G; split; cbn; [splits|f_equal]; st_field'.
Local Arguments limit_ok : simpl never.
Lemma st_CompuConst : stable good_CompuConst norm_CompuConst.
Proof.
  intros [[[n|s]|]] G; cbn in *; try (split; [exact G|reflexivity]). destruct (stable_reread n G) as [A B]. split; [exact A|]. unfold norm_CompuConst. cbn. now rewrite B.
Qed.
#[export] Hint Resolve st_CompuConst : st.
Lemma stable_map_opt {A} (P : A -> Prop) f : stable P f -> stable (opt_ok (all_ok P)) (option_map (map f)).
Proof. intros H. apply stable_opt, stable_all, H. Qed.
#[export] Hint Resolve stable_all stable_opt : st.
Lemma st_CompuRational : stable good_CompuRational norm_CompuRational.
Proof.
  intros [nu de] (G1 & G2 & G3). unfold good_CompuRational. cbn in *. split; cbn.
  - splits; [destruct nu; [discriminate|congruence]| |]; st_field'.
  - unfold norm_CompuRational. cbn. f_equal; st_field'.
Qed.
#[export] Hint Resolve st_CompuRational : st.
Lemma st_CompuScaleContent : stable good_CompuScaleContent norm_CompuScaleContent.
Proof. intros [c|r] G; cbn in *; [destruct (st_CompuConst c G) as [A B]|destruct (st_CompuRational r G) as [A B]]; (split; [exact A|now rewrite B]). Qed.
#[export] Hint Resolve st_CompuScaleContent : st.
Lemma st_CompuScale : stable good_CompuScale norm_CompuScale. Proof. unfold good_CompuScale, norm_CompuScale. st_record'. Qed.
#[export] Hint Resolve st_CompuScale : st.
Lemma st_Computation : stable good_Computation norm_Computation. Proof. unfold good_Computation, norm_Computation. st_record'. Qed.
#[export] Hint Resolve st_Computation : st.
Lemma st_CompuMethod : stable good_CompuMethod norm_CompuMethod. Proof. unfold good_CompuMethod, norm_CompuMethod. st_record'. Qed.
#[export] Hint Resolve st_CompuMethod : st.
Lemma st_ScaleConstraint : stable good_ScaleConstraint norm_ScaleConstraint. Proof. unfold good_ScaleConstraint, norm_ScaleConstraint. st_record'. Qed.
#[export] Hint Resolve st_ScaleConstraint : st.
Lemma st_ConstraintBase : stable good_ConstraintBase norm_ConstraintBase. Proof. unfold good_ConstraintBase, norm_ConstraintBase. st_record'. Qed.
Lemma st_InternalConstraint : stable good_InternalConstraint norm_InternalConstraint.
Proof. intros [b] G. destruct (st_ConstraintBase b G) as [A B]. split; [exact A|]. unfold norm_InternalConstraint. cbn. now rewrite B. Qed.
#[export] Hint Resolve st_InternalConstraint : st.
Lemma st_PhysicalConstraint : stable good_PhysicalConstraint norm_PhysicalConstraint.
Proof. intros [b u] [G H]. destruct (st_ConstraintBase b G) as [A B]. split; [split; assumption|]. unfold norm_PhysicalConstraint. cbn. now rewrite B. Qed.
#[export] Hint Resolve st_PhysicalConstraint : st.
Lemma st_DataConstraintRule : stable good_DataConstraintRule norm_DataConstraintRule. Proof. unfold good_DataConstraintRule, norm_DataConstraintRule. st_record'. Qed.
#[export] Hint Resolve st_DataConstraintRule : st.
Lemma st_DataConstraint : stable good_DataConstraint norm_DataConstraint. Proof. unfold good_DataConstraint, norm_DataConstraint. st_record'. Qed.
Lemma st_Unit : stable good_Unit norm_Unit. Proof. unfold good_Unit, norm_Unit. st_record'. Qed.

(** ** Values *)
Lemma st_value : stable good_value norm_value.
Proof.
  intros [n|w] G; cbn in *; [destruct (stable_reread n G) as [A B]; split; [exact A|now rewrite B]|].
  destruct (nv_format w) eqn:E; try (destruct (stable_reread _ G) as [A B]; cbn; split; [exact A|now rewrite B]); try (split; cbn; rewrite E; [exact G|reflexivity]).
Qed.
#[export] Hint Resolve st_value : st.
Lemma st_plain : stable good_plain norm_plain.
Proof.
  intros [n|w] G; cbn in *; [destruct (stable_reread n G) as [A B]; split; [exact A|now rewrite B]|]. destruct G as [_ G]. destruct (stable_reread _ G) as [A B]. split; [exact A|now rewrite B].
Qed.
#[export] Hint Resolve st_plain : st.
Lemma st_ValueList : stable good_ValueList norm_ValueList. Proof. unfold good_ValueList, norm_ValueList. intros [l] G. cbn in *. split; [st_field'|f_equal; st_field']. Qed.
#[export] Hint Resolve st_ValueList : st.
(** For lists inside of recursive types: only members are known to be stable. *)
Lemma stable_members {A} (P : A -> Prop) f l : (forall a, In a l -> P a -> P (f a) /\ f (f a) = f a) -> all_ok P l ->
  all_ok P (map f l) /\ map f (map f l) = map f l.
Proof.
  induction l as [|a l IH]; cbn [map]; auto. intros H [G K]. destruct (H a (or_introl eq_refl) G) as [G' E]. destruct IH as [K' E']; auto; [intros; apply H; [now right|auto]|].
  split; [split; assumption|]. now rewrite E, E'.
Qed.
Lemma st_sw_value : stable good_sw_value norm_sw_value.
Proof.
  intros e. induction e as [s|n|l vs IH] using sw_value_ind2; cbn [good_sw_value norm_sw_value]; intros G.
  - auto.
  - destruct (st_value n G) as [A B]. split; [exact A|now rewrite B].
  - destruct G as [G1 G2]. destruct (stable_members _ norm_sw_value vs (fun a I => IH a I) G2) as [A B]. split; [split; assumption|now rewrite B].
Qed.
#[export] Hint Resolve st_sw_value : st.
Lemma st_SwValues : stable good_SwValues norm_SwValues. Proof. unfold good_SwValues, norm_SwValues. intros [l] G. cbn in *. split; [st_field'|f_equal; st_field']. Qed.
#[export] Hint Resolve st_SwValues : st.
Lemma st_SwAxisCont : stable good_SwAxisCont norm_SwAxisCont. Proof. unfold good_SwAxisCont, norm_SwAxisCont. st_record'. Qed.
#[export] Hint Resolve st_SwAxisCont : st.
Lemma st_SwValueCont : stable good_SwValueCont norm_SwValueCont. Proof. unfold good_SwValueCont, norm_SwValueCont. st_record'. Qed.
#[export] Hint Resolve st_SwValueCont : st.
Lemma st_ValueSpecificationElement : stable good_ValueSpecificationElement norm_ValueSpecificationElement.
Proof.
  intros e. induction e as [e B|label l IH|label l IH] using ValueSpecificationElement_ind2.
  - destruct e; try destruct B; cbn [good_ValueSpecificationElement norm_ValueSpecificationElement]; intros G; unand G; (split; [splits|f_equal]; st_field').
  - cbn [good_ValueSpecificationElement norm_ValueSpecificationElement]. intros [G1 G2]. destruct (stable_members _ norm_ValueSpecificationElement l (fun a I => IH a I) G2) as [A C]. split; [split; assumption|now rewrite C].
  - cbn [good_ValueSpecificationElement norm_ValueSpecificationElement]. intros [G1 G2]. destruct (stable_members _ norm_ValueSpecificationElement l (fun a I => IH a I) G2) as [A C]. split; [split; assumption|now rewrite C].
Qed.
#[export] Hint Resolve st_ValueSpecificationElement : st.

(** ** Data definition properties *)
Lemma stable_first {A} (P : A -> Prop) (l : list A) : all_ok P l -> all_ok P (first_only l) /\ first_only (first_only l) = first_only l.
Proof. destruct l as [|a l]; cbn; auto. intros [G _]. split; [split; [exact G|exact I]|reflexivity]. Qed.
Lemma st_SwDataDefProps : stable good_SwDataDefProps norm_SwDataDefProps.
Proof.
  intros e. induction e as [l IH] using SwDataDefProps_ind2. cbn [good_SwDataDefProps norm_SwDataDefProps]. intros G.
  match goal with |- all_ok ?P (map ?f l) /\ _ => destruct (stable_members P f l) as [A B]; [|exact G|] end.
  - intros c I Gc. specialize (IH c). revert Gc IH. unfold good_SwDataDefPropsConditional_, norm_SwDataDefPropsConditional_.
    destruct c as [? ? ann ? ? ? ? ? ? ? ? ? ? ? ? res ? ? ptr ?]. cbn. intros Gc IH. unand Gc.
    assert (Ptr : opt_ok (good_SwPointerTargetProps_ good_SwDataDefProps) (option_map (norm_SwPointerTargetProps_ norm_SwDataDefProps) ptr) /\
      option_map (norm_SwPointerTargetProps_ norm_SwDataDefProps) (option_map (norm_SwPointerTargetProps_ norm_SwDataDefProps) ptr) = option_map (norm_SwPointerTargetProps_ norm_SwDataDefProps) ptr).
    { destruct ptr as [p|]; [|split; [exact Logic.I|reflexivity]].
      match goal with H : opt_ok _ (Some p) |- _ => change (good_SwPointerTargetProps_ good_SwDataDefProps p) in H; destruct H as (P1 & P2 & P3) end.
      specialize (IH p). unfold norm_SwPointerTargetProps_. destruct p as [tc [r|] fr]; cbn in *.
      - destruct (IH r I eq_refl eq_refl P2) as [X Y]. split; [exact (conj P1 (conj X P3))|]. now rewrite Y.
      - split; [exact (conj P1 (conj P2 P3))|reflexivity]. }
    destruct Ptr as [Ptr1 Ptr2].
    match goal with H : all_ok good_annotation ann |- _ => destruct (stable_first _ _ H) as [An1 An2] end.
    split; [splits; st_field'|]. f_equal; try st_field'.
  - split; [exact A|]. now rewrite B.
Qed.
#[export] Hint Resolve st_SwDataDefProps : st.
Lemma st_ImplementationDataTypeElement : stable good_ImplementationDataTypeElement norm_ImplementationDataTypeElement.
Proof.
  intros e. induction e as [e IH] using ImplementationDataTypeElement_ind2. destruct e as [ident props size policy handling semantics sub optional].
  cbn [good_ImplementationDataTypeElement norm_ImplementationDataTypeElement]. intros (G1 & G2 & G3 & G4).
  destruct (stable_members _ norm_ImplementationDataTypeElement sub (fun a I => IH a I) G4) as [A B]. split; [splits; st_field'|]. f_equal; st_field'.
Qed.
#[export] Hint Resolve st_ImplementationDataTypeElement : st.

(** ** The other classes *)
Ltac st_case G := first [split; [exact G|reflexivity]|
  match goal with |- ?P (?f ?x) /\ _ => let S := fresh in assert (S : stable P f) by auto with st; let A := fresh in let B := fresh in
    destruct (S x G) as [A B]; split; [exact A|now rewrite B] end].
Lemma st_ImplementationDataType : stable good_ImplementationDataType norm_ImplementationDataType. Proof. unfold good_ImplementationDataType, norm_ImplementationDataType. st_record'. Qed.
#[export] Hint Resolve st_ImplementationDataType : st.
Lemma st_ApplicationPrimitiveDataType : stable good_ApplicationPrimitiveDataType norm_ApplicationPrimitiveDataType. Proof. unfold good_ApplicationPrimitiveDataType, norm_ApplicationPrimitiveDataType. st_record'. Qed.
#[export] Hint Resolve st_ApplicationPrimitiveDataType : st.
Lemma st_ApplicationArrayElement : stable good_ApplicationArrayElement norm_ApplicationArrayElement. Proof. unfold good_ApplicationArrayElement, norm_ApplicationArrayElement. st_record'. Qed.
#[export] Hint Resolve st_ApplicationArrayElement : st.
Lemma st_ApplicationRecordElement : stable good_ApplicationRecordElement norm_ApplicationRecordElement. Proof. unfold good_ApplicationRecordElement, norm_ApplicationRecordElement. st_record'. Qed.
#[export] Hint Resolve st_ApplicationRecordElement : st.
Lemma st_ApplicationArrayDataType : stable good_ApplicationArrayDataType norm_ApplicationArrayDataType. Proof. unfold good_ApplicationArrayDataType, norm_ApplicationArrayDataType. st_record'. Qed.
#[export] Hint Resolve st_ApplicationArrayDataType : st.
Lemma st_ApplicationRecordDataType : stable good_ApplicationRecordDataType norm_ApplicationRecordDataType. Proof. unfold good_ApplicationRecordDataType, norm_ApplicationRecordDataType. st_record'. Qed.
#[export] Hint Resolve st_ApplicationRecordDataType : st.
Lemma st_VariableDataPrototype : stable good_VariableDataPrototype norm_VariableDataPrototype. Proof. unfold good_VariableDataPrototype, norm_VariableDataPrototype. st_record'. Qed.
#[export] Hint Resolve st_VariableDataPrototype : st.
Lemma st_ParameterDataPrototype : stable good_ParameterDataPrototype norm_ParameterDataPrototype. Proof. unfold good_ParameterDataPrototype, norm_ParameterDataPrototype. st_record'. Qed.
#[export] Hint Resolve st_ParameterDataPrototype : st.
Lemma st_ArgumentDataPrototype : stable good_ArgumentDataPrototype norm_ArgumentDataPrototype. Proof. unfold good_ArgumentDataPrototype, norm_ArgumentDataPrototype. st_record'. Qed.
#[export] Hint Resolve st_ArgumentDataPrototype : st.
Lemma st_ConstantSpecification : stable good_ConstantSpecification norm_ConstantSpecification. Proof. unfold good_ConstantSpecification, norm_ConstantSpecification. st_record'. Qed.
#[export] Hint Resolve st_ConstantSpecification : st.
Lemma st_NvDataInterface : stable good_NvDataInterface norm_NvDataInterface. Proof. unfold good_NvDataInterface, norm_NvDataInterface. st_record'. Qed.
#[export] Hint Resolve st_NvDataInterface : st.
Lemma st_ParameterInterface : stable good_ParameterInterface norm_ParameterInterface. Proof. unfold good_ParameterInterface, norm_ParameterInterface. st_record'. Qed.
#[export] Hint Resolve st_ParameterInterface : st.
Lemma st_SenderReceiverInterface : stable good_SenderReceiverInterface norm_SenderReceiverInterface. Proof. unfold good_SenderReceiverInterface, norm_SenderReceiverInterface. st_record'. Qed.
#[export] Hint Resolve st_SenderReceiverInterface : st.
Lemma st_ClientServerOperation : stable good_ClientServerOperation norm_ClientServerOperation. Proof. unfold good_ClientServerOperation, norm_ClientServerOperation. st_record'. Qed.
#[export] Hint Resolve st_ClientServerOperation : st.
Lemma st_ClientServerInterface : stable good_ClientServerInterface norm_ClientServerInterface. Proof. unfold good_ClientServerInterface, norm_ClientServerInterface. st_record'. Qed.
#[export] Hint Resolve st_ClientServerInterface : st.
Lemma st_QueuedSenderComSpec : stable good_QueuedSenderComSpec norm_QueuedSenderComSpec. Proof. unfold good_QueuedSenderComSpec, norm_QueuedSenderComSpec. st_record'. Qed.
#[export] Hint Resolve st_QueuedSenderComSpec : st.
Lemma st_NonqueuedSenderComSpec : stable good_NonqueuedSenderComSpec norm_NonqueuedSenderComSpec. Proof. unfold good_NonqueuedSenderComSpec, norm_NonqueuedSenderComSpec. st_record'. Qed.
#[export] Hint Resolve st_NonqueuedSenderComSpec : st.
Lemma st_NvProvideComSpec : stable good_NvProvideComSpec norm_NvProvideComSpec. Proof. unfold good_NvProvideComSpec, norm_NvProvideComSpec. st_record'. Qed.
#[export] Hint Resolve st_NvProvideComSpec : st.
Lemma st_ParameterProvideComSpec : stable good_ParameterProvideComSpec norm_ParameterProvideComSpec. Proof. unfold good_ParameterProvideComSpec, norm_ParameterProvideComSpec. st_record'. Qed.
#[export] Hint Resolve st_ParameterProvideComSpec : st.
Lemma st_NvRequireComSpec : stable good_NvRequireComSpec norm_NvRequireComSpec. Proof. unfold good_NvRequireComSpec, norm_NvRequireComSpec. st_record'. Qed.
#[export] Hint Resolve st_NvRequireComSpec : st.
Lemma st_ParameterRequireComSpec : stable good_ParameterRequireComSpec norm_ParameterRequireComSpec. Proof. unfold good_ParameterRequireComSpec, norm_ParameterRequireComSpec. st_record'. Qed.
#[export] Hint Resolve st_ParameterRequireComSpec : st.
Lemma st_ParameterAccess : stable good_ParameterAccess norm_ParameterAccess. Proof. unfold good_ParameterAccess, norm_ParameterAccess. st_record'. Qed.
#[export] Hint Resolve st_ParameterAccess : st.
Lemma st_PortDefinedArgumentValue : stable good_PortDefinedArgumentValue norm_PortDefinedArgumentValue. Proof. unfold good_PortDefinedArgumentValue, norm_PortDefinedArgumentValue. st_record'. Qed.
#[export] Hint Resolve st_PortDefinedArgumentValue : st.
Lemma st_PortApiOption : stable good_PortApiOption norm_PortApiOption. Proof. unfold good_PortApiOption, norm_PortApiOption. st_record'. Qed.
#[export] Hint Resolve st_PortApiOption : st.
Lemma st_QueuedReceiverComSpec : stable good_QueuedReceiverComSpec norm_QueuedReceiverComSpec. Proof. unfold good_QueuedReceiverComSpec, norm_QueuedReceiverComSpec. st_record'. Qed.
#[export] Hint Resolve st_QueuedReceiverComSpec : st.
Lemma st_NonqueuedReceiverComSpec : stable good_NonqueuedReceiverComSpec norm_NonqueuedReceiverComSpec. Proof. unfold good_NonqueuedReceiverComSpec, norm_NonqueuedReceiverComSpec. st_record'. Qed.
#[export] Hint Resolve st_NonqueuedReceiverComSpec : st.
Lemma st_ProvidePortComSpec : stable good_ProvidePortComSpec norm_ProvidePortComSpec. Proof. intros e G. destruct e; cbn [good_ProvidePortComSpec norm_ProvidePortComSpec] in *; st_case G. Qed.
#[export] Hint Resolve st_ProvidePortComSpec : st.
Lemma st_RequirePortComSpec : stable good_RequirePortComSpec norm_RequirePortComSpec. Proof. intros e G. destruct e; cbn [good_RequirePortComSpec norm_RequirePortComSpec] in *; st_case G. Qed.
#[export] Hint Resolve st_RequirePortComSpec : st.
Lemma st_ProvidePortPrototype : stable good_ProvidePortPrototype norm_ProvidePortPrototype. Proof. unfold good_ProvidePortPrototype, norm_ProvidePortPrototype. st_record'. Qed.
#[export] Hint Resolve st_ProvidePortPrototype : st.
Lemma st_RequirePortPrototype : stable good_RequirePortPrototype norm_RequirePortPrototype. Proof. unfold good_RequirePortPrototype, norm_RequirePortPrototype. st_record'. Qed.
#[export] Hint Resolve st_RequirePortPrototype : st.
Lemma st_PRPortPrototype : stable good_PRPortPrototype norm_PRPortPrototype.
Proof.
  intros [i r p q] (G1 & G2 & G3 & G4 & G5). unfold good_PRPortPrototype, norm_PRPortPrototype. cbn in *. split; [splits; try st_field'|f_equal; st_field'].
  destruct G5 as [->|G5]; [now left|]. right. destruct q; [congruence|discriminate].
Qed.
#[export] Hint Resolve st_PRPortPrototype : st.
Lemma st_PortPrototypeElement : stable good_PortPrototypeElement norm_PortPrototypeElement.
Proof. intros e G. destruct e; cbn [good_PortPrototypeElement norm_PortPrototypeElement] in *; st_case G. Qed.
#[export] Hint Resolve st_PortPrototypeElement : st.
Lemma st_CompositionSwComponentType : stable good_CompositionSwComponentType norm_CompositionSwComponentType.
Proof. unfold good_CompositionSwComponentType, norm_CompositionSwComponentType. st_record'. Qed.
Lemma st_RunnableEntity v : stable (good_RunnableEntity v) norm_RunnableEntity.
Proof.
  intros e (G0 & G1 & G2 & G3 & G4 & G5 & G6 & G7 & G8 & G9 & G10 & G11 & G12 & G13 & G14 & G15 & G16 & G17 & G18 & G19 & G20 & G21 & G22 & G23 & D).
  destruct e. unfold good_RunnableEntity, norm_RunnableEntity. cbn in *. split; [splits; try st_field'|f_equal; st_field'].
  unfold distinct_points in *. cbn in *. rewrite map_map. exact D.
Qed.
#[export] Hint Resolve st_RunnableEntity : st.
Lemma st_options : stable good_options (map (fun a => (fst a, norm_PortApiOption (snd a)))).
Proof.
  intros l (G1 & G2 & G3). unfold good_options.
  assert (N : map fst (map (fun a => (fst a, norm_PortApiOption (snd a))) l) = map fst l) by (rewrite map_map; now apply map_ext). rewrite N.
  clear N. enough (H : all_ok (fun a : string * PortApiOption => good_PortApiOption (snd a)) (map (fun a => (fst a, norm_PortApiOption (snd a))) l) /\
    all_ok (fun a : string * PortApiOption => option_map last_part (PortApiOption_port (snd a)) = Some (fst a)) (map (fun a => (fst a, norm_PortApiOption (snd a))) l) /\
    map (fun a => (fst a, norm_PortApiOption (snd a))) (map (fun a => (fst a, norm_PortApiOption (snd a))) l) = map (fun a => (fst a, norm_PortApiOption (snd a))) l) by tauto.
  clear G3. induction l as [|[n o] l IH]; [splits; auto; exact I|]. destruct G1 as [G1 G1'], G2 as [G2 G2']. destruct (IH G1' G2') as (A & B & C).
  cbn in G1, G2. destruct (st_PortApiOption o G1) as [X Y]. cbn [map fst snd]. splits; [split; assumption|split; assumption|]. now rewrite Y, C.
Qed.
Lemma st_SwcInternalBehavior v : stable (good_SwcInternalBehavior v) norm_SwcInternalBehavior.
Proof.
  intros [i dm ea ev op ru] (G1 & G2 & G3 & G4 & G5 & G6). unfold good_SwcInternalBehavior, norm_SwcInternalBehavior. cbn in *.
  destruct (st_options op G5) as [A B]. split; [splits; st_field'|]. f_equal; st_field'.
Qed.
#[export] Hint Resolve st_SwcInternalBehavior : st.
Lemma st_ApplicationSoftwareComponentType v : stable (good_ApplicationSoftwareComponentType v) norm_ApplicationSoftwareComponentType.
Proof. unfold good_ApplicationSoftwareComponentType, norm_ApplicationSoftwareComponentType. st_record'. Qed.
#[export] Hint Resolve st_CompositionSwComponentType st_ApplicationSoftwareComponentType st_CompuMethod st_DataConstraint st_Unit : st.

(** ** Documents *)
Lemma st_ARElement v : stable (good_ARElement v) norm_ARElement.
Proof. intros e G. destruct e; cbn [good_ARElement norm_ARElement] in *; st_case G. Qed.
Lemma st_package v : stable (good_package v) norm_package.
Proof.
  intros p. remember (package_size p) as n eqn:En. assert (L : (package_size p <= n)%nat) by lia. clear En. revert p L.
  induction n as [|n IH]; intros [i es ps] L; [cbn in L; lia|]. cbn [good_package norm_package]. intros (Gi & N & Ge & Gp).
  destruct (stable_all _ _ (st_ARElement v) es Ge) as [A B].
  destruct (stable_members (good_package v) norm_package ps) as [C D]; [|exact Gp|].
  - intros q I. apply IH. pose proof (package_size_in i es ps q I). lia.
  - split; [|now rewrite B, D]. splits; auto. now rewrite norm_element_names, norm_package_names.
Qed.
Lemma st_document : stable good_document norm_document.
Proof.
  intros [ps v] [N G]. unfold good_document, norm_document. cbn in *. destruct (stable_all _ _ (st_package v) ps G) as [A B].
  split; [split; [now rewrite norm_package_names|exact A]|now rewrite B].
Qed.
