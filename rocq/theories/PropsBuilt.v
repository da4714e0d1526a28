(** C70: whatever is built with the constructors from values that XML can carry can be saved, and is read back. *)
From Verif Require Import Base MNames MNum SNum MXml SXml MEnum MRefTab MRef SEnum MCodec SCodec MElem0 MElem1 MElemA MElemB MElemC MElem2 MElemD MElem3 MElem4 MElemE MElem5 MElemF MArxml
  SElem1 SElemA SElemB SElemC SElem2 SElemD SElem3 SElem4 SElemE SElem5 SElemF SArxml SElem SKept MFind MValue MEvent MPort MAccess MRunnable MIface MData MConst MParts MPoint MOccur MComp MPack SFit SBuilt
  PXml2 PElemE PFit PBuilt PropsElem PropsArxml PropsKept.
Open Scope list_scope.

(** A document of packages that were filled by append, with elements that were made by constructor calls nested to
    any depth, is written without an exception, and every reader reads a document with the same packages, elements
    and parts. *)
Theorem C70_document d : built_document d ->
  exists text d', write_file d = Ok text /\ (forall rv stop, read_str rv text stop = (doc_schema_version d, Ok d')) /\ same_document d d'.
Proof. intros H. apply C24_same_document, built_document_good, H. Qed.
(** The parts of elements, each on its own. *)
Theorem C70_value_specification v n e : built v n (OValueSpecification e) ->
  exists e', reloads_as (write_value_specification_element v) (read_value_specification_element v) e e' /\ same_value_spec e e'.
Proof. intros H. apply C25_value_specification, (built_fit v n _ H). Qed.
Theorem C70_event v n e : built v n (ORteEvent e) -> reloads_as (write_rte_event_element v) (read_rte_event_element v) e e.
Proof. intros H. apply C41_event, (built_fit v n _ H). Qed.
Theorem C70_provided_com_spec v n e : built v n (OProvidePortComSpec e) ->
  exists e', reloads_as (write_provided_com_spec v) (read_provided_com_spec v) e e' /\ same_ProvidePortComSpec e e'.
Proof. intros H. apply C41_provided_com_spec_same, (built_fit v n _ H). Qed.
Theorem C70_required_com_spec v n e : built v n (ORequirePortComSpec e) ->
  exists e', reloads_as (write_required_com_spec v) (read_required_com_spec v) e e' /\ same_RequirePortComSpec e e'.
Proof. intros H. apply C41_required_com_spec_same, (built_fit v n _ H). Qed.
Theorem C70_runnable v n e : built v n (ORunnableEntity e) ->
  exists e', reloads_as (write_runnable_entity v) (read_runnable_entity v) e e' /\ same_RunnableEntity e e'.
Proof. intros H. apply C41_runnable_entity_same, (built_fit v n _ H). Qed.
Theorem C70_internal_behavior v n e : built v n (OSwcInternalBehavior e) ->
  exists e', reloads_as (write_swc_internal_behavior v) (read_swc_internal_behavior v) e e' /\ same_SwcInternalBehavior e e'.
Proof. intros H. apply C41_swc_internal_behavior_same, (built_fit v n _ H). Qed.

(** ** An example: a component with a behavior, a runnable with access points, a timing event, an interface and a
    constant *)
Definition got {A} (r : result A) : match r with Ok _ => A | Err _ => unit end := match r with Ok x => x | Err _ => tt end.
Definition ex_access_kw : keyword_args := [("desc", AStr "Speed read")].
Definition ex_access : VariableAccess := Eval vm_compute in got (init_VariableAccess "Read_Speed" ex_access_kw).
Definition ex_area_kw : keyword_args := [("can_enter_leave", AStr "/Components/Comp/Behavior/Area"); ("symbol", AStr "Comp_Run");
  ("data_read_access", AList [AObj (OVariableAccess ex_access)]); ("minimum_start_interval", ANum (NInt 0))].
Definition ex_runnable : RunnableEntity := Eval vm_compute in got (new_runnable "Run" ex_area_kw).
Definition ex_event_kw : keyword_args := [("start_on_event", AStr "/Components/Comp/Behavior/Run"); ("period", ANum (NFloat (FFin false 1 (-2))))].
Definition ex_event : TimingEvent := Eval vm_compute in got (init_TimingEvent "Timing_Run" ex_event_kw).
Definition ex_behavior_kw : keyword_args := [("events", AList [AObj (ORteEvent (RteEvent_TimingEvent ex_event))]); ("runnables", AObj (ORunnableEntity ex_runnable))].
Definition ex_behavior : SwcInternalBehavior := Eval vm_compute in got (new_behavior "Behavior" ex_behavior_kw).
Definition ex_component_kw : keyword_args := [("internal_behavior", AObj (OSwcInternalBehavior ex_behavior)); ("category", AStr "VALUE")].
Definition ex_component : ApplicationSoftwareComponentType := Eval vm_compute in got (init_ApplicationSoftwareComponentType "Comp" ex_component_kw).
Definition ex_text_value : ValueSpecificationElement := Eval vm_compute in got (new_text_value (Some "init") (AStr "Off")).
Definition ex_record : ValueSpecificationElement := Eval vm_compute in got (new_record_value None (AList [AObj (OValueSpecification ex_text_value)])).
Definition ex_constant_kw : keyword_args := [("value", AObj (OValueSpecification ex_record))].
Definition ex_constant : ConstantSpecification := Eval vm_compute in got (new_constant "Init" ex_constant_kw).
Definition ex_package_0 : package := Eval vm_compute in got (new_package "Components" [("desc", AStr "All of them")]).
Definition ex_package_1 : package := Eval vm_compute in got (append_element ex_package_0 (AR_ApplicationSoftwareComponentType ex_component)).
Definition ex_package_2 : package := Eval vm_compute in got (append_element ex_package_1 (AR_ConstantSpecification ex_constant)).
Definition ex_document : document := mkDocument [ex_package_2] 51.
Local Ltac text := split; [split; [discriminate|apply safe_textb_sound; reflexivity]|apply safe_attrb_sound; reflexivity].
Local Ltac keyword := split; [cbn [snd arg_of all_ok]|split; [cbn [fst snd]; intros K; cbn in K; try (exfalso; intuition discriminate)|split; cbn [fst]; discriminate]].
Local Ltac keywords := repeat (apply Forall_cons; [keyword|]); try apply Forall_nil.
Example C70_example : built_document ex_document.
Proof.
  assert (A : built 51 1 (OVariableAccess ex_access)).
  { right. apply (by_init_VariableAccess _ _ "Read_Speed" ex_access_kw); [|text|reflexivity|vm_compute; reflexivity]. keywords. text. }
  assert (R : built 51 2 (ORunnableEntity ex_runnable)).
  { right. apply (by_new_runnable _ _ "Run" ex_area_kw); [|text|reflexivity|vm_compute; reflexivity|].
    - keywords; try text; try exact I; [split; [exact A|exact I]|reflexivity].
    - unfold distinct_points. vm_compute. repeat split; repeat apply NoDup_nil; apply NoDup_cons; [intros []|apply NoDup_nil]. }
  assert (F : good_real (NFloat (FFin false 1 (-2)))).
  { split; [|discriminate]. exists (FFin false 1 (-2)). split; [reflexivity|]. split; [repeat split; discriminate|split; reflexivity]. }
  assert (E : built 51 2 (ORteEvent (RteEvent_TimingEvent ex_event))).
  { right. apply (by_init_TimingEvent _ _ "Timing_Run" ex_event_kw); [|text|reflexivity|vm_compute; reflexivity].
    keywords; try text; [apply F|exact F]. }
  assert (B : built 51 3 (OSwcInternalBehavior ex_behavior)).
  { right. apply (by_new_behavior _ _ "Behavior" ex_behavior_kw); [|text|reflexivity|vm_compute; reflexivity].
    keywords; [split; [exact E|exact I]|exact R]. }
  assert (T : built 51 1 (OValueSpecification ex_text_value)).
  { right. apply (by_new_text_value _ _ (Some "init") (AStr "Off")); [|text|vm_compute; reflexivity]. split; [discriminate|apply safe_textb_sound; reflexivity]. }
  assert (V : built 51 2 (OValueSpecification ex_record)).
  { right. apply (by_new_record_value _ _ None (AList [AObj (OValueSpecification ex_text_value)])); [exact I|split; [exact T|exact I]|vm_compute; reflexivity]. }
  assert (P : built_package 51 ex_package_2).
  { apply (pk_element _ ex_package_1 (AR_ConstantSpecification ex_constant)); [|apply (el_ConstantSpecification _ "Init" ex_constant_kw); [|text|vm_compute; reflexivity]|vm_compute; reflexivity].
    2:{ exists 2%nat. keywords. exact V. }
    apply (pk_element _ ex_package_0 (AR_ApplicationSoftwareComponentType ex_component)); [|apply (el_ApplicationSoftwareComponentType _ "Comp" ex_component_kw); [|text|reflexivity|vm_compute; reflexivity]|vm_compute; reflexivity].
    2:{ exists 3%nat. keywords; [exact B|text]. }
    apply (pk_new _ "Components" [("desc", AStr "All of them")]); [|text|vm_compute; reflexivity]. exists 0%nat. keywords. text. }
  apply (pks_append _ [] ex_package_2); [constructor|exact P|vm_compute; reflexivity].
Qed.
(** The example is not trivial: the document has a component with a runnable, an event and an access point. *)
Example C70_example_content : exists c b r, doc_packages ex_document = [ex_package_2] /\ package_name ex_package_2 = "Components" /\ ApplicationSoftwareComponentType_internal_behavior c = Some b /\ SwcInternalBehavior_runnables b = [r] /\ List.length (RunnableEntity_data_read_access r) = 1%nat /\ List.length (SwcInternalBehavior_events b) = 1%nat /\ match ex_package_2 with mkPackage _ es _ => In (AR_ApplicationSoftwareComponentType c) es end.
Proof. exists ex_component, ex_behavior, ex_runnable. repeat split. left. reflexivity. Qed.

Print Assumptions C70_document.
Print Assumptions C70_value_specification.
Print Assumptions C70_event.
Print Assumptions C70_provided_com_spec.
Print Assumptions C70_required_com_spec.
Print Assumptions C70_runnable.
Print Assumptions C70_internal_behavior.
Print Assumptions C70_example.
