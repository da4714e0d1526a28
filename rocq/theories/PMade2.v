(** More objects made by the constructors from arguments that XML can carry can be carried by XML; the theorems
    are in PropsFit.v. *)
From Verif Require Import Base MNames MNum SNum PNum PNum2 PLiteral2 PRef MXml SXml PXml2 MEnum MRefTab MRef SEnum PEnum MCodec SCodec PCodec MElem0 PElem0 MElem1 MElemA MElemB MElemC MElem2 MElemD MElem3 MElem4 MElemE MElem5 MElemF MArxml
  SElem1 SElemA SElemB SElemC SElem2 SElemD SElem3 SElem4 SElemE SElem5 SElemF MFind MValue MEvent MPort MAccess MRunnable MIface MData MConst MParts MPoint MOccur MComp SFit PScope PSpell PAccess SAccess PElemE SRunnable PRunnable PArxml PFit PMade.
Local Ltac splits := repeat match goal with |- _ /\ _ => split end.

(** ** Constructors that need more *)
Lemma opt_int_from (P : Z -> Prop) a : (forall z, int_of_arg a = Ok z -> P z) -> gives (opt_ok P) (opt_int a).
Proof. intros H. apply gives_optional. exact H. Qed.
Lemma fit_init_DataFilter kw : not_negative (kwarg "offset" kw) -> not_negative (kwarg "period" kw) -> gives good_DataFilter (init_DataFilter kw).
Proof.
  intros O P. unfold init_DataFilter.
  do 5 (eapply gives_bind; [apply gives_any|intros ? _]).
  eapply gives_bind; [apply (opt_int_from _ _ O)|intros x9 X]. eapply gives_bind; [apply (opt_int_from _ _ P)|intros y9 Y].
  eapply gives_bind; [apply gives_any|intros ? _]. apply gives_ok. split; assumption.
Qed.
Lemma fit_new_unit v name kw : fit_keywords v kw -> fit_text name -> gives (fun u => forall e, unit_of u = Some e -> good_Unit e) (new_unit name kw).
Proof.
  intros H N. unfold new_unit. do 3 (step H).
  eapply gives_bind with (P := fun o => match o with
     | Some (DimRef r) => good_ref rc_PhysicalDimensionRef r | Some (DimOf a) => fit_arg v a | None => True end).
  { pose proof (kwarg_fit v "physical_dimension_ref" kw H) as F. set (a := kwarg "physical_dimension_ref" kw) in *. clearbody a.
    eapply gives_weaken with (P := opt_ok (fun d => match d with DimRef r => good_ref rc_PhysicalDimensionRef r | DimOf a => fit_arg v a end)); [intros [[r|b]|] K; exact K|].
    apply gives_optional. unfold dimension_of. pose proof (as_ref_fit v rc_PhysicalDimensionRef a ltac:(member) F) as K.
    assert (G : gives (fun d => match d with DimRef r => good_ref rc_PhysicalDimensionRef r | DimOf a => fit_arg v a end) match as_ref rc_PhysicalDimensionRef a with Some r => Ok (DimRef r) | None => Err TypeError end).
    { destruct (as_ref rc_PhysicalDimensionRef a); [apply gives_ok; exact K|apply gives_err]. }
    destruct a; try exact G. apply gives_ok. apply kwarg_fit, H. }
  intros d D. repeat (step H). apply gives_ok. intros e E. unfold unit_of in E. cbn [mu_dimension mu_ident mu_display_name mu_factor mu_offset] in E.
  assert (G : forall r, opt_ok (good_ref rc_PhysicalDimensionRef) r -> forall i n f o, opt_ok good_float f -> opt_ok good_float o -> opt_ok good_names n -> good_ident i -> good_Unit (mkUnit i n r f o)) by (intros; unfold good_Unit; splits; assumption).
  destruct d as [[r|a]|].
  - injection E as <-. apply G; held.
  - destruct a; try discriminate. injection E as <-. apply G; try held. split; [vm_compute; tauto|apply D].
  - injection E as <-. apply G; try held.
Qed.
Lemma fit_new_props v a : fit_arg v a -> gives good_SwDataDefProps (new_props a).
Proof.
  intros H. unfold new_props. eapply gives_bind; [eapply one_or_list_fit; [intros ? ?; eapply strict_fit; [picked|eassumption]|exact H]|].
  intros l L. apply gives_ok. exact L.
Qed.
Lemma fit_make_value_list v a : fit_arg v a -> gives good_ValueList (make_value_list a).
Proof.
  intros H. unfold make_value_list. eapply gives_bind with (P := all_ok good_value); [|intros l L; apply gives_ok; exact L].
  assert (G : gives (all_ok good_value) match iterable a with Some l => mapM number_of l | None => Err TypeError end).
  { destruct (iterable a) as [l|] eqn:E; [|apply gives_err]. apply gives_mapM. intros x X.
    destruct (iterable_fit _ _ _ _ H E X) as [F|[s ->]]; [eapply number_fit, F|apply gives_err]. }
  destruct a; try exact G; [apply gives_ok; exact I|..]; (eapply gives_bind; [eapply number_fit, H|]; intros x X; apply gives_ok; split; [exact X|exact I]).
Qed.
Lemma fit_make_sw_values v a : fit_arg v a -> gives good_SwValues (make_sw_values a).
Proof. intros H. unfold make_sw_values. eapply gives_bind; [eapply lenient_fit; [apply sw_value_fit|exact H]|]. intros l L. apply gives_ok. exact L. Qed.
Lemma fit_new_value_group v kw : fit_keywords v kw -> gives (fun g => good_sw_value (SwGroup (fst g) (snd g))) (new_value_group kw).
Proof.
  intros H. unfold new_value_group. step H. eapply gives_bind; [eapply fit_make_sw_values, kwarg_fit, H|]. intros s S. step H. apply gives_ok. split; [assumption|exact S].
Qed.
Lemma fit_new_text_value v label a : opt_ok good_text label -> fit_arg v a -> gives good_ValueSpecificationElement (new_text_value label a).
Proof. intros L H. unfold new_text_value. eapply gives_bind; [eapply opt_text_good, H|]. intros s S. apply gives_ok. split; assumption. Qed.
Lemma fit_new_array_value v label a : opt_ok good_text label -> fit_arg v a -> gives good_ValueSpecificationElement (new_array_value label a).
Proof.
  intros L H. unfold new_array_value. eapply gives_bind; [eapply (lenient_fit _ good_ValueSpecificationElement); [intros ? ?; eapply strict_fit; [picked|eassumption]|exact H]|].
  intros l G. apply gives_ok. split; assumption.
Qed.
Lemma fit_new_record_value v label a : opt_ok good_text label -> fit_arg v a -> gives good_ValueSpecificationElement (new_record_value label a).
Proof.
  intros L H. unfold new_record_value. eapply gives_bind; [eapply (lenient_fit _ good_ValueSpecificationElement); [intros ? ?; eapply strict_fit; [picked|eassumption]|exact H]|].
  intros l G. apply gives_ok. split; assumption.
Qed.
Lemma fit_new_application_value v label kw : opt_ok good_text label -> fit_keywords v kw -> gives good_ValueSpecificationElement (new_application_value label kw).
Proof. intros L H. unfold new_application_value. through H. cbn [good_ValueSpecificationElement]. all_held. Qed.
Lemma fit_new_constant_reference v label a : opt_ok good_text label -> fit_arg v a -> gives good_ValueSpecificationElement (new_constant_reference label a).
Proof.
  intros L H. unfold new_constant_reference. eapply gives_bind with (P := opt_ok (good_ref rc_ConstantRef)); [|intros r R; apply gives_ok; split; assumption].
  pose proof (as_ref_fit v rc_ConstantRef a ltac:(member) H) as K.
  assert (G : gives (opt_ok (good_ref rc_ConstantRef)) match as_ref rc_ConstantRef a with Some r => Ok (Some r) | None => Err TypeError end).
  { destruct (as_ref rc_ConstantRef a); [apply gives_ok; exact K|apply gives_err]. }
  destruct a; try exact G; [apply gives_ok; exact I|].
  eapply gives_bind; [apply (ref_new_fit rc_ConstantRef); apply H|]. intros r R. apply gives_ok. exact R.
Qed.

(** ** Ports and connectors *)
Lemma optional_from {A} (P : A -> Prop) pick a : (forall o x, a = AObj o -> pick o = Some x -> P x) -> gives (opt_ok P) (optional (strict pick) a).
Proof.
  intros H. apply gives_optional. unfold strict. destruct a; try apply gives_err. destruct (pick _) eqn:E; [|apply gives_err]. apply gives_ok. eapply H; [reflexivity|exact E].
Qed.
Lemma fit_iref v dests a : fit_arg v a -> leads_to dests a -> gives (opt_ok (good_port_in_composition dests)) (optional (strict PortInCompositionTypeInstanceRef_object) a).
Proof.
  intros F L. apply optional_from. intros o x -> E. destruct o; try discriminate E. injection E as <-. destruct F as [F1 F2]. cbn in L. split; [exact F1|].
  destruct (PortInCompositionTypeInstanceRef_port_ref _); [split; assumption|exact I].
Qed.
Lemma fit_init_AssemblySwConnector v name kw : fit_keywords v kw -> fit_text name -> no_uuid kw ->
  leads_to provide_dests (kwarg "provide_port" kw) -> leads_to require_dests (kwarg "require_port" kw) ->
  gives good_AssemblySwConnector (init_AssemblySwConnector name kw).
Proof.
  intros H N U P R. unfold init_AssemblySwConnector. do 2 (step H). eapply gives_bind; [apply (fit_iref v); [apply kwarg_fit, H|exact P]|intros p GP].
  eapply gives_bind; [apply (fit_iref v); [apply kwarg_fit, H|exact R]|intros r GR]. apply gives_ok. unfold good_AssemblySwConnector. all_held.
Qed.
Lemma fit_init_DelegationSwConnector v name kw : fit_keywords v kw -> fit_text name -> no_uuid kw ->
  leads_to (provide_dests ++ require_dests)%list (kwarg "inner_port" kw) -> port_is_named (kwarg "inner_port" kw) ->
  gives good_DelegationSwConnector (init_DelegationSwConnector name kw).
Proof.
  intros H N U P R. unfold init_DelegationSwConnector. do 2 (step H).
  eapply gives_bind with (P := opt_ok (fun p => good_port_in_composition (provide_dests ++ require_dests)%list p /\ PortInCompositionTypeInstanceRef_port_ref p <> None)).
  { intros o E. pose proof (fit_iref v _ _ (kwarg_fit v "inner_port" kw H) P o E) as G. destruct o as [p|]; [|exact I]. split; [exact G|].
    destruct (kwarg "inner_port" kw) as [|b|n|s|l|l|l|ob|]; try discriminate E. destruct ob; try discriminate E. injection E as <-. exact R. }
  intros p GP. repeat (step H). apply gives_ok. unfold good_DelegationSwConnector. all_held.
Qed.
Definition good_either (e : ProvidePortComSpec + RequirePortComSpec) : Prop := match e with inl p => good_ProvidePortComSpec p | inr r => good_RequirePortComSpec r end.
Lemma either_fit v a : fit_arg v a -> gives good_either (either_com_spec a).
Proof. intros H. destruct a; try apply gives_err. destruct o; try apply gives_err; apply gives_ok; exact H. Qed.
Lemma all_ok_cat {A} (P : A -> Prop) l l' : all_ok P l -> all_ok P l' -> all_ok P (l ++ l').
Proof. induction l; cbn; tauto. Qed.
Lemma either_parts l : all_ok good_either l -> all_ok good_ProvidePortComSpec (provided_of l) /\ all_ok good_RequirePortComSpec (required_of l).
Proof. induction l as [|[p|r] l IH]; cbn; tauto. Qed.
Lemma fit_init_PRPortPrototype v name kw : fit_keywords v kw -> fit_text name -> no_uuid kw ->
  gives (fun x => PRPortPrototype_provided_com_spec x = [] \/ PRPortPrototype_required_com_spec x <> [] -> good_PRPortPrototype x) (init_PRPortPrototype name kw).
Proof.
  intros H N U. unfold init_PRPortPrototype. do 3 (step H).
  assert (EL : forall l, all_ok (fit_arg v) l -> gives (all_ok good_either) (mapM either_com_spec l)).
  { intros l L. apply gives_mapM. intros y Y. eapply either_fit, all_ok_in; [exact L|exact Y]. }
  pose proof (kwarg_fit v "provided_com_spec" kw H) as FP. pose proof (kwarg_fit v "required_com_spec" kw H) as FR.
  eapply gives_bind with (P := all_ok good_either).
  { unfold provided_argument. set (a := kwarg "provided_com_spec" kw) in *. clearbody a.
    assert (G : gives (all_ok good_either) match kwarg "required_com_spec" kw with AList _ | ATuple _ => match iterable a with Some l => mapM either_com_spec l | None => Err TypeError end | _ => Err TypeError end).
    { assert (G' : gives (all_ok good_either) match iterable a with Some l => mapM either_com_spec l | None => Err TypeError end).
      { destruct (iterable a) as [l|] eqn:E; [|apply gives_err]. apply gives_mapM. intros y Y. destruct (iterable_fit _ _ _ _ FP E Y) as [F|[s ->]]; [eapply either_fit, F|apply gives_err]. }
      destruct (kwarg "required_com_spec" kw); try apply gives_err; exact G'. }
    destruct a as [|b|n|s|l|l|l|o|]; try exact G; [apply gives_ok; exact I|]. destruct o; try exact G. apply gives_ok. split; [exact FP|exact I]. }
  intros p9 P. eapply gives_bind with (P := all_ok good_either).
  { unfold required_argument. destruct (kwarg "required_com_spec" kw) as [|b|n|s|l|l|l|o|]; try apply gives_err; try (apply EL; exact FR); [apply gives_ok; exact I|].
    destruct o; try apply gives_err. apply gives_ok. split; [exact FR|exact I]. }
  intros r9 R. apply gives_ok. intros D. destruct (either_parts _ (all_ok_cat _ _ _ P R)). unfold good_PRPortPrototype. splits; held.
Qed.

(** ** Runnables *)
Lemma has_end p s : has "]]>" (s ++ p) -> has "]]>" s \/ exists c r, p = String c r /\ c = ">"%char \/ has "]]>" p \/ exists r, p = String "]"%char r.
Proof.
  induction s as [|c s IH]; intros H; [right; exists " "%char, ""; auto|]. cbn in H. destruct H as [[r E]|H].
  - injection E as -> E. destruct s as [|c2 s]; [right; exists " "%char, ""; right; right; destruct p as [|c3 p]; [discriminate|]; injection E as -> _; eauto|].
    injection E as -> E. destruct s as [|c3 s]; [right; destruct p as [|c4 p]; [discriminate|]; injection E as -> _; exists ">"%char, p; auto|].
    injection E as -> _. left. cbn. left. exists s. reflexivity.
  - destruct (IH H) as [K|K]; [left; cbn; now right|now right].
Qed.
Lemma renamed_text s : good_text s -> good_text (s ++ "_0").
Proof.
  intros [N [P B]]. split; [destruct s; [easy|discriminate]|]. split.
  - apply all_chars_app. split; [exact P|]. cbn. unfold plain_char. cbn. splits; try discriminate; try exact I; left; lia.
  - intros H. destruct (has_end _ _ H) as [K|(c & r & [[E ->]|[K|[r' E]]])]; [now apply B|discriminate E| |discriminate E].
    cbn in K. destruct K as [[x E]|[[x E]|[[x E]|[]]]]; discriminate E.
Qed.
Lemma renamed_ident i : good_ident_no_uuid i -> good_ident_no_uuid (with_name (id_name i ++ "_0") i).
Proof. unfold good_ident_no_uuid, good_ident, with_name. cbn. intros ((A & B) & U). splits; try tauto. now apply renamed_text. Qed.
Section Renaming.
Context {A : Type} (name_of : A -> string) (rename : string -> A -> A) (P : A -> Prop).
Context (Same : forall a, rename (name_of a) a = a).
Context (Keep : forall a, P a -> P (rename (name_of a ++ "_0")%string a)).
Lemma append_named_all l x : all_ok P l -> P x -> all_ok P (append_named name_of rename l x).
Proof.
  intros L X. unfold append_named. apply all_ok_cat; [|split; [exact X|exact I]].
  destruct (rename_effect name_of rename Same (name_of x) l) as [[_ ->]|(u & a & w & -> & E & _ & ->)]; [exact L|].
  clear X. induction u as [|b u IH]; cbn in *; [|tauto]. rewrite <- E. destruct L. split; [now apply Keep|assumption].
Qed.
Lemma append_each_all l : all_ok P l -> all_ok P (append_each name_of rename l).
Proof.
  unfold append_each. assert (G : forall l acc, all_ok P acc -> all_ok P l -> all_ok P (fold_left (append_named name_of rename) l acc)); [|intros; now apply G].
  clear l. induction l as [|x l IH]; cbn [fold_left all_ok]; intros acc H K; [exact H|]. destruct K. apply IH; [now apply append_named_all|assumption].
Qed.
End Renaming.
Lemma fit_variable_accesses v a : fit_arg v a -> gives (all_ok good_VariableAccess) (variable_accesses a).
Proof.
  intros H. unfold variable_accesses. eapply gives_bind; [eapply (objects_fit _ good_VariableAccess); [picked|exact H]|]. intros l L. apply gives_ok. apply append_each_all; [now intros [[]]| |exact L].
  intros e [I R]. split; [apply renamed_ident, I|exact R].
Qed.
Lemma fit_result_points v a : fit_arg v a -> gives (all_ok good_AsynchronousServerCallResultPoint) (result_points a).
Proof.
  intros H. unfold result_points. eapply gives_bind; [eapply (objects_fit _ good_AsynchronousServerCallResultPoint); [picked|exact H]|]. intros l L. apply gives_ok. apply append_each_all; [now intros [[]]| |exact L].
  intros e [I R]. split; [apply renamed_ident, I|exact R].
Qed.
Lemma fit_internal_triggering_points v a : fit_arg v a -> gives (all_ok good_InternalTriggeringPoint) (internal_triggering_points a).
Proof.
  intros H. unfold internal_triggering_points. eapply gives_bind; [eapply (objects_fit _ good_InternalTriggeringPoint); [picked|exact H]|]. intros l L. apply gives_ok. apply append_each_all; [now intros [[]]| |exact L].
  intros e I. apply renamed_ident, I.
Qed.
Lemma fit_mode_switch_points v a : fit_arg v a -> gives (all_ok good_ModeSwitchPoint) (mode_switch_points a).
Proof.
  intros H. unfold mode_switch_points. eapply gives_bind; [eapply (objects_fit _ good_ModeSwitchPoint); [picked|exact H]|]. intros l L. apply gives_ok. apply append_each_all; [now intros [[]]| |exact L].
  intros e [I R]. split; [apply renamed_ident, I|exact R].
Qed.
Lemma fit_parameter_accesses v a : fit_arg v a -> gives (all_ok good_ParameterAccess) (parameter_accesses a).
Proof.
  intros H. unfold parameter_accesses. eapply gives_bind; [eapply (objects_fit _ good_ParameterAccess); [picked|exact H]|]. intros l L. apply gives_ok. apply append_each_all; [now intros [[]]| |exact L].
  intros e [I R]. split; [apply renamed_ident, I|exact R].
Qed.
Lemma fit_server_call_points v a : fit_arg v a -> gives (all_ok good_ServerCallPointElement) (server_call_points a).
Proof.
  intros H. unfold server_call_points. eapply gives_bind; [eapply (objects_fit _ good_ServerCallPointElement); [picked|exact H]|]. intros l L. apply gives_ok. apply append_each_all; [now intros [[[]]|[[]]]| |exact L].
  intros [[i a1 a2 a3]|[i a1 a2 a3 a4]]; intros [I R]; (split; [apply (renamed_ident i), I|exact R]).
Qed.
Lemma fit_wait_points v a : fit_arg v a -> gives (all_ok good_WaitPoint) (wait_points a).
Proof.
  intros H. unfold wait_points. eapply gives_bind; [eapply (objects_fit _ good_WaitPoint); [picked|exact H]|]. intros l L. apply gives_ok. apply append_each_all; [now intros [[]]| |exact L].
  intros e [I R]. split; [apply renamed_ident, I|exact R].
Qed.
Ltac point_lists H := first
  [eapply fit_variable_accesses, kwarg_fit, H|eapply fit_result_points, kwarg_fit, H|eapply fit_internal_triggering_points, kwarg_fit, H
  |eapply fit_mode_switch_points, kwarg_fit, H|eapply fit_parameter_accesses, kwarg_fit, H|eapply fit_server_call_points, kwarg_fit, H|eapply fit_wait_points, kwarg_fit, H].
Lemma fit_new_runnable v name kw : fit_keywords v kw -> fit_text name -> no_uuid kw ->
  gives (fun x => distinct_points x -> good_RunnableEntity v x) (new_runnable name kw).
Proof.
  intros H N U. unfold new_runnable. cbv zeta.
  repeat first [step H|eapply gives_bind; [point_lists H|let x := fresh "x" in let X := fresh "X" in intros x X; cbv beta in X]]. apply gives_ok. intros D.
  unfold good_RunnableEntity. splits; try held; try (apply areas_good; assumption).
Qed.

(** ** The behavior *)
Lemma options_good l : all_ok good_PortApiOption l -> good_options (fold_left append_port_api_option l []).
Proof.
  intros L. assert (K : keyed l (fold_left append_port_api_option l [])) by now apply keyed_iff.
  split; [|split; [|eapply keyed_nodup, K]].
  - revert L. generalize (fold_left append_port_api_option l []) K. clear K. intros m K. induction K as [|l m e _ IH _|l m e k _ IH _ _|l m1 old m2 e k _ IH _]; intros L; [exact I|..].
    + apply IH. clear -L. induction l; cbn in *; tauto.
    + assert (L' : all_ok good_PortApiOption l /\ good_PortApiOption e) by (clear -L; induction l; cbn in *; tauto). destruct L'. apply all_ok_cat; [auto|split; [assumption|exact I]].
    + assert (L' : all_ok good_PortApiOption l /\ good_PortApiOption e) by (clear -L; induction l; cbn in *; tauto). destruct L' as [L1 L2]. specialize (IH L1). clear -IH L2. induction m1; cbn in *; tauto.
  - assert (Key : forall e k, option_key e k -> option_map last_part (PortApiOption_port e) = Some k).
    { intros e k (r & E & R). rewrite E. cbn. f_equal. now apply last_part_iff. }
    generalize (fold_left append_port_api_option l []) K. clear K L. intros m K. induction K as [|l m e _ IH _|l m e k _ IH K _|l m1 old m2 e k _ IH K]; [exact I|assumption|..].
    + apply all_ok_cat; [exact IH|split; [now apply Key|exact I]].
    + apply Key in K. clear -IH K. induction m1; cbn in *; tauto.
Qed.
Lemma fit_new_behavior v name kw : fit_keywords v kw -> fit_text name -> no_uuid kw -> gives (good_SwcInternalBehavior v) (new_behavior name kw).
Proof.
  intros H N U. unfold new_behavior. do 4 (step H).
  eapply gives_bind; [eapply (objects_fit v good_RteEvent); [picked|apply kwarg_fit, H]|intros ev EV].
  eapply gives_bind; [eapply (objects_fit v (good_RunnableEntity v)); [picked|apply kwarg_fit, H]|intros ru RU].
  eapply gives_bind; [eapply (objects_fit v good_PortApiOption); [picked|apply kwarg_fit, H]|intros op OP]. apply gives_ok.
  unfold good_SwcInternalBehavior. splits; try held. now apply options_good.
Qed.
