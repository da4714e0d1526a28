(** Proofs about creating port interfaces, their parts and mode declaration groups. *)
From Verif Require Import Base PBase MNum MXml MEnum MRefTab MRef PRef MCodec MElem0 MElem1 MElemA MElemB MElemC MElem2 MElemD MElem3 MElem4 MElemE MElem5 MElemF MArxml MFind MValue MEvent MPort SPort PPort MAccess SAccess PAccess MRunnable SRunnable PRunnable MIface SIface.
Open Scope list_scope.

Ltac is_pick := intros; repeat match goal with o : lib_object |- _ => destruct o end; cbn in *; try discriminate; try reflexivity; congruence.

(** ** Arguments *)
Lemma accepts_iff c d : accepts c d = true <-> In d (rc_accepted c).
Proof.
  unfold accepts. rewrite existsb_exists. split.
  - intros (x & I & E). apply dest_eqb_spec in E. now subst.
  - intros I. exists d. split; [assumption|]. now apply dest_eqb_spec.
Qed.
Lemma opt_ref_iff c kinds kw k v : rc_accepted c = kinds -> kinds <> [] -> (opt_ref c (kwarg k kw) = Ok v <-> holds (means_ref kinds) kw k v).
Proof.
  intros <- N. apply opt_iff. intros a x _. unfold check_and_set_reference. destruct (rc_accepted c) as [|d ds] eqn:A; [contradiction|]. rewrite <- A. clear N.
  split.
  - destruct a as [| | |s| | | |o| ]; try discriminate.
    + destruct ds; rewrite A; [|discriminate]. unfold ref_new. cbn [bind]. destruct (accepts c d); [|discriminate]. intros E. injection E as <-. now constructor.
    + destruct o; try discriminate. rewrite A. intros E. assert (F : ref_new c (rf_value r) (Some (rf_dest r)) = Ok x) by (destruct (_ || _); [exact E|discriminate]).
      unfold ref_new in F. cbn [bind] in F. destruct (accepts c (rf_dest r)) eqn:Ac; [|discriminate]. injection F as <-. apply accepts_iff in Ac. rewrite A in Ac. destruct r. now constructor.
  - rewrite A. intros [s k0 E|c0 r I].
    + injection E as <- ->. unfold ref_new. cbn [bind]. assert (accepts c d = true) as -> by (apply accepts_iff; rewrite A; now left). reflexivity.
    + rewrite <- A in I. apply accepts_iff in I. rewrite I, orb_true_r. unfold ref_new. cbn [bind]. rewrite I. now destruct r.
Qed.
Lemma data_type_iff kw k v : opt_ref rc_AutosarDataTypeRef (kwarg k kw) = Ok v <-> holds means_data_type kw k v.
Proof. now apply opt_ref_iff. Qed.
Lemma mode_ref_iff kw k v : opt_ref rc_ModeDeclarationRef (kwarg k kw) = Ok v <-> holds means_mode_ref kw k v.
Proof. now apply opt_ref_iff. Qed.
Lemma group_ref_iff kw k v : opt_ref rc_ModeDeclarationGroupRef (kwarg k kw) = Ok v <-> holds means_group_ref kw k v.
Proof. now apply opt_ref_iff. Qed.
Lemma variable_ref_iff kw k v : opt_ref rc_VariableDataPrototypeRef (kwarg k kw) = Ok v <-> holds means_variable_ref kw k v.
Proof. now apply opt_ref_iff. Qed.
Lemma bool_strict_iff kw k v : opt_bool_strict (kwarg k kw) = Ok v <-> holds means_yes_no kw k v.
Proof. apply opt_iff. intros a x _. unfold means_yes_no. split; [destruct a; try discriminate; intros E; now injection E as <-|now intros ->]. Qed.
Lemma int_strict_iff kw k v : opt_int_strict (kwarg k kw) = Ok v <-> holds means_integer kw k v.
Proof.
  apply opt_iff. intros a x _. split.
  - destruct a as [|b|n| | | | | | ]; try discriminate.
    + intros E. injection E as <-. destruct b; constructor.
    + destruct n; [|discriminate]. intros E. injection E as <-. constructor.
  - intros [z| | ]; reflexivity.
Qed.
Lemma a_iff {A} (pick : lib_object -> option A) make (Back : forall x, pick (make x) = Some x) (Only : forall o x, pick o = Some x -> o = make x) kw k v :
  optional (strict pick) (kwarg k kw) = Ok v <-> holds (is_a make) kw k v.
Proof. apply opt_iff. intros a x _. now apply strict_iff. Qed.
Lemma some_iff {A} (pick : lib_object -> option A) make (Back : forall x, pick (make x) = Some x) (Only : forall o x, pick o = Some x -> o = make x) kw k l :
  one_or_list (strict pick) (kwarg k kw) = Ok l <-> holds_list (means_list (is_a make)) kw k l.
Proof. apply one_or_list_iff; [intros x H; discriminate|intros r x H; discriminate|]. intros a x. now apply strict_iff. Qed.
Lemma service_kind_iff kw k v : optional (strict service_kind_of) (kwarg k kw) = Ok v <-> holds (is_a OServiceKind) kw k v.
Proof. apply a_iff; is_pick. Qed.
Lemma handle_invalid_iff kw k v : optional (strict handle_invalid_of) (kwarg k kw) = Ok v <-> holds (is_a OHandleInvalid) kw k v.
Proof. apply a_iff; is_pick. Qed.
Lemma arg_policy_iff kw k v : optional (strict arg_policy_of) (kwarg k kw) = Ok v <-> holds (is_a OServerArgImplPolicy) kw k v.
Proof. apply a_iff; is_pick. Qed.
Lemma access_iff kw k v : optional (strict access_of) (kwarg k kw) = Ok v <-> holds (is_a OSwCalibrationAccess) kw k v.
Proof. apply a_iff; is_pick. Qed.
Lemma direction_iff kw k v : optional (strict direction_of) (kwarg k kw) = Ok v <-> holds (is_a OArgumentDirection) kw k v.
Proof. apply a_iff; is_pick. Qed.
Lemma reaction_iff kw k v : optional (strict reaction_of) (kwarg k kw) = Ok v <-> holds (is_a OModeErrorReactionPolicy) kw k v.
Proof. apply a_iff; is_pick. Qed.
Lemma behavior_iff kw k v : optional (strict behavior_of) (kwarg k kw) = Ok v <-> holds (is_a OModeErrorBehavior) kw k v.
Proof. apply a_iff; is_pick. Qed.
Lemma group_iff kw k v : optional (strict group_of) (kwarg k kw) = Ok v <-> holds (is_a OModeDeclarationGroupPrototype) kw k v.
Proof. apply a_iff; is_pick. Qed.
Lemma variables_iff kw k l : one_or_list (strict variable_of) (kwarg k kw) = Ok l <-> holds_list (means_list (is_a OVariableDataPrototype)) kw k l.
Proof. apply some_iff; is_pick. Qed.
Lemma policies_iff kw k l : one_or_list (strict policy_of) (kwarg k kw) = Ok l <-> holds_list (means_list (is_a OInvalidationPolicy)) kw k l.
Proof. apply some_iff; is_pick. Qed.
Lemma params_iff kw k l : one_or_list (strict parameter_of) (kwarg k kw) = Ok l <-> holds_list (means_list (is_a OParameterDataPrototype)) kw k l.
Proof. apply some_iff; is_pick. Qed.
Lemma args_iff kw k l : one_or_list (strict argument_of) (kwarg k kw) = Ok l <-> holds_list (means_list (is_a OArgumentDataPrototype)) kw k l.
Proof. apply some_iff; is_pick. Qed.
Lemma operations_iff kw k l : one_or_list (strict operation_of) (kwarg k kw) = Ok l <-> holds_list (means_list (is_a OClientServerOperation)) kw k l.
Proof. apply some_iff; is_pick. Qed.
Lemma transitions_iff kw k l : one_or_list (strict transition_of) (kwarg k kw) = Ok l <-> holds_list (means_list (is_a OModeTransition)) kw k l.
Proof. apply some_iff; is_pick. Qed.
Lemma elements_iff kw k l : sender_receiver_elements (kwarg k kw) = Ok l <-> holds_list (means_list (is_a OVariableDataPrototype)) kw k l.
Proof.
  rewrite <- variables_iff. destruct (kwarg k kw) as [| | | | | | |o| ]; try (split; [discriminate|]; cbn; discriminate); try tauto.
  destruct o; cbn; tauto || (split; discriminate).
Qed.
Lemma possible_errors_iff kw k l : possible_errors (kwarg k kw) = Ok l <-> holds_list (fun a l => a = AList (map (fun x => AObj (OApplicationError x)) l)) kw k l.
Proof.
  unfold holds_list. destruct (given k kw) as [a|] eqn:G.
  2: { apply given_none in G as ->. cbn. split; [intros H; now injection H as <-|now intros ->]. }
  apply given_some in G as [-> N]. split.
  - destruct a; try discriminate; [contradiction|]. intros E. cbn in E. f_equal. revert E. apply (strict_all error_of OApplicationError); is_pick.
  - intros ->. cbn. apply (strict_all error_of OApplicationError); is_pick || reflexivity.
Qed.
Lemma error_refs_iff kw k l : error_refs (kwarg k kw) = Ok l <-> holds_list means_error_refs kw k l.
Proof.
  unfold holds_list. destruct (given k kw) as [a|] eqn:G.
  2: { apply given_none in G as ->. cbn. split; [intros H; now injection H as <-|now intros ->]. }
  apply given_some in G as [-> N]. unfold error_refs. destruct (as_ref rc_ApplicationErrorRef a) as [r|] eqn:As.
  - apply as_ref_iff in As. split.
    + intros E. injection E as <-. apply error_refs_given. now apply list_one.
    + intros H. inversion As as [c r0 Ec]; subst. inversion H as [|a' l' M]; subst. inversion M as [a' x Hx|]; subst. inversion Hx. reflexivity.
  - assert (No : forall r, ~ of_class "ApplicationErrorRef" a r) by (intros r H; apply (as_ref_iff rc_ApplicationErrorRef) in H; congruence).
    assert (Some_list : forall l0, means_error_refs a l0 -> (exists s, a = AStr s /\ l0 = [mkRef s IdentifiableSubTypes_APPLICATION_ERROR]) \/
                                    (exists args, a = AList args /\ Forall2 (of_class "ApplicationErrorRef") args l0)).
    { intros l0 H. inversion H as [s|a' l' M]; subst; [left; eauto|]. inversion M as [a' x Hx|args xs Hx]; subst; [destruct (No x Hx)|right; eauto]. }
    destruct a as [| | |s|args| | | | ]; [contradiction|..];
      try (split; [discriminate|]; intros H; apply Some_list in H as [(s & E & _)|(args & E & _)]; discriminate).
    + split.
      * intros E. cbn in E. injection E as <-. constructor.
      * intros H. apply Some_list in H as [(s0 & E & ->)|(args & E & _)]; [|discriminate]. injection E as <-. reflexivity.
    + rewrite class_mapM. split.
      * intros H. apply error_refs_given. now apply list_several.
      * intros H. apply Some_list in H as [(s0 & E & _)|(args' & E & H)]; [discriminate|]. injection E as <-. exact H.
Qed.
Lemma props_iff kw k v : optional props_of_arg (kwarg k kw) = Ok v <-> holds means_props kw k v.
Proof.
  apply opt_iff. intros a x _. split.
  - destruct a as [| | | | | | |o| ]; try discriminate. destruct o; try discriminate; intros E; injection E as <-; constructor.
  - intros [e|e]; reflexivity.
Qed.
Lemma identifiable_iff n kw i : new_identifiable n kw = Ok i <-> identity n kw i.
Proof. now apply identity_iff. Qed.

(** ** Constructors *)
Ltac conv_in H := first [apply keywords_iff in H|apply identifiable_iff in H|apply props_iff in H|apply data_type_iff in H|apply mode_ref_iff in H|apply group_ref_iff in H|
  apply variable_ref_iff in H|apply bool_strict_iff in H|apply int_strict_iff in H|apply opt_count_iff in H|apply opt_value_specification_iff in H|apply service_kind_iff in H|
  apply handle_invalid_iff in H|apply arg_policy_iff in H|apply access_iff in H|apply direction_iff in H|apply reaction_iff in H|apply behavior_iff in H|apply group_iff in H|apply elements_iff in H|
  apply variables_iff in H|apply policies_iff in H|apply params_iff in H|apply args_iff in H|apply operations_iff in H|apply transitions_iff in H|apply possible_errors_iff in H|
  apply error_refs_iff in H].
Ltac conv := first [apply keywords_iff|apply identifiable_iff|apply props_iff|apply data_type_iff|apply mode_ref_iff|apply group_ref_iff|apply variable_ref_iff|apply bool_strict_iff|
  apply int_strict_iff|apply opt_count_iff|apply opt_value_specification_iff|apply service_kind_iff|apply handle_invalid_iff|apply arg_policy_iff|apply access_iff|apply direction_iff|
  apply reaction_iff|apply behavior_iff|apply group_iff|apply elements_iff|apply variables_iff|apply policies_iff|apply params_iff|apply args_iff|apply operations_iff|apply transitions_iff|
  apply possible_errors_iff|apply error_refs_iff]; eassumption.
Ltac undo := repeat match goal with
  | H : bind _ _ = Ok _ |- _ => let x := fresh "x" in let E := fresh "E" in apply bind_iff in H as (x & E & H); try conv_in E
  | H : (let '(_, _) := ?x in _) = Ok _ |- _ => destruct x
  | H : Ok _ = Ok _ |- _ => injection H as <-
  end.
Ltac redo := repeat (apply bind_iff; first [exists tt; split; [apply keywords_iff; eassumption|]|eexists; split; [first [conv|eassumption]|]]; cbv beta iota).
Lemma keywords_ok names kw : only names kw -> check_keywords names kw = Ok tt.
Proof. apply keywords_iff. Qed.
Lemma new_data_iff name kw i props t : new_data name kw = Ok (i, props, t) <-> describes_data name kw i props t.
Proof.
  unfold new_data, describes_data. split.
  - intros H. apply bind_iff in H as (x & E & H). conv_in E. apply bind_iff in H as (x0 & E0 & H). conv_in E0. apply bind_iff in H as (x1 & E1 & H). conv_in E1. injection H as <- <- <-. auto.
  - intros (H1 & H2 & H3). redo. reflexivity.
Qed.
Lemma new_variable_iff name kw d : new_variable name kw = Ok d <-> describes_variable name kw d.
Proof.
  unfold new_variable, describes_variable. split.
  - intros H. apply bind_iff in H as (u & K & H). apply keywords_iff in K. apply bind_iff in H as (((i & p) & t) & E & H). apply new_data_iff in E. undo. splits; assumption.
  - intros (K & D & V). destruct d. cbn in D, V. apply bind_iff. exists tt. split; [now apply keywords_iff|]. apply bind_iff. eexists. split; [apply new_data_iff; eassumption|]. cbv beta iota. redo. reflexivity.
Qed.
Lemma new_parameter_iff name kw d : new_parameter name kw = Ok d <-> describes_parameter name kw d.
Proof.
  unfold new_parameter, describes_parameter. split.
  - intros H. apply bind_iff in H as (u & K & H). apply keywords_iff in K. apply bind_iff in H as (((i & p) & t) & E & H). apply new_data_iff in E. undo. splits; assumption.
  - intros (K & D & V). destruct d. cbn in D, V. apply bind_iff. exists tt. split; [now apply keywords_iff|]. apply bind_iff. eexists. split; [apply new_data_iff; eassumption|]. cbv beta iota. redo. reflexivity.
Qed.
Lemma new_argument_iff name a kw d : new_argument name a kw = Ok d <->
  only argument_arguments kw /\ describes_argument name kw d /\ optional (strict direction_of) a = Ok (ArgumentDataPrototype_direction d).
Proof.
  unfold new_argument, describes_argument. split.
  - intros H. apply bind_iff in H as (u & K & H). apply keywords_iff in K. apply bind_iff in H as (((i & p) & t) & E & H). apply new_data_iff in E.
    apply bind_iff in H as (v & V & H). undo. splits; assumption.
  - intros (K & (D & P) & V). destruct d. cbn in D, V, P. apply bind_iff. exists tt. split; [now apply keywords_iff|]. apply bind_iff. eexists. split; [apply new_data_iff; eassumption|]. cbv beta iota.
    rewrite V. cbn [bind]. redo. reflexivity.
Qed.
Lemma new_interface_iff name kw i s k : new_interface name kw = Ok (i, s, k) <-> describes_interface name kw i s k.
Proof.
  unfold new_interface, describes_interface. split.
  - intros H. apply bind_iff in H as (x & E & H). conv_in E. apply bind_iff in H as (x0 & E0 & H). conv_in E0. apply bind_iff in H as (x1 & E1 & H). conv_in E1. injection H as <- <- <-. auto.
  - intros (H1 & H2 & H3). redo. reflexivity.
Qed.
Ltac interface := split;
  [let H := fresh "H" in let K := fresh "K" in let E := fresh "E" in intros H; apply bind_iff in H as (? & K & H); apply keywords_iff in K; apply bind_iff in H as (((? & ?) & ?) & E & H); apply new_interface_iff in E; undo; splits; assumption|
   let K := fresh "K" in let D := fresh "D" in let R := fresh "R" in match goal with |- _ -> _ = Ok ?i => destruct i end; intros (K & D & R); cbn -[identity holds holds_list describes_interface] in D, R; repeat match goal with H : _ /\ _ |- _ => destruct H end;
   apply bind_iff; exists tt; split; [now apply keywords_iff|]; apply bind_iff; eexists; split; [apply new_interface_iff; eassumption|]; cbv beta iota; redo; reflexivity].
Lemma new_sender_receiver_iff name kw i : new_sender_receiver_interface name kw = Ok i <-> describes_sender_receiver name kw i.
Proof. unfold new_sender_receiver_interface, describes_sender_receiver. interface. Qed.
Lemma new_nv_data_iff name kw i : new_nv_data_interface name kw = Ok i <-> describes_nv_data name kw i.
Proof. unfold new_nv_data_interface, describes_nv_data. interface. Qed.
Lemma new_parameters_iff name kw i : new_parameter_interface name kw = Ok i <-> describes_parameters name kw i.
Proof. unfold new_parameter_interface, describes_parameters. interface. Qed.
Lemma new_mode_switch_iff name kw i : new_mode_switch_interface name kw = Ok i <-> describes_mode_switch name kw i.
Proof. unfold new_mode_switch_interface, describes_mode_switch. interface. Qed.
Lemma new_client_server_iff name kw i : new_client_server_interface name kw = Ok i <-> describes_client_server name kw i.
Proof. unfold new_client_server_interface, describes_client_server. interface. Qed.
Ltac object := split; [intros; undo; splits; assumption|];
  match goal with |- _ -> _ = Ok ?i => destruct i end; cbn -[identity holds holds_list]; intros; repeat match goal with H : _ /\ _ |- _ => destruct H end; redo; reflexivity.
Lemma new_policy_iff kw p : new_policy kw = Ok p <-> describes_policy kw p.
Proof. unfold new_policy, describes_policy. object. Qed.
Lemma new_error_iff name kw e : new_application_error name kw = Ok e <-> describes_error name kw e.
Proof. unfold new_application_error, describes_error. object. Qed.
Lemma new_operation_iff name kw o : new_operation name kw = Ok o <-> describes_operation name kw o.
Proof. unfold new_operation, describes_operation. object. Qed.
Lemma new_group_prototype_iff name kw g : new_group_prototype name kw = Ok g <-> describes_group_prototype name kw g.
Proof. unfold new_group_prototype, describes_group_prototype. object. Qed.
Lemma new_mode_iff name kw m : new_mode name kw = Ok m <-> describes_mode name kw m.
Proof. unfold new_mode, describes_mode. object. Qed.
Lemma new_error_behavior_iff kw b : new_error_behavior kw = Ok b <-> describes_error_behavior kw b.
Proof. unfold new_error_behavior, describes_error_behavior. object. Qed.
Lemma new_transition_iff name kw t : new_transition name kw = Ok t <-> describes_transition name kw t.
Proof. unfold new_transition, describes_transition. object. Qed.

(** ** Modes *)
Lemma mode_item_iff a m : mode_item a = Ok m <-> means_mode a m.
Proof.
  assert (P : forall s, new_mode s [] = Ok m <-> m = plain_mode s None).
  { intros s. cbn. split; [intros E; now injection E as <-|now intros ->]. }
  assert (V : forall s v, new_mode s [("value", v)] = Ok m <-> (v = ANone /\ m = plain_mode s None) \/ (exists z, means_count v z /\ m = plain_mode s (Some z))).
  { intros s v. assert (U : new_mode s [("value", v)] = let* value := opt_count v in Ok (plain_mode s value)) by reflexivity. rewrite U. unfold opt_count, optional. split.
    - intros E. destruct (match v with ANone => true | _ => false end) eqn:N.
      + destruct v; try discriminate. injection E as <-. auto.
      + right. assert (F : (let* value := let* x := positive_int v in Ok (Some x) in Ok (plain_mode s value)) = Ok m) by (destruct v; try discriminate; exact E).
        apply bind_iff in F as (w & F & G). apply bind_iff in F as (z & F & H). injection H as <-. injection G as <-. exists z. split; [now apply count_iff|reflexivity].
    - intros [(-> & ->)|(z & C & ->)]; [reflexivity|]. pose proof C as C'. apply count_iff in C'. destruct C; cbn in *; try reflexivity. now rewrite C'. }
  split.
  - intros E. destruct a as [| | |s| |l| |o| ]; try discriminate.
    + apply P in E as ->. constructor.
    + destruct l as [|[| | |s| | | | | ] [|v [|? ?]]]; try discriminate.
      * apply P in E as ->. constructor.
      * apply V in E as [(-> & ->)|(z & C & ->)]; now constructor.
    + destruct o; try discriminate. injection E as <-. constructor.
  - intros H. destruct H as [m|s|s|s a z C|s]; try reflexivity. cbn [mode_item]. apply V. right. eauto.
Qed.
Lemma mode_items_iff kw k l : mode_items (kwarg k kw) = Ok l <-> holds_list means_modes kw k l.
Proof.
  unfold holds_list. destruct (given k kw) as [a|] eqn:G.
  2: { apply given_none in G as ->. cbn. split; [intros H; now injection H as <-|now intros ->]. }
  apply given_some in G as [-> N]. split.
  - destruct a as [| | | |args| | |o| ]; try discriminate; [contradiction|..].
    + intros E. constructor. eapply mapM_iff; [intros; apply mode_item_iff|exact E].
    + destruct o; try discriminate. intros E. injection E as <-. constructor.
  - intros [m|args ms H]; [reflexivity|]. cbn. eapply mapM_iff; [intros; apply mode_item_iff|exact H].
Qed.
Lemma new_mode_declaration_group_iff name kw g : new_mode_declaration_group name kw = Ok g <-> describes_mode_group name kw g.
Proof.
  unfold new_mode_declaration_group, describes_mode_group. split.
  - intros. undo. apply mode_items_iff in E5. splits; assumption.
  - destruct g. cbn -[identity holds holds_list]. intros. repeat match goal with H : _ /\ _ |- _ => destruct H end. apply mode_items_iff in H2. redo. reflexivity.
Qed.

(** ** Adding parts *)
Lemma adding_iff {A B} (i : A) (add : A -> B -> A) refer r i' x rf : adding i add refer r = (i', Ok (x, rf)) <-> r = Ok x /\ i' = add i x /\ rf = refer x.
Proof.
  unfold adding. destruct r as [y|e]; split.
  - intros H. injection H as <- <- <-. auto.
  - intros (E & -> & ->). injection E as ->. reflexivity.
  - discriminate.
  - intros (E & _). discriminate.
Qed.
Lemma adding_fails {A B} (i : A) (add : A -> B -> A) refer r i' e : adding i add refer r = (i', Err e) <-> r = Err e /\ i' = i.
Proof.
  unfold adding. destruct r as [y|x]; split.
  - discriminate.
  - intros (E & _). discriminate.
  - intros H. injection H as <- <-. auto.
  - intros (E & ->). injection E as ->. reflexivity.
Qed.
Lemma adding_unchanged {A B} (i : A) (add : A -> B -> A) refer r i' e : adding i add refer r = (i', Err e) -> i' = i.
Proof. intros H. now apply adding_fails in H. Qed.
Lemma part_ref_iff path name k : part_ref path name k = reference path name k.
Proof. now destruct path. Qed.
Lemma identity_name name kw i : identity name kw i -> id_name i = name.
Proof. now intros []. Qed.
Lemma more_data i d i' : one_more_data i d i' <-> i' = add_data_element i d.
Proof. unfold one_more_data, add_data_element. destruct i, i'. cbn. split; [intros (-> & -> & -> & -> & ->); reflexivity|intros E; injection E as -> -> -> -> ->; auto]. Qed.
Lemma more_policy i p i' : one_more_policy i p i' <-> i' = add_policy i p.
Proof. unfold one_more_policy, add_policy. destruct i, i'. cbn. split; [intros (-> & -> & -> & -> & ->); reflexivity|intros E; injection E as -> -> -> -> ->; auto]. Qed.
Lemma more_operation i o i' : one_more_operation i o i' <-> i' = add_operation i o.
Proof. unfold one_more_operation, add_operation. destruct i, i'. cbn. split; [intros (-> & -> & -> & -> & ->); reflexivity|intros E; injection E as -> -> -> -> ->; auto]. Qed.
Lemma more_error i e i' : one_more_error i e i' <-> i' = add_possible_error i e.
Proof. unfold one_more_error, add_possible_error. destruct i, i'. cbn. split; [intros (-> & -> & -> & -> & ->); reflexivity|intros E; injection E as -> -> -> -> ->; auto]. Qed.
Lemma more_argument o a o' : one_more_argument o a o' <-> o' = add_argument o a.
Proof. unfold one_more_argument, add_argument. destruct o, o'. cbn. split; [intros (-> & -> & -> & -> & ->); reflexivity|intros E; injection E as -> -> -> -> ->; auto]. Qed.
Lemma keys_without j k kw : In k (map fst (without j kw)) <-> In k (map fst kw) /\ k <> j.
Proof.
  unfold without. rewrite !in_map_iff. split.
  - intros (x & <- & I). apply filter_In in I as [I N]. destruct (String.eqb_spec (fst x) j); [discriminate|]. split; [|assumption]. now exists x.
  - intros ((x & <- & I) & N). exists x. split; [reflexivity|]. apply filter_In. split; [assumption|]. destruct (String.eqb_spec (fst x) j); [contradiction|reflexivity].
Qed.
Lemma create_argument_iff o name kw o' a r : create_argument o name kw = (o', Ok (a, r)) <->
  only ("direction" :: argument_arguments) kw /\ describes_argument name kw a /\ holds (is_a OArgumentDirection) kw "direction" (ArgumentDataPrototype_direction a) /\ one_more_argument o a o' /\ r = None.
Proof.
  unfold create_argument. rewrite adding_iff, new_argument_iff, direction_iff, more_argument.
  assert (Other : forall k, k <> "direction" -> given k (without "direction" kw) = given k kw) by (intros k N; now apply given_without).
  assert (K : only argument_arguments (without "direction" kw) <-> only ("direction" :: argument_arguments) kw).
  { unfold only. split; intros H k I.
    - destruct (string_dec k "direction") as [->|N]; [now left|right]. apply H. now apply keys_without.
    - apply keys_without in I as [I N]. apply H in I as [I|I]; [congruence|assumption]. }
  assert (D : describes_argument name (without "direction" kw) a <-> describes_argument name kw a).
  { unfold describes_argument, describes_data, identity, holds. rewrite !Other by discriminate. reflexivity. }
  rewrite K, D. tauto.
Qed.
Lemma fixed_direction_iff o name kw o' a r d : adding o add_argument (fun _ => None) (new_argument name (AObj (OArgumentDirection d)) kw) = (o', Ok (a, r)) <->
  only argument_arguments kw /\ describes_argument name kw a /\ ArgumentDataPrototype_direction a = Some d /\ one_more_argument o a o' /\ r = None.
Proof.
  rewrite adding_iff, new_argument_iff, more_argument. cbn. split.
  - intros ((H1 & H2 & H3) & H4 & H5). injection H3 as H3. auto.
  - intros (H1 & H2 & H3 & H4 & H5). rewrite H3. auto.
Qed.
Lemma policy_iff i a h i' p r : create_invalidation_policy i a h = (i', Ok (p, r)) <->
  (exists x, (a = AStr (rf_value x) \/ of_class "VariableDataPrototypeRef" a x) /\ rf_dest x = IdentifiableSubTypes_VARIABLE_DATA_PROTOTYPE /\
    InvalidationPolicy_data_element_ref p = Some x) /\
  (exists y, h = AObj (OHandleInvalid y) /\ InvalidationPolicy_handle_invalid p = Some y) /\ one_more_policy i p i' /\ r = None.
Proof.
  unfold create_invalidation_policy. rewrite adding_iff, more_policy, bind_iff.
  assert (N : forall x y q, new_policy [("data_element_ref", AObj (ORef rc_VariableDataPrototypeRef x)); ("handle_invalid", AObj (OHandleInvalid y))] = Ok q <->
              rf_dest x = IdentifiableSubTypes_VARIABLE_DATA_PROTOTYPE /\ q = mkInvalidationPolicy (Some x) (Some y)).
  { intros x y q. rewrite new_policy_iff. unfold describes_policy, holds. cbn. destruct q as [[q1|] [q2|]]; cbn; split; try tauto; try (intros (_ & E); discriminate).
    - intros (_ & H1 & H2). inversion H1 as [|c0 r0 I]; subst. unfold is_a in H2. injection H2 as <-. destruct I as [I|[]]. auto.
    - intros (I & E). injection E as -> ->. splits; [intros k K; exact K|apply ref_object; now left|reflexivity]. }
  assert (T : forall s, ref_default rc_VariableDataPrototypeRef s = Ok (mkRef s IdentifiableSubTypes_VARIABLE_DATA_PROTOTYPE)) by reflexivity.
  split.
  - intros ((x & X & H) & -> & ->). apply bind_iff in H as (y & Y & H). apply (strict_iff handle_invalid_of OHandleInvalid) in Y as ->; [|is_pick ..]. apply N in H as (D & ->). cbn.
    split; [|split; [|split]]; [|eauto|reflexivity|reflexivity]. exists x. split; [|auto]. destruct a as [| | |s| | | |o| ]; try discriminate.
    + rewrite T in X. injection X as <-. now left.
    + right. apply (as_ref_iff rc_VariableDataPrototypeRef). destruct (as_ref _ _); [|discriminate]. now injection X as ->.
  - intros ((x & X & D & Px) & (y & -> & Py) & -> & ->). split; [|auto]. exists x. split.
    + destruct X as [->|X]; [rewrite T; destruct x; cbn in *; now subst|]. apply (as_ref_iff rc_VariableDataPrototypeRef) in X. rewrite X. destruct a; try discriminate; reflexivity.
    + cbn [strict handle_invalid_of bind]. apply N. split; [assumption|]. destruct p. cbn in *. now subst.
Qed.
Lemma error_ref_iff o s o' x r : create_possible_error_ref o s = (o', Ok (x, r)) <-> x = mkRef s IdentifiableSubTypes_APPLICATION_ERROR /\ one_more_error_ref o x o' /\ r = None.
Proof.
  unfold create_possible_error_ref. rewrite adding_iff. assert (T : ref_default rc_ApplicationErrorRef s = Ok (mkRef s IdentifiableSubTypes_APPLICATION_ERROR)) by reflexivity.
  rewrite T. unfold one_more_error_ref. destruct o, o'. cbn. split.
  - intros (E & F & ->). injection E as <-. injection F as -> -> -> -> ->. auto 10.
  - intros (-> & (-> & -> & -> & -> & ->) & ->). auto.
Qed.

(** ** Operations of an interface *)
Lemma nth_replaced {A} (l : list A) (n : nat) x (m : nat) : (n < List.length l)%nat -> nth_error (firstn n l ++ x :: skipn (S n) l) m = if Nat.eqb m n then Some x else nth_error l m.
Proof.
  revert l m. induction n as [|n IH]; intros [|a l] m L; try (cbn in L; lia).
  - destruct m; reflexivity.
  - destruct m; [reflexivity|]. cbn [firstn skipn app nth_error Nat.eqb]. apply IH. cbn in L. lia.
Qed.
Lemma nth_differ {A} (l l' : list A) : (forall m, nth_error l m = nth_error l' m) -> l = l'.
Proof.
  revert l'. induction l as [|a l IH]; intros [|b l'] H; [reflexivity|specialize (H 0%nat); discriminate|specialize (H 0%nat); discriminate|].
  pose proof (H 0%nat) as E. injection E as ->. f_equal. apply IH. intros m. exact (H (S m)).
Qed.
Lemma on_operation_iff {A} i n (f : ClientServerOperation -> ClientServerOperation * A) i' r : on_operation i n f = (i', Some r) <-> changes_operation n (fun o o' => f o = (o', r)) i i'.
Proof.
  unfold on_operation, changes_operation. destruct (nth_error (ClientServerInterface_operations i) n) as [o|] eqn:N.
  2: { split; [discriminate|]. intros ((o & o' & E & _) & _). discriminate. }
  assert (L : (n < List.length (ClientServerInterface_operations i))%nat) by (apply nth_error_Some; congruence).
  destruct (f o) as [o1 r1] eqn:F. split.
  - intros E. apply pair_equal_spec in E as [<- E]. injection E as <-. cbn -[skipn firstn nth_error]. splits; try reflexivity.
    + exists o, o1. splits; [reflexivity| |assumption]. now rewrite nth_replaced, Nat.eqb_refl by assumption.
    + intros m M. rewrite nth_replaced by assumption. apply Nat.eqb_neq in M. now rewrite M.
  - intros ((o' & o2 & E1 & E2 & E3) & Rest & H1 & H2 & H3 & H4). injection E1 as <-. rewrite F in E3. injection E3 as -> ->. f_equal. destruct i', i. cbn -[skipn firstn nth_error] in *. subst. f_equal.
    apply nth_differ. intros m. rewrite nth_replaced by assumption. destruct (Nat.eqb_spec m n) as [->|M]; [now rewrite E2|]. now rewrite Rest.
Qed.
