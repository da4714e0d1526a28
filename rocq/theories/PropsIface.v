(** Port interfaces and mode declaration groups created from arguments: C50, C51. *)
From Verif Require Import Base PBase MNum MXml SXml PXml2 MEnum MRefTab MRef SEnum MCodec SCodec SElem MElem0 MElem1 SElem1 MElemA MElemB MElemC MElem2 MElemD MElem3 MElem4 MElemE MElem5 MElemF SElemF PElemF PropsElem MArxml MFind MValue MEvent MPort SPort PPort MAccess SAccess PAccess MRunnable SRunnable PRunnable MIface SIface PIface.
Open Scope list_scope.

(** ** C50: port interfaces *)
(** A constructor succeeds if and only if the arguments describe an interface, and then returns that one. *)
Theorem C50_sender_receiver_interface name kw i : new_sender_receiver_interface name kw = Ok i <-> describes_sender_receiver name kw i.
Proof. apply new_sender_receiver_iff. Qed.
Theorem C50_nv_data_interface name kw i : new_nv_data_interface name kw = Ok i <-> describes_nv_data name kw i.
Proof. apply new_nv_data_iff. Qed.
Theorem C50_parameter_interface name kw i : new_parameter_interface name kw = Ok i <-> describes_parameters name kw i.
Proof. apply new_parameters_iff. Qed.
Theorem C50_mode_switch_interface name kw i : new_mode_switch_interface name kw = Ok i <-> describes_mode_switch name kw i.
Proof. apply new_mode_switch_iff. Qed.
Theorem C50_client_server_interface name kw i : new_client_server_interface name kw = Ok i <-> describes_client_server name kw i.
Proof. apply new_client_server_iff. Qed.
Theorem C50_policy kw p : new_policy kw = Ok p <-> describes_policy kw p.
Proof. apply new_policy_iff. Qed.
(** A call that creates a part succeeds if and only if the arguments describe one; then the part is
    returned and added at the end, nothing else changes, and it is referred to by its name below the
    interface. *)
Theorem C50_data_element path i name kw i' d r : create_data_element path i name kw = (i', Ok (d, r)) <->
  describes_variable name kw d /\ one_more_data i d i' /\ r = reference path name IdentifiableSubTypes_VARIABLE_DATA_PROTOTYPE.
Proof.
  unfold create_data_element. rewrite adding_iff, new_variable_iff, more_data. split; intros (D & E & F); (splits; [assumption ..|]); subst r;
    destruct D as (_ & (I & _) & _); apply identity_name in I; rewrite <- I; destruct path; reflexivity.
Qed.
Theorem C50_invalidation_policy i a h i' p r : create_invalidation_policy i a h = (i', Ok (p, r)) <->
  (exists x, (a = AStr (rf_value x) \/ of_class "VariableDataPrototypeRef" a x) /\ rf_dest x = IdentifiableSubTypes_VARIABLE_DATA_PROTOTYPE /\
    InvalidationPolicy_data_element_ref p = Some x) /\
  (exists y, h = AObj (OHandleInvalid y) /\ InvalidationPolicy_handle_invalid p = Some y) /\ one_more_policy i p i' /\ r = None.
Proof. apply policy_iff. Qed.
Theorem C50_nv_data path i name kw i' d r : create_nv_data path i name kw = (i', Ok (d, r)) <->
  describes_variable name kw d /\ one_more_nv_data i d i' /\ r = reference path name IdentifiableSubTypes_VARIABLE_DATA_PROTOTYPE.
Proof.
  unfold create_nv_data. rewrite adding_iff, new_variable_iff. unfold one_more_nv_data. destruct i, i'. cbn. split.
  - intros (D & E & ->). injection E as -> -> -> ->. splits; try reflexivity; [assumption|]. destruct D as (_ & (I & _) & _). apply identity_name in I. rewrite <- I. now destruct path.
  - intros (D & (-> & -> & -> & ->) & ->). splits; try reflexivity; [assumption|]. destruct D as (_ & (I & _) & _). apply identity_name in I. rewrite <- I. now destruct path.
Qed.
Theorem C50_parameter path i name kw i' d r : create_parameter path i name kw = (i', Ok (d, r)) <->
  describes_parameter name kw d /\ one_more_parameter i d i' /\ r = reference path name IdentifiableSubTypes_PARAMETER_DATA_PROTOTYPE.
Proof.
  unfold create_parameter. rewrite adding_iff, new_parameter_iff. unfold one_more_parameter. destruct i, i'. cbn. split.
  - intros (D & E & ->). injection E as -> -> -> ->. splits; try reflexivity; [assumption|]. destruct D as (_ & (I & _) & _). apply identity_name in I. rewrite <- I. now destruct path.
  - intros (D & (-> & -> & -> & ->) & ->). splits; try reflexivity; [assumption|]. destruct D as (_ & (I & _) & _). apply identity_name in I. rewrite <- I. now destruct path.
Qed.
Theorem C50_operation path i name kw i' o r : create_operation path i name kw = (i', Ok (o, r)) <->
  describes_operation name kw o /\ one_more_operation i o i' /\ r = reference path name IdentifiableSubTypes_CLIENT_SERVER_OPERATION.
Proof.
  unfold create_operation. rewrite adding_iff, new_operation_iff, more_operation. split; intros (D & E & F); (splits; [assumption ..|]); subst r;
    destruct D as (_ & I & _); apply identity_name in I; rewrite <- I; destruct path; reflexivity.
Qed.
Theorem C50_possible_error path i name kw i' e r : create_possible_error path i name kw = (i', Ok (e, r)) <->
  describes_error name kw e /\ one_more_error i e i' /\ r = reference path name IdentifiableSubTypes_APPLICATION_ERROR.
Proof.
  unfold create_possible_error. rewrite adding_iff, new_error_iff, more_error. split; intros (D & E & F); (splits; [assumption ..|]); subst r;
    destruct D as (_ & I & _); apply identity_name in I; rewrite <- I; destruct path; reflexivity.
Qed.
(** A mode switch interface has one group: a new one takes the place of the old one. *)
Theorem C50_mode_group path i name kw i' g r : create_mode_group path i name kw = (i', Ok (g, r)) <->
  describes_group_prototype name kw g /\ other_group i g i' /\ r = reference path name IdentifiableSubTypes_MODE_DECLARATION_GROUP_PROTOTYPE.
Proof.
  unfold create_mode_group. rewrite adding_iff, new_group_prototype_iff. unfold other_group. destruct i, i'. cbn. split.
  - intros (D & E & ->). injection E as -> -> -> ->. splits; try reflexivity; [assumption|]. destruct D as (_ & I & _). apply identity_name in I. rewrite <- I. now destruct path.
  - intros (D & (-> & -> & -> & ->) & ->). splits; try reflexivity; [assumption|]. destruct D as (_ & I & _). apply identity_name in I. rewrite <- I. now destruct path.
Qed.
(** Arguments of operations: the direction given, or the one the method is named after. *)
Theorem C50_argument o name kw o' a r : create_argument o name kw = (o', Ok (a, r)) <->
  only ("direction" :: argument_arguments) kw /\ describes_argument name kw a /\ holds (is_a OArgumentDirection) kw "direction" (ArgumentDataPrototype_direction a) /\
  one_more_argument o a o' /\ r = None.
Proof. apply create_argument_iff. Qed.
Theorem C50_in_argument o name kw o' a r : create_in_argument o name kw = (o', Ok (a, r)) <->
  only argument_arguments kw /\ describes_argument name kw a /\ ArgumentDataPrototype_direction a = Some ArgumentDirection_IN /\ one_more_argument o a o' /\ r = None.
Proof. apply fixed_direction_iff. Qed.
Theorem C50_inout_argument o name kw o' a r : create_inout_argument o name kw = (o', Ok (a, r)) <->
  only argument_arguments kw /\ describes_argument name kw a /\ ArgumentDataPrototype_direction a = Some ArgumentDirection_INOUT /\ one_more_argument o a o' /\ r = None.
Proof. apply fixed_direction_iff. Qed.
Theorem C50_out_argument o name kw o' a r : create_out_argument o name kw = (o', Ok (a, r)) <->
  only argument_arguments kw /\ describes_argument name kw a /\ ArgumentDataPrototype_direction a = Some ArgumentDirection_OUT /\ one_more_argument o a o' /\ r = None.
Proof. apply fixed_direction_iff. Qed.
Theorem C50_error_ref o s o' x r : create_possible_error_ref o s = (o', Ok (x, r)) <-> x = mkRef s IdentifiableSubTypes_APPLICATION_ERROR /\ one_more_error_ref o x o' /\ r = None.
Proof. apply error_ref_iff. Qed.
(** A method called on an operation of an interface changes that operation of the interface, and nothing
    else. *)
Theorem C50_on_operation {A} i n (f : ClientServerOperation -> ClientServerOperation * A) i' r :
  on_operation i n f = (i', Some r) <-> changes_operation n (fun o o' => f o = (o', r)) i i'.
Proof. apply on_operation_iff. Qed.
(** After an exception everything is as before. *)
Theorem C50_failure :
  (forall path i name kw i' e, create_data_element path i name kw = (i', Err e) -> i' = i) /\
  (forall i a h i' e, create_invalidation_policy i a h = (i', Err e) -> i' = i) /\
  (forall path i name kw i' e, create_nv_data path i name kw = (i', Err e) -> i' = i) /\
  (forall path i name kw i' e, create_parameter path i name kw = (i', Err e) -> i' = i) /\
  (forall path i name kw i' e, create_operation path i name kw = (i', Err e) -> i' = i) /\
  (forall path i name kw i' e, create_possible_error path i name kw = (i', Err e) -> i' = i) /\
  (forall path i name kw i' e, create_mode_group path i name kw = (i', Err e) -> i' = i) /\
  (forall o name kw o' e, create_argument o name kw = (o', Err e) -> o' = o) /\
  (forall o name kw o' e, create_in_argument o name kw = (o', Err e) -> o' = o) /\
  (forall o name kw o' e, create_inout_argument o name kw = (o', Err e) -> o' = o) /\
  (forall o name kw o' e, create_out_argument o name kw = (o', Err e) -> o' = o).
Proof. splits; intros; eapply adding_unchanged; eassumption. Qed.

(** *** Any sequence of calls on a client-server interface *)
Inductive interface_call :=
| CallOperation (name : string) (kw : keyword_args)
| CallError (name : string) (kw : keyword_args)
| CallArgument (n : nat) (name : string) (kw : keyword_args)
| CallIn (n : nat) (name : string) (kw : keyword_args)
| CallInOut (n : nat) (name : string) (kw : keyword_args)
| CallOut (n : nat) (name : string) (kw : keyword_args)
| CallErrorRef (n : nat) (value : string).
Definition call (path : option string) (i : ClientServerInterface) (c : interface_call) : ClientServerInterface :=
  match c with
  | CallOperation name kw => fst (create_operation path i name kw)
  | CallError name kw => fst (create_possible_error path i name kw)
  | CallArgument n name kw => fst (on_operation i n (fun o => create_argument o name kw))
  | CallIn n name kw => fst (on_operation i n (fun o => create_in_argument o name kw))
  | CallInOut n name kw => fst (on_operation i n (fun o => create_inout_argument o name kw))
  | CallOut n name kw => fst (on_operation i n (fun o => create_out_argument o name kw))
  | CallErrorRef n value => fst (on_operation i n (fun o => create_possible_error_ref o value))
  end.
Definition calls (path : option string) (i : ClientServerInterface) (l : list interface_call) : ClientServerInterface := fold_left (call path) l i.
(** An operation with perhaps more arguments and references to errors. *)
Definition grown (o o' : ClientServerOperation) : Prop :=
  ClientServerOperation_ident o' = ClientServerOperation_ident o /\ ClientServerOperation_diag_arg_integrity o' = ClientServerOperation_diag_arg_integrity o /\
  ClientServerOperation_fire_and_forget o' = ClientServerOperation_fire_and_forget o /\
  (exists more, ClientServerOperation_arguments o' = ClientServerOperation_arguments o ++ more) /\
  (exists more, ClientServerOperation_possible_error_refs o' = ClientServerOperation_possible_error_refs o ++ more).
Lemma grown_same o : grown o o.
Proof. unfold grown. splits; try reflexivity; exists []; symmetry; apply app_nil_r. Qed.
Lemma grown_twice o o' o'' : grown o o' -> grown o' o'' -> grown o o''.
Proof.
  intros (A1 & A2 & A3 & (a & A4) & (a' & A5)) (B1 & B2 & B3 & (b & B4) & (b' & B5)). unfold grown. splits; try congruence.
  - exists (a ++ b). rewrite B4, A4. symmetry. apply app_assoc.
  - exists (a' ++ b'). rewrite B5, A5. symmetry. apply app_assoc.
Qed.
Definition interface_grown (i i' : ClientServerInterface) : Prop :=
  ClientServerInterface_ident i' = ClientServerInterface_ident i /\ ClientServerInterface_is_service i' = ClientServerInterface_is_service i /\
  ClientServerInterface_service_kind i' = ClientServerInterface_service_kind i /\
  (exists old more, ClientServerInterface_operations i' = old ++ more /\ Forall2 grown (ClientServerInterface_operations i) old) /\
  (exists more, ClientServerInterface_possible_errors i' = ClientServerInterface_possible_errors i ++ more).
Lemma all_grown l : Forall2 grown l l.
Proof. induction l; constructor; [apply grown_same|assumption]. Qed.
Lemma grown_list l l' l'' : Forall2 grown l l' -> Forall2 grown l' l'' -> Forall2 grown l l''.
Proof.
  intros H. revert l''. induction H as [|a b l l' G H IH]; intros l'' K; inversion K; subst; constructor; [eapply grown_twice; eassumption|now apply IH].
Qed.
Lemma forall2_split {A B} (R : A -> B -> Prop) l1 l2 l' : Forall2 R (l1 ++ l2) l' -> exists l1' l2', l' = l1' ++ l2' /\ Forall2 R l1 l1' /\ Forall2 R l2 l2'.
Proof. intros H. apply Forall2_app_inv_l in H as (l1' & l2' & H1 & H2 & ->). eauto. Qed.
Lemma interface_grown_same i : interface_grown i i.
Proof. unfold interface_grown. splits; try reflexivity; [exists (ClientServerInterface_operations i), []; split; [symmetry; apply app_nil_r|apply all_grown]|exists []; symmetry; apply app_nil_r]. Qed.
Lemma interface_grown_twice i i' i'' : interface_grown i i' -> interface_grown i' i'' -> interface_grown i i''.
Proof.
  intros (A1 & A2 & A3 & (old & more & A4 & A5) & (e & A6)) (B1 & B2 & B3 & (old' & more' & B4 & B5) & (e' & B6)). unfold interface_grown. splits; try congruence.
  - rewrite A4 in B5. apply forall2_split in B5 as (o1 & o2 & -> & G1 & G2). exists o1, (o2 ++ more'). split; [rewrite B4; symmetry; apply app_assoc|]. eapply grown_list; eassumption.
  - exists (e ++ e'). rewrite B6, A6. symmetry. apply app_assoc.
Qed.
Lemma replace_grown l n o o' : nth_error l n = Some o -> grown o o' -> Forall2 grown l (firstn n l ++ o' :: skipn (S n) l).
Proof.
  revert l. induction n as [|n IH]; intros [|a l] E G; try discriminate.
  - injection E as ->. constructor; [assumption|apply all_grown].
  - cbn in E. constructor; [apply grown_same|]. now apply IH.
Qed.
Lemma on_operation_grown {A} i n (f : ClientServerOperation -> ClientServerOperation * A) : (forall o, grown o (fst (f o))) -> interface_grown i (fst (on_operation i n f)).
Proof.
  intros F. unfold on_operation. destruct (nth_error _ _) as [o|] eqn:N; [|apply interface_grown_same]. specialize (F o). destruct (f o) as [o' r]. cbn [fst] in *.
  unfold interface_grown. cbn -[skipn firstn]. splits; try reflexivity; [|exists []; symmetry; apply app_nil_r].
  eexists. exists []. split; [symmetry; apply app_nil_r|]. now apply replace_grown with (o := o).
Qed.
Lemma argument_grown o refer r : grown o (fst (adding o add_argument refer r)).
Proof.
  unfold adding. destruct r as [a|e]; cbn [fst]; [|apply grown_same]. unfold grown, add_argument. cbn. splits; try reflexivity; eexists; [reflexivity|symmetry; apply app_nil_r].
Qed.
(** After any sequence of calls, with any outcomes: operations stay in their order and keep their names
    and flags, and only ever get further arguments and references; errors stay as they are; new operations
    and errors follow the old ones. *)
Theorem C50_history path i l : interface_grown i (calls path i l).
Proof.
  revert i. induction l as [|c l IH]; intros i; [apply interface_grown_same|]. unfold calls. cbn [fold_left]. eapply interface_grown_twice; [|apply IH]. destruct c; cbn [call];
    try (apply on_operation_grown; intros o; apply argument_grown).
  - unfold create_operation, adding. destruct (new_operation _ _) as [o|e]; [|apply interface_grown_same]. unfold interface_grown, add_operation. cbn.
    splits; try reflexivity; [|exists []; symmetry; apply app_nil_r]. eexists. eexists. split; [reflexivity|apply all_grown].
  - unfold create_possible_error, adding. destruct (new_application_error _ _) as [o|e]; [|apply interface_grown_same]. unfold interface_grown, add_possible_error. cbn.
    splits; try reflexivity; [|eexists; reflexivity]. eexists. exists []. split; [symmetry; apply app_nil_r|apply all_grown].
  - apply on_operation_grown. intros o. unfold create_possible_error_ref, adding. destruct (ref_default _ _); cbn [fst]; [|apply grown_same]. unfold grown. cbn.
    splits; try reflexivity; eexists; [symmetry; apply app_nil_r|reflexivity].
Qed.
(** The names of the operations of an interface made by calls alone are the names of the calls that
    succeeded, in order. *)
Definition operation_names (i : ClientServerInterface) : list string := map (fun o => id_name (ClientServerOperation_ident o)) (ClientServerInterface_operations i).
Definition names_created (l : list interface_call) : list string :=
  flat_map (fun c => match c with CallOperation name kw => match new_operation name kw with Ok _ => [name] | Err _ => [] end | _ => [] end) l.
Lemma replaced_names {A} (f : A -> string) l n o o' : nth_error l n = Some o -> f o' = f o -> map f (firstn n l ++ o' :: skipn (S n) l) = map f l.
Proof.
  revert l. induction n as [|n IH]; intros [|a l] E G; try discriminate.
  - injection E as ->. cbn. now rewrite G.
  - cbn in E. cbn -[skipn]. f_equal. now apply IH.
Qed.
Lemma on_operation_names {A} i n (f : ClientServerOperation -> ClientServerOperation * A) : (forall o, ClientServerOperation_ident (fst (f o)) = ClientServerOperation_ident o) ->
  operation_names (fst (on_operation i n f)) = operation_names i.
Proof.
  intros F. unfold on_operation, operation_names. destruct (nth_error _ _) as [o|] eqn:N; [|reflexivity]. specialize (F o). destruct (f o) as [o' r]. cbn [fst] in *.
  cbn [ClientServerInterface_operations]. apply replaced_names with (o := o); [assumption|]. now rewrite F.
Qed.
Theorem C50_operation_names path i l : operation_names (calls path i l) = operation_names i ++ names_created l.
Proof.
  revert i. induction l as [|c l IH]; intros i; [symmetry; apply app_nil_r|]. unfold calls. cbn [fold_left names_created flat_map]. fold (calls path (call path i c) l). rewrite IH.
  rewrite app_assoc. f_equal.
  assert (A : forall o refer r, ClientServerOperation_ident (fst (adding o add_argument refer r)) = ClientServerOperation_ident o) by (intros o refer [a|e]; reflexivity).
  destruct c; cbn [call]; rewrite ?app_nil_r; try (apply on_operation_names; intros o; apply A).
  - unfold create_operation, adding. destruct (new_operation name kw) as [o|e] eqn:E; cbn [fst]; [|symmetry; apply app_nil_r]. unfold operation_names, add_operation. cbn.
    rewrite map_app. cbn. apply new_operation_iff in E as (_ & I & _). apply identity_name in I. now rewrite I.
  - unfold create_possible_error, adding. destruct (new_application_error _ _); reflexivity.
  - apply on_operation_names. intros o. unfold create_possible_error_ref, adding. destruct (ref_default _ _); reflexivity.
Qed.

(** *** What does not hold *)
(** A single possible error is declared to be accepted, but never is. *)
Theorem C50_single_error_refuted name kw e : given "possible_errors" kw = Some (AObj (OApplicationError e)) -> forall i, new_client_server_interface name kw <> Ok i.
Proof. intros G i E. apply new_client_server_iff in E as (_ & _ & _ & P). unfold holds_list in P. rewrite G in P. discriminate. Qed.
(** A list of texts is declared to be accepted for the possible errors of an operation, but a text in a
    list never is, while one text is. *)
Theorem C50_error_texts_refuted name kw l s : given "possible_error_refs" kw = Some (AList l) -> In (AStr s) l -> forall o, new_operation name kw <> Ok o.
Proof.
  intros G I o E. apply new_operation_iff in E as (_ & _ & _ & _ & _ & P). unfold holds_list in P. rewrite G in P. inversion P as [|a' l' M]; subst.
  inversion M as [a' x Hx|args xs Hx]; subst; [inversion Hx|]. clear - Hx I. induction Hx as [|a x l xs H Hx IH]; [destruct I|]. destruct I as [->|I]; [inversion H|now apply IH].
Qed.
(** Data elements of a wrong type are reported with a TypeError; but in a sender-receiver interface the
    report itself fails. *)
Theorem C50_wrong_elements_refuted name : exists kw, new_sender_receiver_interface name kw = Err UnboundLocalError /\ new_nv_data_interface name kw = Err TypeError.
Proof. exists [("data_elements", AStr "speed")]. split; reflexivity. Qed.
(** An argument of an operation can be referred to when its interface is in a package; but it never
    can. *)
Theorem C50_argument_reference_refuted o name kw o' a r :
  create_argument o name kw = (o', Ok (a, r)) \/ create_in_argument o name kw = (o', Ok (a, r)) \/ create_inout_argument o name kw = (o', Ok (a, r)) \/
  create_out_argument o name kw = (o', Ok (a, r)) -> r = None.
Proof. intros [H|[H|[H|H]]]; apply adding_iff in H as (_ & _ & H); exact H. Qed.
(** Parts have different names; but a second part of the same name is always accepted where the first
    was, and then both have the same reference. *)
Theorem C50_same_name_refuted path i name kw i' d r : create_data_element path i name kw = (i', Ok (d, r)) ->
  exists i'', create_data_element path i' name kw = (i'', Ok (d, r)) /\ SenderReceiverInterface_data_elements i'' = SenderReceiverInterface_data_elements i ++ [d; d].
Proof.
  unfold create_data_element. intros H. apply adding_iff in H as (E & -> & ->). eexists. split; [now apply adding_iff|]. cbn. now rewrite <- app_assoc.
Qed.

(** ** C51: mode declaration groups *)
Theorem C51_group name kw g : new_mode_declaration_group name kw = Ok g <-> describes_mode_group name kw g.
Proof. apply new_mode_declaration_group_iff. Qed.
Theorem C51_mode name kw m : new_mode name kw = Ok m <-> describes_mode name kw m.
Proof. apply new_mode_iff. Qed.
Theorem C51_transition name kw t : new_transition name kw = Ok t <-> describes_transition name kw t.
Proof. apply new_transition_iff. Qed.
Theorem C51_error_behavior kw b : new_error_behavior kw = Ok b <-> describes_error_behavior kw b.
Proof. apply new_error_behavior_iff. Qed.
Theorem C51_create_mode path g name kw g' m r : create_mode_declaration path g name kw = (g', Ok (m, r)) <->
  describes_mode name kw m /\ one_more_mode g m g' /\ r = reference path name IdentifiableSubTypes_MODE_DECLARATION.
Proof.
  unfold create_mode_declaration. rewrite adding_iff, new_mode_iff. unfold one_more_mode. destruct g, g'. cbn. split.
  - intros (D & E & ->). injection E as -> -> -> -> -> -> ->. splits; try reflexivity; [assumption|]. destruct D as (_ & I & _). apply identity_name in I. rewrite <- I. now destruct path.
  - intros (D & (-> & -> & -> & -> & -> & -> & ->) & ->). splits; try reflexivity; [assumption|]. destruct D as (_ & I & _). apply identity_name in I. rewrite <- I. now destruct path.
Qed.
Theorem C51_append_transition g a g' : append_transition g a = (g', Ok tt) <-> exists t, a = AObj (OModeTransition t) /\ one_more_transition g t g'.
Proof.
  unfold append_transition, one_more_transition. split.
  - destruct (strict transition_of a) as [t|e] eqn:E; [|discriminate]. apply (strict_iff transition_of OModeTransition) in E as ->; [|is_pick ..]. intros H. injection H as <-. exists t.
    split; [reflexivity|]. cbn. auto 10.
  - intros (t & -> & (H1 & H2 & H3 & H4 & H5 & H6 & H7)). cbn. destruct g'. cbn in *. now subst.
Qed.
Theorem C51_failure :
  (forall path g name kw g' e, create_mode_declaration path g name kw = (g', Err e) -> g' = g) /\
  (forall g a g' e, append_transition g a = (g', Err e) -> g' = g).
Proof.
  split; [intros; eapply adding_unchanged; eassumption|]. intros g a g' e. unfold append_transition. destruct (strict _ _); [discriminate|]. intros H. now injection H as <-.
Qed.
(** A mode that was created under a name no other mode had is found under that name, and the others are
    found as before. *)
Theorem C51_find path g name kw g' m r : create_mode_declaration path g name kw = (g', Ok (m, r)) -> ~ In name (map mode_name (ModeDeclarationGroup_mode_declarations g)) ->
  mode_group_find g' name = Some (FMode m) /\ forall other, other <> name -> mode_group_find g' other = mode_group_find g other.
Proof.
  intros E N. apply C51_create_mode in E as (D & (H1 & H2 & _) & _). destruct D as (_ & I & _). apply identity_name in I. fold (mode_name m) in I.
  assert (F : forall l n, ~ In n (map mode_name l) -> first_named mode_name n (l ++ [m]) = if String.eqb (mode_name m) n then Some m else None).
  { induction l as [|a l IH]; intros n K; cbn; [reflexivity|]. destruct (String.eqb_spec (mode_name a) n) as [<-|X]; [exfalso; apply K; now left|]. apply IH. intros J. apply K. now right. }
  assert (G : forall l n, mode_name m <> n -> first_named mode_name n (l ++ [m]) = first_named mode_name n l).
  { intros l n K. induction l as [|a l IH]; cbn; [apply String.eqb_neq in K; now rewrite K|]. now rewrite IH. }
  unfold mode_group_find. rewrite H1, H2. split.
  - rewrite F by assumption. now rewrite I, String.eqb_refl.
  - intros other O. rewrite G by congruence. reflexivity.
Qed.
Lemma count_positive a z : means_count a z -> (0 <= z)%Z.
Proof. intros H. destruct H; lia. Qed.
(** A group made of names, or of pairs of a name and a number, is the same after saving and loading. *)
Definition clean_mode (a : arg) : Prop := exists s, good_text s /\ (a = AStr s \/ exists n, a = ATuple [AStr s; n]).
Theorem C51_survives v name kw g modes : new_mode_declaration_group name kw = Ok g -> good_text name ->
  only ["mode_declarations"; "initial_mode_ref"; "on_transition_value"] kw -> given "mode_declarations" kw = Some (AList modes) ->
  (forall a, In a modes -> clean_mode a) -> (forall a, given "initial_mode_ref" kw = Some a -> exists s, a = AStr s /\ safe_text s) ->
  reloads_as (write_mode_declaration_group v) (read_mode_declaration_group v) g g /\ List.length (ModeDeclarationGroup_mode_declarations g) = List.length modes.
Proof.
  intros E T O M C R. apply C51_group in E as (_ & I & H1 & H2 & H3 & H4 & H5 & H6).
  assert (N : forall k, ~ In k ["mode_declarations"; "initial_mode_ref"; "on_transition_value"] -> given k kw = None).
  { intros k K. unfold given. destruct (assoc k kw) as [a|] eqn:A; [|reflexivity]. exfalso. apply K, O, assoc_some_iff. congruence. }
  unfold holds_list in H2. rewrite M in H2. inversion H2 as [|l ms F]; subst. split; [|clear - F; cbn; induction F; cbn; congruence].
  apply (C28_mode_declaration_group v). unfold holds in H1, H3, H5, H6. unfold holds_list in H4.
  rewrite (N "mode_manager_error_behavior") in H3 by not_in. rewrite (N "mode_user_error_behavior") in H5 by not_in. rewrite (N "mode_transitions") in H4 by not_in.
  destruct I as (I1 & I2 & I3 & I4 & I5 & I6 & I7 & I8). unfold holds in I2, I3, I4, I5.
  rewrite (N "long_name") in I2 by not_in. rewrite (N "desc") in I3 by not_in. rewrite (N "category") in I4 by not_in. rewrite (N "uuid") in I5 by not_in.
  destruct g as [i r ms b ts b' z]. cbn in *. subst ts. destruct b, b'; try contradiction. destruct i as [n ln d c ad intr an u]. cbn in *. subst.
  destruct ln, d, c, u; try contradiction. unfold good_ModeDeclarationGroup. cbn. splits; try exact Logic.I.
  - unfold good_ident. cbn. splits; try exact Logic.I; try reflexivity; apply T.
  - destruct (given "initial_mode_ref" kw) as [a|] eqn:G, r as [r|]; try contradiction; [|exact Logic.I]. destruct (R a eq_refl) as (s & -> & S). inversion H1 as [s' k K|]; subst.
    injection K as <-. cbn. split; [now left|exact S].
  - clear - F C. induction F as [|a m l ms H F IH]; [exact Logic.I|]. cbn. split; [|apply IH; intros x X; apply C; now right]. destruct (C a) as (s & S & [->|(n & ->)]); [now left| |].
    + inversion H; subst. unfold good_ModeDeclaration, good_ident_no_uuid, good_ident. cbn. splits; try exact Logic.I; try reflexivity; apply S.
    + inversion H; subst; unfold good_ModeDeclaration, good_ident_no_uuid, good_ident; cbn; splits; try exact Logic.I; try reflexivity; try apply S. eapply count_positive; eassumption.
  - destruct (given "on_transition_value" kw), z; try contradiction; [|exact Logic.I]. eapply count_positive; eassumption.
Qed.

(** *** Concrete cases *)
Example C50_example :
  let i0 := mkClientServerInterface (named "Timer") None None [] [] in
  let i := calls (Some "/If/Timer") i0 [CallError "Failed" [("error_code", ANum (NInt 3))]; CallOperation "Set" [("fire_and_forget", ABool true)]; CallOperation "Get" [];
    CallIn 0 "t" [("type_ref", AObj (ORef rc_ImplementationDataTypeRef (mkRef "/T/u8" IdentifiableSubTypes_IMPLEMENTATION_DATA_TYPE)))]; CallOut 1 "t" []; CallOut 7 "t" [];
    CallIn 1 "t" [("direction", ANone)]; CallErrorRef 1 "/If/Timer/Failed"; CallOperation "Bad" [("fire_and_forget", AStr "no")]] in
  operation_names i = ["Set"; "Get"] /\ map (fun e => ApplicationError_error_code e) (ClientServerInterface_possible_errors i) = [Some 3%Z] /\
  map (fun o => map ArgumentDataPrototype_direction (ClientServerOperation_arguments o)) (ClientServerInterface_operations i) = [[Some ArgumentDirection_IN]; [Some ArgumentDirection_OUT]] /\
  map ClientServerOperation_possible_error_refs (ClientServerInterface_operations i) = [[]; [mkRef "/If/Timer/Failed" IdentifiableSubTypes_APPLICATION_ERROR]].
Proof. vm_compute. auto. Qed.
Example C50_element_example : exists i d, create_data_element (Some "/If/Speed") (mkSenderReceiverInterface (named "Speed") (Some false) None [] []) "Value"
    [("type_ref", AObj (ORef rc_ImplementationDataTypeRef (mkRef "/T/u16" IdentifiableSubTypes_IMPLEMENTATION_DATA_TYPE))); ("category", AStr "VALUE")] =
    (i, Ok (d, Some (mkRef "/If/Speed/Value" IdentifiableSubTypes_VARIABLE_DATA_PROTOTYPE))) /\ SenderReceiverInterface_data_elements i = [d] /\
  snd (create_invalidation_policy i (AStr "/If/Speed/Value") (AObj (OHandleInvalid HandleInvalid_KEEP))) =
    Ok (mkInvalidationPolicy (Some (mkRef "/If/Speed/Value" IdentifiableSubTypes_VARIABLE_DATA_PROTOTYPE)) (Some HandleInvalid_KEEP), None).
Proof. eexists. eexists. vm_compute. auto. Qed.
Example C50_interfaces_example :
  (exists i, new_sender_receiver_interface "I" [("data_elements", AObj (OVariableDataPrototype (mkVariableDataPrototype (named "x") None None None))); ("is_service", ABool true)] = Ok i /\
    List.length (SenderReceiverInterface_data_elements i) = 1%nat) /\
  (exists i, new_client_server_interface "I" [("possible_errors", AList [AObj (OApplicationError (mkApplicationError (named "e") None))])] = Ok i /\
    List.length (ClientServerInterface_possible_errors i) = 1%nat) /\
  new_mode_switch_interface "I" [("modegroup", ANone)] = Err TypeError.
Proof. splits; try reflexivity; eexists; split; reflexivity. Qed.
Definition power_modes : keyword_args := [("mode_declarations", AList [AStr "Off"; ATuple [AStr "On"; ANum (NInt 1)]]); ("initial_mode_ref", AStr "/M/Power/Off")].
Example C51_example : exists g, new_mode_declaration_group "Power" power_modes = Ok g /\
  ModeDeclarationGroup_mode_declarations g = [plain_mode "Off" None; plain_mode "On" (Some 1%Z)] /\
  (exists g' m, create_mode_declaration (Some "/M/Power") g "Sleep" [("value", ANum (NInt 2))] = (g', Ok (m, Some (mkRef "/M/Power/Sleep" IdentifiableSubTypes_MODE_DECLARATION))) /\
    mode_group_find g' "Sleep" = Some (FMode m)) /\
  reloads_as (write_mode_declaration_group 51) (read_mode_declaration_group 51) g g.
Proof.
  eexists. split; [reflexivity|]. split; [reflexivity|]. split; [eexists; eexists; split; reflexivity|].
  eapply (C51_survives 51 "Power" power_modes); [reflexivity| | |reflexivity| |].
  - split; [discriminate|apply safe_textb_sound; reflexivity].
  - intros k K. cbn in *. tauto.
  - intros a [<-|[<-|[]]]; [exists "Off"|exists "On"]; (split; [split; [discriminate|apply safe_textb_sound; reflexivity]|]); eauto.
  - intros a K. injection K as <-. eexists. split; [reflexivity|]. apply safe_textb_sound. reflexivity.
Qed.
Print Assumptions C50_sender_receiver_interface.
Print Assumptions C50_nv_data_interface.
Print Assumptions C50_parameter_interface.
Print Assumptions C50_mode_switch_interface.
Print Assumptions C50_client_server_interface.
Print Assumptions C50_policy.
Print Assumptions C50_data_element.
Print Assumptions C50_invalidation_policy.
Print Assumptions C50_nv_data.
Print Assumptions C50_parameter.
Print Assumptions C50_operation.
Print Assumptions C50_possible_error.
Print Assumptions C50_mode_group.
Print Assumptions C50_argument.
Print Assumptions C50_in_argument.
Print Assumptions C50_inout_argument.
Print Assumptions C50_out_argument.
Print Assumptions C50_error_ref.
Print Assumptions C50_on_operation.
Print Assumptions C50_failure.
Print Assumptions C50_history.
Print Assumptions C50_operation_names.
Print Assumptions C50_single_error_refuted.
Print Assumptions C50_error_texts_refuted.
Print Assumptions C50_wrong_elements_refuted.
Print Assumptions C50_argument_reference_refuted.
Print Assumptions C50_same_name_refuted.
Print Assumptions C51_group.
Print Assumptions C51_mode.
Print Assumptions C51_transition.
Print Assumptions C51_error_behavior.
Print Assumptions C51_create_mode.
Print Assumptions C51_append_transition.
Print Assumptions C51_failure.
Print Assumptions C51_find.
Print Assumptions C51_survives.
