(** Proofs about com-specs and the creation of ports. *)
From Verif Require Import Base PBase MNum MXml MEnum MRefTab MRef MCodec MElem0 MElem1 MElemA MElemB MElemC MElem2 MElemD MElem3 MElem4 MElemE MArxml MFind MValue SValue PValue MEvent MPort SPort.
Ltac splits := repeat match goal with |- _ /\ _ => split end.
From Verif Require SLiteral PLiteral2.
Open Scope list_scope.

Lemma bind_iff {A B} (r : result A) (f : A -> result B) y : bind r f = Ok y <-> exists x, r = Ok x /\ f x = Ok y.
Proof. destruct r as [x|e]; cbn [bind]; [|split; [discriminate|intros (x & E & _); discriminate]]. split; [eauto|]. intros (z & E & F). injection E as <-. exact F. Qed.

(** ** Converters *)
Lemma given_some k kw a : given k kw = Some a -> kwarg k kw = a /\ a <> ANone.
Proof. unfold given, kwarg. destruct (assoc k kw) as [x|]; [|discriminate]. destruct x; intros E; try discriminate; injection E as <-; split; (reflexivity || discriminate). Qed.
Lemma given_none k kw : given k kw = None -> kwarg k kw = ANone.
Proof. unfold given, kwarg. destruct (assoc k kw) as [x|]; [|reflexivity]. destruct x; intros E; (reflexivity || discriminate). Qed.
Lemma opt_iff {A} (f : arg -> result A) (M : arg -> A -> Prop) kw k v : (forall a x, a <> ANone -> (f a = Ok x <-> M a x)) ->
  (optional f (kwarg k kw) = Ok v <-> holds M kw k v).
Proof.
  intros H. unfold holds. destruct (given k kw) as [a|] eqn:E.
  - apply given_some in E as [-> N].
    replace (optional f a) with (let* x := f a in Ok (Some x)) by (destruct a; (reflexivity || contradiction)).
    rewrite bind_iff. destruct v as [v|].
    + split; [intros (x & E1 & E2); injection E2 as ->; now apply H|]. intros G. exists v. split; [now apply H|reflexivity].
    + split; [intros (x & E1 & E2); discriminate|intros []].
  - apply given_none in E as ->. cbn [optional]. destruct v; split; try discriminate; auto. now intros [].
Qed.
Lemma truth_iff a : truth a = false <-> falsy a.
Proof.
  split.
  - destruct a as [|b|[z|[?| |? c ?]]|s|l|l|l|o| ]; cbn [truth]; intros E; try discriminate; try constructor.
    + subst b. constructor.
    + destruct (Z.eqb_spec z 0); [subst z; constructor|discriminate].
    + destruct (N.eqb_spec c 0); [subst c; constructor|discriminate].
    + destruct (String.eqb_spec s ""); [subst s; constructor|discriminate].
    + destruct l; [constructor|discriminate].
    + destruct l; [constructor|discriminate].
    + destruct l; [constructor|discriminate].
    + destruct o; try discriminate. constructor. now destruct (SwDataDefProps_variants e).
  - intros F. destruct F; try reflexivity. cbn [truth]. now rewrite H.
Qed.
Lemma flag_iff a b : Ok (truth a) = Ok b <-> means_flag a b.
Proof.
  unfold means_flag. rewrite <- truth_iff. split.
  - intros E. injection E as <-. reflexivity.
  - intros H. destruct b, (truth a); try reflexivity; exfalso; [destruct H as [_ H]|destruct H as [H _]]; specialize (H eq_refl); discriminate.
Qed.
Lemma opt_bool_iff kw k v : opt_bool (kwarg k kw) = Ok v <-> holds means_flag kw k v.
Proof. apply opt_iff. intros a x _. apply flag_iff. Qed.
Lemma count_iff a z : positive_int a = Ok z <-> means_count a z.
Proof.
  split.
  - destruct a as [|b|[n|?]|s|l|l|l|o| ]; cbn [positive_int]; try discriminate.
    + destruct b; intros E; injection E as <-; constructor.
    + destruct (Z.ltb_spec n 0); [discriminate|]. intros E; injection E as <-. now constructor.
  - intros H. destruct H as [z H| | ]; cbn [positive_int]; try reflexivity. destruct (Z.ltb_spec z 0); [lia|reflexivity].
Qed.
Lemma opt_count_iff kw k v : opt_count (kwarg k kw) = Ok v <-> holds means_count kw k v.
Proof. apply opt_iff. intros a x _. apply count_iff. Qed.
Lemma float_iff a f : to_float_arg a = Ok f <-> means_float a f.
Proof.
  split.
  - destruct a as [|b|n|s|l|l|l|o| ]; cbn [to_float_arg]; try discriminate.
    + destruct b; intros E; injection E as <-; constructor.
    + intros E; injection E as <-. constructor.
    + destruct (float_of s) eqn:F; [|discriminate]. intros E; injection E as <-. apply PLiteral2.float_of_iff in F. now constructor.
  - intros H. destruct H as [n|s f H| | ]; cbn [to_float_arg]; try reflexivity. apply PLiteral2.float_of_iff in H. now rewrite H.
Qed.
Lemma opt_float_iff kw k v : opt_float (kwarg k kw) = Ok v <-> holds means_float kw k v.
Proof. apply opt_iff. intros a x _. apply float_iff. Qed.
Ltac strict_tac := apply opt_iff; intros a x _; unfold strict; split;
  [destruct a as [|b|n|s|l|l|l|o| ]; try discriminate; destruct o; try discriminate; let E := fresh in intros E; injection E as <-; reflexivity|
   let E := fresh in intros E; rewrite E; reflexivity].
Lemma opt_handle_out_of_range_iff kw k v : opt_handle_out_of_range (kwarg k kw) = Ok v <-> holds means_handle_out_of_range kw k v.
Proof. strict_tac. Qed.
Lemma opt_handle_out_of_range_status_iff kw k v : opt_handle_out_of_range_status (kwarg k kw) = Ok v <-> holds means_handle_out_of_range_status kw k v.
Proof. strict_tac. Qed.
Lemma opt_handle_timeout_iff kw k v : opt_handle_timeout (kwarg k kw) = Ok v <-> holds means_handle_timeout kw k v.
Proof. strict_tac. Qed.
Lemma opt_sw_data_def_props_iff kw k v : opt_sw_data_def_props (kwarg k kw) = Ok v <-> holds means_sw_data_def_props kw k v.
Proof. strict_tac. Qed.
Lemma opt_transmission_props_iff kw k v : opt_transmission_props (kwarg k kw) = Ok v <-> holds means_transmission_props kw k v.
Proof. strict_tac. Qed.
Lemma opt_data_filter_iff kw k v : opt_data_filter (kwarg k kw) = Ok v <-> holds means_data_filter kw k v.
Proof. strict_tac. Qed.
Lemma opt_value_specification_iff kw k v : opt_value_specification (kwarg k kw) = Ok v <-> holds means_value_specification kw k v.
Proof. strict_tac. Qed.
Lemma opt_reception_props_iff kw k v : opt_reception_props (kwarg k kw) = Ok v <-> holds means_reception_props kw k v.
Proof. strict_tac. Qed.
Lemma opt_variable_access_iff kw k v : opt_variable_access (kwarg k kw) = Ok v <-> holds means_variable_access kw k v.
Proof. strict_tac. Qed.
Lemma opt_transmission_ack_iff kw k v : optional transmission_acknowledge (kwarg k kw) = Ok v <-> holds means_transmission_ack kw k v.
Proof.
  apply opt_iff. intros a x _. split.
  - destruct a as [|b|n|s|l|l|l|o| ]; cbn [transmission_acknowledge]; try discriminate.
    + intros E. injection E as <-. apply ack_number; [discriminate|]. destruct b; constructor.
    + intros E. injection E as <-. apply ack_number; [discriminate|]. constructor.
    + destruct o; try discriminate. intros E. injection E as <-. constructor.
  - intros [e|a' t N F]; [reflexivity|]. destruct F as [n|s f F| | ]; try reflexivity. now destruct (N s).
Qed.
Lemma opt_mode_ack_iff kw k v : optional mode_switched_ack (kwarg k kw) = Ok v <-> holds means_mode_ack kw k v.
Proof.
  apply opt_iff. intros a x _. split.
  - destruct a as [|b|n|s|l|l|l|o| ]; cbn [mode_switched_ack]; try discriminate.
    + intros E. injection E as <-. apply mode_ack_number; [discriminate|]. destruct b; constructor.
    + intros E. injection E as <-. apply mode_ack_number; [discriminate|]. constructor.
    + destruct o; try discriminate. intros E. injection E as <-. constructor.
  - intros [e|a' t N F]; [reflexivity|]. destruct F as [n|s f F| | ]; try reflexivity. now destruct (N s).
Qed.
Definition pick_e2e (o : lib_object) : option EndToEndTransformationComSpecProps := match o with OEndToEndTransformationComSpecProps e => Some e | _ => None end.
Lemma mapM_e2e l r : mapM (strict pick_e2e) l = Ok r <-> l = map (fun x => AObj (OEndToEndTransformationComSpecProps x)) r.
Proof.
  revert r. induction l as [|a l IH]; intros r; cbn [mapM].
  - destruct r; split; (discriminate || reflexivity).
  - rewrite bind_iff. split.
    + intros (x & E1 & E2). apply bind_iff in E2 as (y & E2 & E3). injection E3 as <-. apply IH in E2. cbn [map]. rewrite <- E2. f_equal.
      destruct a; try discriminate. destruct o; try discriminate. injection E1 as <-. reflexivity.
    + destruct r as [|x r]; [discriminate|]. cbn [map]. intros E. injection E as -> E. exists x. split; [reflexivity|]. apply bind_iff. exists r. split; [now apply IH|reflexivity].
Qed.
Lemma transformations_iff kw k l : transformation_props (kwarg k kw) = Ok l <-> holds_transformations kw k l.
Proof.
  unfold holds_transformations. destruct (given k kw) as [a|] eqn:E.
  - apply given_some in E as [-> N]. unfold transformation_props. fold pick_e2e.
    destruct a as [|b|n|s|r|r|r|o| ]; try contradiction.
    4: { apply mapM_e2e. }
    all: rewrite bind_iff; split; [intros (x & E1 & E2)|intros (x & E1 & E2)]; try discriminate.
    + injection E2 as <-. destruct o; try discriminate. injection E1 as <-. eauto.
    + injection E1 as ->. rewrite E2. exists x. split; reflexivity.
  - apply given_none in E as ->. cbn. split; [intros H; injection H as <-; reflexivity|intros ->; reflexivity].
Qed.
Lemma proper_storable m : proper m -> exists e, spec_of (storable m) = Some e.
Proof.
  assert (L : forall es, (forall a, In a es -> proper a -> exists e, spec_of (storable a) = Some e) ->
    (fix all l := match l with [] => True | a :: r => proper a /\ all r end) es ->
    exists l, (fix all l := match l with [] => Some [] | a :: r => match spec_of a, all r with Some b, Some s => Some (b :: s) | _, _ => None end end) (map storable es) = Some l).
  { induction es as [|a es IH]; intros H G; [now exists []|]. destruct G as [G1 G2]. destruct (H a (or_introl eq_refl) G1) as [e E].
    destruct IH as [l F]; [intros b B; apply H; now right|assumption|]. exists (e :: l). cbn [map]. rewrite E, F. reflexivity. }
  induction m as [l s|l n|l p|l es IH|l es IH] using made_ind2; cbn [proper].
  - intros _. cbn. eauto.
  - intros G. destruct n; try destruct G; cbn; eauto.
  - intros _. destruct p as [[z|f]| | | | | | ]; cbn; eauto.
  - intros G. destruct (L es IH G) as [r R]. cbn [storable spec_of]. rewrite R. cbn. eauto.
  - intros G. destruct (L es IH G) as [r R]. cbn [storable spec_of]. rewrite R. cbn. eauto.
Qed.
Lemma init_value_iff kw k v : init_value_of (kwarg k kw) = Ok v <-> holds means_value kw k v.
Proof.
  unfold holds. destruct (given k kw) as [a|] eqn:E.
  2: { apply given_none in E as ->. cbn. destruct v; split; try discriminate; auto. now intros []. }
  apply given_some in E as [-> N]. unfold init_value_of.
  destruct (match a with AObj (OValueSpecification e) => true | AObj (ORef c r) => String.eqb (rc_name c) "ConstantRef" | _ => false end) eqn:K.
  { destruct a as [|b|n|s|r|r|r|o| ]; try discriminate. destruct o; try discriminate; cbn [init_arg_of].
    - cbn. split; [intros E; injection E as <-; constructor|]. destruct v as [v|]; [|intros []]. intros E. inversion E; subst; [reflexivity|]. cbn in *. discriminate.
    - change (rc_name rc_ConstantRef) with "ConstantRef". rewrite K. cbn. apply String.eqb_eq in K.
      split; [intros E; injection E as <-; now constructor|]. destruct v as [v|]; [|intros []]. intros E. inversion E; subst; [reflexivity|]. cbn in *. discriminate. }
  assert (H : init_arg_of a = IData (data_of_arg a)).
  { destruct a as [|b|n|s|r|r|r|o| ]; try reflexivity. destruct o; try reflexivity; [discriminate|]. cbn [init_arg_of]. change (rc_name rc_ConstantRef) with "ConstantRef". now rewrite K. }
  rewrite H. clear H.
  assert (D : data_of_arg a <> DNone) by (destruct a; (discriminate || contradiction)).
  assert (M : make_value_with_check (IData (data_of_arg a)) = let* m := make_value (data_of_arg a) in Ok (Some (VMade m))).
  { destruct (data_of_arg a); try reflexivity. contradiction. }
  rewrite M. split.
  - intros E. apply bind_iff in E as (x & E1 & E2). apply bind_iff in E1 as (m & E1 & E3). injection E3 as <-. injection E2 as <-.
    destruct (proper_storable m) as [e P]; [now apply value_mirrors in E1 as [G _]|]. cbn [stored_value]. rewrite P. now apply value_data with m.
  - destruct v as [v|]; [|intros []]. intros E. inversion E as [e|c r C|a' m e E1 E2]; subst.
    + discriminate.
    + cbn in K. rewrite C in K. discriminate.
    + rewrite E1. cbn. now rewrite E2.
Qed.

(** ** Constructors *)
Lemma keywords_iff names kw u : check_keywords names kw = Ok u <-> only names kw.
Proof.
  unfold check_keywords, only. destruct (forallb _ _) eqn:E.
  - split; [|destruct u; reflexivity]. intros _ k K. rewrite forallb_forall in E. specialize (E k K). apply existsb_exists in E as (x & X & Q). apply String.eqb_eq in Q as ->. exact X.
  - split; [discriminate|]. intros H. exfalso. apply not_true_iff_false in E. apply E. apply forallb_forall. intros k K. apply existsb_exists. exists k. split; [now apply H|apply String.eqb_refl].
Qed.
Lemma clash_iff names kw u : no_clash names kw = Ok u <-> forall k, In k (map fst kw) -> ~ In k names.
Proof.
  unfold no_clash. destruct (existsb _ _) eqn:E.
  - split; [discriminate|]. intros H. exfalso. apply existsb_exists in E as (k & K & Q). apply existsb_exists in Q as (x & X & Q). apply String.eqb_eq in Q as ->. exact (H x K X).
  - split; [|destruct u; reflexivity]. intros _ k K X. apply not_true_iff_false in E. apply E. apply existsb_exists. exists k. split; [exact K|]. apply existsb_exists. exists k. split; [exact X|apply String.eqb_refl].
Qed.
Lemma only_no_clash names bad kw : (forall k, In k bad -> ~ In k names) -> only names kw -> no_clash bad kw = Ok tt.
Proof. intros D H. apply clash_iff. intros k K B. exact (D k B (H k K)). Qed.
Ltac apart := let k := fresh in let B := fresh in let N := fresh in intros k B N; cbn in B, N;
  repeat match goal with H : _ \/ _ |- _ => destruct H | H : False |- _ => destruct H end; congruence.
Lemma data_ref_ok path d : data_prototype_ref (MPort.data_element_ref path d) = Ok (ref_to_part path (Data d)).
Proof. destruct path; reflexivity. Qed.
Lemma operation_ref_ok path d : opt_own_ref rc_ClientServerOperationRef (client_server_operation_ref path d) = Ok (ref_to_part path (Operation d)).
Proof. destruct path; reflexivity. Qed.
Lemma group_ref_ok path a d : opt_own_ref rc_ModeDeclarationGroupPrototypeRef (mode_group_ref path a d) = Ok (if a then ref_to_part path (Group d) else None).
Proof. destruct a, path; reflexivity. Qed.
Lemma queued_iff d : is_queued d = true <-> queued d.
Proof.
  unfold is_queued, queued. split.
  - destruct (VariableDataPrototype_sw_data_def_props d) as [p|]; [|discriminate]. destruct (SwDataDefProps_variants p) as [|c l] eqn:E; [discriminate|].
    destruct (dd_impl_policy c) as [i|] eqn:F; [|discriminate]. destruct i; try discriminate. intros _. exists p, c, l. auto.
  - intros (p & c & l & -> & E & F). rewrite E, F. reflexivity.
Qed.
Ltac given_iff := rewrite ?opt_bool_iff, ?opt_count_iff, ?opt_float_iff, ?opt_handle_out_of_range_iff, ?opt_handle_out_of_range_status_iff, ?opt_handle_timeout_iff,
  ?opt_sw_data_def_props_iff, ?opt_transmission_props_iff, ?opt_data_filter_iff, ?opt_value_specification_iff, ?opt_reception_props_iff, ?opt_variable_access_iff,
  ?opt_transmission_ack_iff, ?opt_mode_ack_iff, ?transformations_iff, ?init_value_iff, ?keywords_iff.
Ltac given_in H := first [apply opt_bool_iff in H|apply opt_count_iff in H|apply opt_float_iff in H|apply opt_handle_out_of_range_iff in H|apply opt_handle_out_of_range_status_iff in H|
  apply opt_handle_timeout_iff in H|apply opt_sw_data_def_props_iff in H|apply opt_transmission_props_iff in H|apply opt_data_filter_iff in H|apply opt_value_specification_iff in H|
  apply opt_reception_props_iff in H|apply opt_variable_access_iff in H|apply opt_transmission_ack_iff in H|apply opt_mode_ack_iff in H|apply transformations_iff in H|
  apply init_value_iff in H|apply keywords_iff in H].
Ltac unbind := repeat match goal with
  | H : bind _ _ = Ok _ |- _ => let x := fresh "x" in let E := fresh "E" in apply bind_iff in H as (x & E & H); try given_in E
  | H : Ok _ = Ok _ |- _ => injection H as <-
  end.
Ltac rebind := repeat (apply bind_iff; first [exists tt; split; [apply keywords_iff; eassumption|]|eexists; split; [first [solve [given_iff; eassumption]|eassumption|reflexivity]|]]; cbv beta).
Lemma sender_iff path d kw s : new_sender (MPort.data_element_ref path d) kw = Ok s <->
  exists hor nr ack props e2e, s = mkQueuedSenderComSpec (ref_to_part path (Data d)) hor nr ack props e2e /\ sender_holds kw hor nr ack props e2e.
Proof.
  unfold new_sender, sender_holds. rewrite data_ref_ok. cbn [bind]. split.
  - intros H. unbind. do 5 eexists. split; [reflexivity|]. splits; eassumption.
  - intros (hor & nr & ack & props & e2e & -> & H1 & H2 & H3 & H4 & H5). rebind. reflexivity.
Qed.
Lemma queued_sender_iff path d kw s : queued d -> (new_queued_sender (MPort.data_element_ref path d) kw = Ok s <-> provided_for path (Data d) kw s).
Proof.
  intros Q. unfold new_queued_sender, provided_for. split.
  - intros H. unbind. apply sender_iff in E1 as (hor & nr & ack & props & e2e & -> & H). auto.
  - destruct s as [| [r hor nr ack props e2e] | [r hor nr ack props e2e fi ini] | | | ]; try (intros []; fail).
    + intros (_ & -> & O & H). rewrite (only_no_clash sender_keywords) by (assumption || apart). cbn [bind]. rebind. apply bind_iff. eexists. split; [|reflexivity]. apply sender_iff. do 5 eexists. split; [reflexivity|exact H].
    + intros (N & _). contradiction.
Qed.
Lemma nonqueued_sender_iff path d kw s : ~ queued d -> (new_nonqueued_sender (MPort.data_element_ref path d) kw = Ok s <-> provided_for path (Data d) kw s).
Proof.
  intros Q. unfold new_nonqueued_sender, provided_for. split.
  - intros H. unbind. apply sender_iff in E2 as (hor & nr & ack & props & e2e & -> & H). splits; auto.
  - destruct s as [| [r hor nr ack props e2e] | [r hor nr ack props e2e fi ini] | | | ]; try (intros []; fail).
    + intros (N & _). contradiction.
    + intros (_ & -> & O & H & F & V). rewrite (only_no_clash _ _ kw) with (2 := O) by apart. cbn [bind]. rebind.
      apply bind_iff. eexists. split; [apply sender_iff; do 5 eexists; split; [reflexivity|exact H]|]. rebind. reflexivity.
Qed.
Lemma server_iff path d kw s : new_server (client_server_operation_ref path d) kw = Ok s <-> provided_for path (Operation d) kw s.
Proof.
  unfold new_server, provided_for. rewrite operation_ref_ok. split.
  - intros H. unbind. splits; auto.
  - destruct s as [ | | | | | [r q props] ]; try (intros []; fail). intros (-> & O & H1 & H2). rewrite (only_no_clash _ _ kw) with (2 := O) by apart. cbn [bind]. rebind. reflexivity.
Qed.
Lemma mode_sender_iff path d kw s : new_mode_sender (mode_group_ref path true d) kw = Ok s <-> provided_for path (Group d) kw s.
Proof.
  unfold new_mode_sender, provided_for. rewrite group_ref_ok. split.
  - intros H. unbind. splits; auto.
  - destruct s as [ [r api ack q] | | | | | ]; try (intros []; fail). intros (-> & O & H1 & H2 & H3). rewrite (only_no_clash _ _ kw) with (2 := O) by apart. cbn [bind]. rebind. reflexivity.
Qed.
Lemma receiver_iff path d kw s : new_receiver (MPort.data_element_ref path d) kw = Ok s <->
  exists hor hors delta repeated nr props replace sync transf e2e,
    s = mkQueuedReceiverComSpec (ref_to_part path (Data d)) hor hors delta repeated nr props replace sync transf e2e None /\
    receiver_holds kw hor hors delta repeated nr props replace sync transf e2e.
Proof.
  unfold new_receiver, receiver_holds. rewrite data_ref_ok. cbn [bind]. split.
  - intros H. unbind. do 10 eexists. split; [reflexivity|]. splits; eassumption.
  - intros (hor & hors & delta & repeated & nr & props & replace & sync & transf & e2e & -> & H1 & H2 & H3 & H4 & H5 & H6 & H7 & H8 & H9 & H10). rebind. reflexivity.
Qed.
Lemma queued_receiver_iff path d kw s : queued d -> (new_queued_receiver (MPort.data_element_ref path d) kw = Ok s <-> required_for path (Data d) kw s).
Proof.
  intros Q. unfold new_queued_receiver, required_for. split.
  - intros H. unbind. apply receiver_iff in E1 as (hor & hors & delta & repeated & nr & props & replace & sync & transf & e2e & -> & H). splits; auto.
  - destruct s as [ [r hor hors delta repeated nr props replace sync transf e2e q] | [] | | | | ]; try (intros []; fail).
    + intros (_ & -> & O & H & K). rewrite (only_no_clash _ _ kw) with (2 := O) by apart. cbn [bind]. rebind.
      apply bind_iff. eexists. split; [apply receiver_iff; do 10 eexists; split; [reflexivity|exact H]|]. rebind. reflexivity.
    + intros (N & _). contradiction.
Qed.
Lemma nonqueued_receiver_iff path d kw s : ~ queued d -> (new_nonqueued_receiver (MPort.data_element_ref path d) kw = Ok s <-> required_for path (Data d) kw s).
Proof.
  intros Q. unfold new_nonqueued_receiver, required_for. split.
  - intros H. unbind. apply receiver_iff in E2 as (hor & hors & delta & repeated & nr & props & replace & sync & transf & e2e & -> & H). splits; auto.
  - destruct s as [ [] | [r hor hors delta repeated nr props replace sync transf e2e alive upd fil st nev tmo ini sub] | | | | ]; try (intros []; fail).
    + intros (N & _). contradiction.
    + intros (_ & -> & O & H & K1 & K2 & K3 & K4 & K5 & K6 & K7 & K8). rewrite (only_no_clash _ _ kw) with (2 := O) by apart. cbn [bind]. rebind.
      apply bind_iff. eexists. split; [apply receiver_iff; do 10 eexists; split; [reflexivity|exact H]|]. rebind. reflexivity.
Qed.
Lemma client_iff path d kw s : new_client (client_server_operation_ref path d) kw = Ok s <-> required_for path (Operation d) kw s.
Proof.
  unfold new_client, required_for. rewrite operation_ref_ok. split.
  - intros H. unbind. splits; auto.
  - destruct s as [ [] | [] | | | | [r q props] ]; try (intros []; fail). intros (-> & O & H1 & H2). rewrite (only_no_clash _ _ kw) with (2 := O) by apart. cbn [bind]. rebind. reflexivity.
Qed.
Lemma mode_receiver_iff path d kw s : new_mode_receiver (mode_group_ref path true d) kw = Ok s <-> required_for path (Group d) kw s.
Proof.
  unfold new_mode_receiver, required_for. rewrite group_ref_ok. split.
  - intros H. unbind. splits; auto.
  - destruct s as [ [] | [] | | | [r api a] | ]; try (intros []; fail). intros (-> & O & H1 & H2). rewrite (only_no_clash _ _ kw) with (2 := O) by apart. cbn [bind]. rebind. reflexivity.
Qed.

(** ** The loop over the parts *)
Definition mem (k : string) (l : list string) : bool := existsb (String.eqb k) l.
Lemma mem_iff k l : mem k l = true <-> In k l.
Proof. unfold mem. rewrite existsb_exists. split; [intros (x & X & E); apply String.eqb_eq in E as ->; exact X|]. intros H. exists k. split; [exact H|apply String.eqb_refl]. Qed.
Lemma mem_false k l : mem k l = false <-> ~ In k l.
Proof. rewrite <- mem_iff. symmetry. apply not_true_iff_false. Qed.
Lemma filter_filter {A} (f g : A -> bool) l : filter f (filter g l) = filter (fun x => g x && f x) l.
Proof. induction l as [|a l IH]; [reflexivity|]. cbn [filter]. destruct (g a); cbn [filter andb]; [destruct (f a)|]; now rewrite IH. Qed.
Lemma mem_remove k n l : mem k (remove_name n l) = negb (String.eqb k n) && mem k l.
Proof.
  unfold remove_name, mem. induction l as [|a l IH]; cbn [filter existsb]; [now rewrite andb_false_r|].
  destruct (String.eqb_spec a n) as [->|Na]; cbn [negb existsb]; rewrite IH.
  - destruct (String.eqb_spec k n); reflexivity.
  - destruct (String.eqb_spec k a) as [->|]; cbn [orb]; [|reflexivity]. apply String.eqb_neq in Na. now rewrite Na.
Qed.
Section Named.
Context {E A : Type} (inj : E -> part) (make : E -> arg -> result A) (name_of : E -> string) (Hname : forall e, part_name (inj e) = name_of e).
Context (belongs : part -> keyword_args -> A -> Prop).
Context (Hmake : forall e a s, make e a = Ok s <-> exists kw, a = ADict kw /\ belongs (inj e) kw s).
Lemma make_named_iff kw todo l rest r : make_named name_of make kw todo l = Ok (rest, r) <->
  rest = filter (fun k => negb (mem k (map name_of l))) todo /\
  Forall2 (fun p s => exists kw', kwarg (part_name p) kw = ADict kw' /\ belongs p kw' s) (filter (fun p => mem (part_name p) todo) (firsts (map inj l))) r.
Proof.
  revert todo rest r. induction l as [|e l IH]; intros todo rest r; cbn [make_named map firsts filter].
  - assert (F : filter (fun k => negb (mem k [])) todo = todo) by (clear; induction todo as [|a l IH]; [reflexivity|cbn; f_equal; exact IH]).
    rewrite F. split; [intros H; injection H as <- <-; split; [reflexivity|constructor]|]. intros [-> H]. inversion H. reflexivity.
  - rewrite Hname. fold (mem (name_of e) todo). destruct (mem (name_of e) todo) eqn:M.
    + assert (R : filter (fun k => negb (mem k (name_of e :: map name_of l))) todo = filter (fun k => negb (mem k (map name_of l))) (remove_name (name_of e) todo)).
      { unfold remove_name. rewrite filter_filter. apply filter_ext. intros k. cbn. destruct (String.eqb k (name_of e)); reflexivity. }
      assert (P : filter (fun p => mem (part_name p) todo) (filter (fun q => negb (String.eqb (part_name q) (name_of e))) (firsts (map inj l))) =
                  filter (fun p => mem (part_name p) (remove_name (name_of e) todo)) (firsts (map inj l))).
      { rewrite filter_filter. apply filter_ext. intros p. symmetry. apply mem_remove. }
      rewrite R, P. split.
      * intros H. apply bind_iff in H as (s & S & H). apply bind_iff in H as ([rest' r'] & H & K). injection K as <- <-. apply IH in H as [H1 H2].
        split; [exact H1|]. constructor; [|exact H2]. apply Hmake in S. now rewrite Hname.
      * intros [H1 H2]. inversion H2 as [|p s ps r' S H3]; subst. rewrite Hname in S. apply Hmake in S. apply bind_iff. exists s. split; [exact S|].
        apply bind_iff. eexists (_, r'). split; [apply IH; split; [reflexivity|exact H3]|reflexivity].
    + assert (R : filter (fun k => negb (mem k (name_of e :: map name_of l))) todo = filter (fun k => negb (mem k (map name_of l))) todo).
      { apply filter_ext_in. intros k K. cbn. destruct (String.eqb_spec k (name_of e)) as [->|]; [|reflexivity]. apply mem_false in M. contradiction. }
      assert (P : filter (fun p => mem (part_name p) todo) (filter (fun q => negb (String.eqb (part_name q) (name_of e))) (firsts (map inj l))) =
                  filter (fun p => mem (part_name p) todo) (firsts (map inj l))).
      { rewrite filter_filter. apply filter_ext. intros p. destruct (String.eqb_spec (part_name p) (name_of e)) as [->|]; [now rewrite M|reflexivity]. }
      rewrite R, P. apply IH.
Qed.
Lemma filter_nil {B} (f : B -> bool) l : filter f l = [] <-> forall x, In x l -> f x = false.
Proof.
  induction l as [|a l IH]; cbn [filter]; [split; [intros _ x []|reflexivity]|]. destruct (f a) eqn:Fa.
  - split; [discriminate|]. intros H. specialize (H a (or_introl eq_refl)). congruence.
  - rewrite IH. split; [intros H x [<-|X]; auto|intros H x X; apply H; now right].
Qed.
(** The dict asks for these com-specs *)
Lemma made_from_dict err kw l s : (let* x := make_named name_of make kw (map fst kw) l in all_processed err x) = Ok s <->
  exists r, s = Many r /\ (forall k, In k (map fst kw) -> In k (map part_name (map inj l))) /\
  Forall2 (fun p s => exists kw', assoc (part_name p) kw = Some (ADict kw') /\ belongs p kw' s) (filter (is_named kw) (firsts (map inj l))) r.
Proof.
  rewrite bind_iff.
  assert (N : map part_name (map inj l) = map name_of l) by (rewrite map_map; apply map_ext; exact Hname). rewrite N. clear N.
  assert (F : forall ps r, Forall2 (fun p (s : A) => exists kw', kwarg (part_name p) kw = ADict kw' /\ belongs p kw' s) ps r <->
                           Forall2 (fun p s => exists kw', assoc (part_name p) kw = Some (ADict kw') /\ belongs p kw' s) ps r).
  { assert (G : forall p, forall kw', kwarg (part_name p) kw = ADict kw' <-> assoc (part_name p) kw = Some (ADict kw')).
    { intros p kw'. unfold kwarg. destruct (assoc (part_name p) kw); split; congruence. }
    intros ps r. split; intros H; induction H as [|p s' ps r' (kw' & K & B) H IH]; constructor; auto; exists kw'; split; auto; now apply G. }
  split.
  - intros ([rest r] & H & K). apply make_named_iff in H as [H1 H2]. destruct rest; [|discriminate]. injection K as <-. exists r. split; [reflexivity|]. split.
    + symmetry in H1. rewrite filter_nil in H1. intros k I. specialize (H1 k I). apply negb_false_iff in H1. now apply mem_iff.
    + now apply F.
  - intros (r & -> & H1 & H2). exists ([], r). split; [|reflexivity]. apply make_named_iff. split; [|now apply F].
    symmetry. apply filter_nil. intros k I. apply negb_false_iff, mem_iff. auto.
Qed.
End Named.

Lemma firsts_names ps k : In k (map part_name ps) -> exists p, In p (firsts ps) /\ part_name p = k.
Proof.
  induction ps as [|p ps IH]; cbn [map firsts]; [intros []|]. intros [<-|H]; [exists p; split; [now left|reflexivity]|].
  destruct (IH H) as (q & Q & <-). destruct (String.eqb_spec (part_name q) (part_name p)) as [E|N].
  - exists p. split; [now left|now symmetry].
  - exists q. split; [|reflexivity]. right. apply filter_In. split; [exact Q|]. apply String.eqb_neq in N. now rewrite N.
Qed.
Lemma firsts_distinct ps : NoDup (map part_name ps) -> firsts ps = ps.
Proof.
  induction ps as [|p ps IH]; intros N; [reflexivity|]. cbn [map] in N. inversion N as [|x l N1 N2]; subst. cbn [firsts]. rewrite (IH N2). f_equal.
  rewrite (filter_ext_in _ (fun _ => true)); [clear; induction ps as [|a l IH]; [reflexivity|cbn; f_equal; exact IH]|].
  intros q Q. destruct (String.eqb_spec (part_name q) (part_name p)) as [E|]; [|reflexivity]. exfalso. apply N1. rewrite <- E. now apply in_map.
Qed.
Lemma all_dicts_iff kw u : all_dicts kw = Ok u <-> forall k a, In (k, a) kw -> exists d, a = ADict d.
Proof.
  unfold all_dicts. destruct (forallb _ _) eqn:E.
  - split; [|destruct u; reflexivity]. intros _ k a K. rewrite forallb_forall in E. specialize (E _ K). cbn in E. destruct a; try discriminate. eauto.
  - split; [discriminate|]. intros H. exfalso. apply not_true_iff_false in E. apply E. apply forallb_forall. intros [k a] K. destruct (H k a K) as [d ->]. reflexivity.
Qed.
Lemma named_dicts {A} (belongs : part -> keyword_args -> A -> Prop) kw ps r : NoDup (map fst kw) ->
  (forall k, In k (map fst kw) -> In k (map part_name ps)) ->
  Forall2 (fun p s => exists kw', assoc (part_name p) kw = Some (ADict kw') /\ belongs p kw' s) (filter (is_named kw) (firsts ps)) r ->
  all_dicts kw = Ok tt.
Proof.
  intros N H F. apply all_dicts_iff. intros k a K.
  assert (I : In k (map fst kw)) by (change k with (fst (k, a)); now apply in_map).
  destruct (firsts_names ps k (H k I)) as (p & P & <-).
  assert (Q : In p (filter (is_named kw) (firsts ps))). { apply filter_In. split; [exact P|]. now apply mem_iff. }
  clear P. induction F as [|q s qs r' (kw' & K' & _) F IH]; [destruct Q|]. destruct Q as [<-|Q]; [|now apply IH].
  apply assoc_nodup with (2 := K) in N. exists kw'. congruence.
Qed.
Lemma reserved_apart names kw : (forall k, In k names -> k <> "cls" /\ k <> "port_interface") -> only names kw -> no_clash ["cls"; "port_interface"] kw = Ok tt.
Proof. intros H O. apply (only_no_clash names); [|exact O]. intros k [<-|[<-|[]]] K; apply H in K as [K1 K2]; congruence. Qed.
Lemma provided_only path p kw s : provided_for path p kw s -> no_clash ["cls"; "port_interface"] kw = Ok tt.
Proof.
  destruct p, s as [ [] | [] | [] | [] | [] | [] ]; cbn [provided_for]; try (intros []; fail); intros H;
  [destruct H as (_ & _ & O & _)|destruct H as (_ & _ & O & _)|destruct H as (_ & O & _)|destruct H as (_ & O & _)];
  revert O; apply only_no_clash; apart.
Qed.
Lemma required_only path p kw s : required_for path p kw s -> no_clash ["cls"; "port_interface"] kw = Ok tt.
Proof.
  destruct p, s as [ [] | [] | [] | [] | [] | [] ]; cbn [required_for]; try (intros []; fail); intros H;
  [destruct H as (_ & _ & O & _)|destruct H as (_ & _ & O & _)|destruct H as (_ & O & _)|destruct H as (_ & O & _)];
  revert O; apply only_no_clash; apart.
Qed.
Definition provided_data path d := if is_queued d then new_queued_sender (MPort.data_element_ref path d) else new_nonqueued_sender (MPort.data_element_ref path d).
Lemma provided_data_iff path d kw s : provided_data path d kw = Ok s <-> provided_for path (Data d) kw s.
Proof.
  unfold provided_data. destruct (is_queued d) eqn:Q.
  - apply queued_sender_iff. now apply queued_iff.
  - apply nonqueued_sender_iff. rewrite <- queued_iff, Q. discriminate.
Qed.
Definition required_data path d kw := if is_queued d then new_queued_receiver (MPort.data_element_ref path d) kw else new_nonqueued_receiver (MPort.data_element_ref path d) kw.
Lemma required_data_iff path d kw s : required_data path d kw = Ok s <-> required_for path (Data d) kw s.
Proof.
  unfold required_data. destruct (is_queued d) eqn:Q.
  - apply queued_receiver_iff. now apply queued_iff.
  - apply nonqueued_receiver_iff. rewrite <- queued_iff, Q. discriminate.
Qed.
Lemma as_keywords_iff {A} a (f : keyword_args -> result A) s : (let* kw := as_keywords a in f kw) = Ok s <-> exists kw, a = ADict kw /\ f kw = Ok s.
Proof.
  rewrite bind_iff. split.
  - intros (kw & E & F). destruct a; try discriminate. injection E as <-. eauto.
  - intros (kw & -> & F). exists kw. auto.
Qed.
(** One com-spec for one part, a list for several *)
Definition shaped {A} (ps : list part) (s : specs A) : Prop := match ps, s with [_], One _ => True | _ :: _ :: _, Many _ => True | _, _ => False end.
Lemma asked_not_reserved {A} (belongs : part -> keyword_args -> A -> Prop) ps kw l : (forall p kw s, belongs p kw s -> no_clash ["cls"; "port_interface"] kw = Ok tt) ->
  asked belongs ps kw l -> no_clash ["cls"; "port_interface"] kw = Ok tt.
Proof.
  intros H [p kw' s B|p q ps' kw' l' K F]; [now apply H in B|]. apply clash_iff. intros k I [<-|[<-|[]]]; destruct (K _ I) as (_ & K1 & K2); congruence.
Qed.
Lemma asked_many_of {A} (belongs : part -> keyword_args -> A -> Prop) ps kw l u : no_clash ["cls"; "port_interface"] kw = Ok u -> (2 <= List.length ps)%nat ->
  (forall k, In k (map fst kw) -> In k (map part_name ps)) ->
  Forall2 (fun p s => exists kw', assoc (part_name p) kw = Some (ADict kw') /\ belongs p kw' s) (filter (is_named kw) (firsts ps)) l -> asked belongs ps kw l.
Proof.
  intros C L H F. destruct ps as [|p [|q ps]]; cbn in L; try lia. constructor; [|exact F]. intros k I. split; [auto|]. rewrite clash_iff in C. specialize (C k I). cbn in C.
  split; intros ->; apply C; auto.
Qed.
Lemma asked_many_inv {A} (belongs : part -> keyword_args -> A -> Prop) ps kw l : (2 <= List.length ps)%nat -> asked belongs ps kw l ->
  (forall k, In k (map fst kw) -> In k (map part_name ps)) /\
  Forall2 (fun p s => exists kw', assoc (part_name p) kw = Some (ADict kw') /\ belongs p kw' s) (filter (is_named kw) (firsts ps)) l.
Proof. intros L H. inversion H as [p kw' s B|p q ps' kw' l' K F]; subst; [cbn in L; lia|]. split; [|exact F]. intros k I. now apply K. Qed.
Lemma asked_one_inv {A} (belongs : part -> keyword_args -> A -> Prop) p kw l : asked belongs [p] kw l -> exists s, l = [s] /\ belongs p kw s.
Proof. intros H. inversion H; subst. eauto. Qed.

Lemma provided_sound i kw s : make_provided (Some i) kw = Ok s -> shaped (parts (ia_interface i)) s /\ asked (provided_for (ia_path i)) (parts (ia_interface i)) kw (spec_list s).
Proof.
  destruct i as [i path]. unfold make_provided. intros H. apply bind_iff in H as (u & C & H). cbn [ia_interface ia_path].
  destruct i as [e|e|e ad|e|e]; cbn [parts]; try discriminate.
  - destruct (SenderReceiverInterface_data_elements e) as [|d [|d' ds]] eqn:L; [discriminate| |].
    + apply bind_iff in H as (x & H & K). injection K as <-. split; [exact Logic.I|]. constructor. now apply provided_data_iff.
    + apply bind_iff in H as (u' & D & H).
      apply (made_from_dict Data _ data_name (fun _ => eq_refl) (provided_for path)) in H.
      * destruct H as (r & -> & H1 & H2). split; [exact Logic.I|]. eapply asked_many_of; eauto. cbn. lia.
      * intros d0 a s'. rewrite as_keywords_iff. fold (provided_data path d0). split; intros (kw' & -> & F); exists kw'; (split; [reflexivity|]); now apply provided_data_iff.
  - destruct (ClientServerInterface_operations e) as [|d [|d' ds]] eqn:L; [discriminate| |].
    + apply bind_iff in H as (x & H & K). injection K as <-. split; [exact Logic.I|]. constructor. now apply server_iff.
    + apply (made_from_dict Operation _ operation_name (fun _ => eq_refl) (provided_for path)) in H.
      * destruct H as (r & -> & H1 & H2). split; [exact Logic.I|]. eapply asked_many_of; eauto. cbn. lia.
      * intros d0 a s'. rewrite as_keywords_iff. split; intros (kw' & -> & F); exists kw'; (split; [reflexivity|]); now apply server_iff.
  - destruct (ModeSwitchInterface_mode_group e) as [g|]; [|discriminate]. apply bind_iff in H as (u' & D & H). apply bind_iff in H as (x & H & K). injection K as <-.
    destruct ad; [|discriminate]. split; [exact Logic.I|]. constructor. now apply mode_sender_iff.
Qed.
Lemma provided_complete i kw l : located i -> NoDup (map fst kw) -> asked (provided_for (ia_path i)) (parts (ia_interface i)) kw l ->
  exists s, make_provided (Some i) kw = Ok s /\ spec_list s = l.
Proof.
  destruct i as [i path]. unfold located. cbn [ia_interface ia_path]. intros [P G] N A. unfold make_provided.
  rewrite (asked_not_reserved _ _ _ _ (provided_only path) A). cbn [bind].
  destruct i as [e|e|e ad|e|e]; cbn [parts] in A.
  - destruct (SenderReceiverInterface_data_elements e) as [|d [|d' ds]] eqn:L; [inversion A| |].
    + apply asked_one_inv in A as (s & -> & B). apply provided_data_iff in B. fold (provided_data path d). rewrite B. cbn. eexists. split; reflexivity.
    + apply asked_many_inv in A as [H1 H2]; [|cbn; lia]. rewrite (named_dicts _ _ _ _ N H1 H2). cbn [bind]. exists (Many l). split; [|reflexivity].
      apply (made_from_dict Data _ data_name (fun _ => eq_refl) (provided_for path)).
      * intros d0 a s'. rewrite as_keywords_iff. fold (provided_data path d0). split; intros (kw' & -> & F); exists kw'; (split; [reflexivity|]); now apply provided_data_iff.
      * eauto.
  - destruct (ClientServerInterface_operations e) as [|d [|d' ds]] eqn:L; [inversion A| |].
    + apply asked_one_inv in A as (s & -> & B). apply server_iff in B. rewrite B. cbn. eexists. split; reflexivity.
    + apply asked_many_inv in A as [H1 H2]; [|cbn; lia]. exists (Many l). split; [|reflexivity].
      apply (made_from_dict Operation _ operation_name (fun _ => eq_refl) (provided_for path)).
      * intros d0 a s'. rewrite as_keywords_iff. split; intros (kw' & -> & F); exists kw'; (split; [reflexivity|]); now apply server_iff.
      * eauto.
  - destruct (ModeSwitchInterface_mode_group e) as [g|]; [|inversion A]. apply asked_one_inv in A as (s & -> & B). subst ad. apply mode_sender_iff in B.
    destruct path as [path|]; [|contradiction]. cbn [mode_group_ref option_map assert_some bind]. cbn [mode_group_ref option_map] in B. rewrite B. cbn. eexists. split; reflexivity.
  - inversion A.
  - inversion A.
Qed.
Lemma required_sound i kw s : make_required (Some i) kw = Ok s -> shaped (parts (ia_interface i)) s /\ asked (required_for (ia_path i)) (parts (ia_interface i)) kw (spec_list s).
Proof.
  destruct i as [i path]. unfold make_required. intros H. apply bind_iff in H as (u & C & H). cbn [ia_interface ia_path].
  destruct i as [e|e|e ad|e|e]; cbn [parts]; try discriminate.
  - destruct (SenderReceiverInterface_data_elements e) as [|d [|d' ds]] eqn:L; [discriminate| |].
    + assert (H' : exists x, required_data path d kw = Ok x /\ Ok (One x) = Ok s).
      { unfold required_data. destruct (is_queued d); [apply bind_iff in H as (u' & D & H)|]; now apply bind_iff in H. }
      destruct H' as (x & B & K). injection K as <-. split; [exact Logic.I|]. constructor. now apply required_data_iff.
    + apply bind_iff in H as (u' & D & H).
      destruct path as [path|].
      2: { destruct kw as [|[k a] kw]; [|].
           - assert (E : forall l, make_named data_name (fun d a => let* _ := assert_some (MPort.data_element_ref None d) in let* kw := as_keywords a in
                  if is_queued d then new_queued_receiver (MPort.data_element_ref None d) kw else new_nonqueued_receiver (MPort.data_element_ref None d) kw) [] (map fst (@nil (string * arg))) l = Ok ([], [])).
             { clear. induction l as [|d l IH]; [reflexivity|]. cbn [map make_named existsb]. exact IH. }
             rewrite E in H. cbn in H. injection H as <-. split; [exact Logic.I|]. eapply asked_many_of; [exact C|cbn; lia|intros k []|].
             rewrite (proj2 (filter_nil _ _)); [constructor|]. reflexivity.
           - exfalso. clear C D.
             assert (E : forall kw todo l rest r, todo <> [] -> make_named data_name (fun d a => let* _ := assert_some (MPort.data_element_ref None d) in let* kw := as_keywords a in
                  if is_queued d then new_queued_receiver (MPort.data_element_ref None d) kw else new_nonqueued_receiver (MPort.data_element_ref None d) kw) kw todo l = Ok (rest, r) -> rest = todo).
             { clear. intros kw todo l. induction l as [|d l IH]; intros rest r N; cbn [make_named]; [congruence|]. destruct (existsb _ _); [discriminate|]. now apply IH. }
             apply bind_iff in H as ([rest r] & H & K). apply E in H; [|discriminate]. subst rest. discriminate. }
      apply (made_from_dict Data _ data_name (fun _ => eq_refl) (required_for (Some path))) in H.
      * destruct H as (r & -> & H1 & H2). split; [exact Logic.I|]. eapply asked_many_of; eauto. cbn. lia.
      * intros d0 a s'. cbn [assert_some MPort.data_element_ref option_map bind]. rewrite as_keywords_iff. change (mkRef _ _) with (mkRef (below path (data_name d0)) IdentifiableSubTypes_VARIABLE_DATA_PROTOTYPE).
        split; intros (kw' & -> & F); exists kw'; (split; [reflexivity|]); now apply (required_data_iff (Some path) d0 kw' s').
  - destruct (ClientServerInterface_operations e) as [|d [|d' ds]] eqn:L; [discriminate| |].
    + apply bind_iff in H as (x & H & K). injection K as <-. split; [exact Logic.I|]. constructor. now apply client_iff.
    + destruct path as [path|].
      2: { destruct kw as [|[k a] kw]; [|].
           - assert (E : forall l, make_named operation_name (fun d a => let* _ := assert_some (client_server_operation_ref None d) in let* kw := as_keywords a in
                  new_client (client_server_operation_ref None d) kw) [] (map fst (@nil (string * arg))) l = Ok ([], [])).
             { clear. induction l as [|d l IH]; [reflexivity|]. cbn [map make_named existsb]. exact IH. }
             rewrite E in H. cbn in H. injection H as <-. split; [exact Logic.I|]. eapply asked_many_of; [exact C|cbn; lia|intros k []|].
             rewrite (proj2 (filter_nil _ _)); [constructor|]. reflexivity.
           - exfalso. clear C.
             assert (E : forall kw todo l rest r, todo <> [] -> make_named operation_name (fun d a => let* _ := assert_some (client_server_operation_ref None d) in let* kw := as_keywords a in
                  new_client (client_server_operation_ref None d) kw) kw todo l = Ok (rest, r) -> rest = todo).
             { clear. intros kw todo l. induction l as [|d l IH]; intros rest r N; cbn [make_named]; [congruence|]. destruct (existsb _ _); [discriminate|]. now apply IH. }
             apply bind_iff in H as ([rest r] & H & K). apply E in H; [|discriminate]. subst rest. discriminate. }
      apply (made_from_dict Operation _ operation_name (fun _ => eq_refl) (required_for (Some path))) in H.
      * destruct H as (r & -> & H1 & H2). split; [exact Logic.I|]. eapply asked_many_of; eauto. cbn. lia.
      * intros d0 a s'. cbn [assert_some client_server_operation_ref option_map bind]. rewrite as_keywords_iff.
        split; intros (kw' & -> & F); exists kw'; (split; [reflexivity|]); now apply (client_iff (Some path) d0 kw' s').
  - destruct (ModeSwitchInterface_mode_group e) as [g|]; [|discriminate]. apply bind_iff in H as (u' & D & H). apply bind_iff in H as (x & H & K). injection K as <-.
    destruct ad; [|discriminate]. split; [exact Logic.I|]. constructor. now apply mode_receiver_iff.
Qed.
Lemma required_complete i kw l : located i -> NoDup (map fst kw) -> asked (required_for (ia_path i)) (parts (ia_interface i)) kw l ->
  exists s, make_required (Some i) kw = Ok s /\ spec_list s = l.
Proof.
  destruct i as [i [path|]]; unfold located; cbn [ia_interface ia_path]; intros [P G] N A; [|contradiction]. unfold make_required.
  rewrite (asked_not_reserved _ _ _ _ (required_only (Some path)) A). cbn [bind].
  destruct i as [e|e|e ad|e|e]; cbn [parts] in A.
  - destruct (SenderReceiverInterface_data_elements e) as [|d [|d' ds]] eqn:L; [inversion A| |].
    + apply asked_one_inv in A as (s & -> & B). apply required_data_iff in B. unfold required_data in B. cbn [MPort.data_element_ref option_map assert_some bind] in *.
      destruct (is_queued d); rewrite B; cbn; eexists; split; reflexivity.
    + apply asked_many_inv in A as [H1 H2]; [|cbn; lia]. rewrite (named_dicts _ _ _ _ N H1 H2). cbn [bind]. exists (Many l). split; [|reflexivity].
      apply (made_from_dict Data _ data_name (fun _ => eq_refl) (required_for (Some path))).
      * intros d0 a s'. cbn [assert_some MPort.data_element_ref option_map bind]. rewrite as_keywords_iff.
        split; intros (kw' & -> & F); exists kw'; (split; [reflexivity|]); now apply (required_data_iff (Some path) d0 kw' s').
      * eauto.
  - destruct (ClientServerInterface_operations e) as [|d [|d' ds]] eqn:L; [inversion A| |].
    + apply asked_one_inv in A as (s & -> & B). apply client_iff in B. rewrite B. cbn. eexists. split; reflexivity.
    + apply asked_many_inv in A as [H1 H2]; [|cbn; lia]. exists (Many l). split; [|reflexivity].
      apply (made_from_dict Operation _ operation_name (fun _ => eq_refl) (required_for (Some path))).
      * intros d0 a s'. cbn [assert_some client_server_operation_ref option_map bind]. rewrite as_keywords_iff.
        split; intros (kw' & -> & F); exists kw'; (split; [reflexivity|]); now apply (client_iff (Some path) d0 kw' s').
      * eauto.
  - destruct (ModeSwitchInterface_mode_group e) as [g|]; [|inversion A]. apply asked_one_inv in A as (s & -> & B). subst ad. apply mode_receiver_iff in B.
    cbn [mode_group_ref option_map assert_some bind] in *. rewrite B. cbn. eexists. split; reflexivity.
  - inversion A.
  - inversion A.
Qed.

(** ** Arguments with com-specs *)
Definition build (init pairs : keyword_args) : keyword_args := fold_left (fun d x => assoc_set (fst x) (snd x) d) pairs init.
Lemma assoc_set_nodup {A} k (v : A) l : NoDup (map fst l) -> NoDup (map fst (assoc_set k v l)).
Proof.
  intros N. destruct (assoc k l) eqn:E.
  - assert (H : map fst (assoc_set k v l) = map fst l).
    { clear N. induction l as [|[j w] l IH]; [discriminate|]. cbn in *. destruct (String.eqb_spec k j); [subst; reflexivity|]. cbn. f_equal. auto. }
    now rewrite H.
  - rewrite assoc_set_fresh by assumption. rewrite map_app. cbn. apply assoc_none in E. clear v.
    induction (map fst l) as [|a r IH]; [constructor; [intros []|constructor]|]. inversion N; subst. cbn. constructor.
    + rewrite in_app_iff. intros [H|[H|[]]]; [contradiction|]. apply E. now left.
    + apply IH; [assumption|]. intros H. apply E. now right.
Qed.
Lemma build_dict pairs : forall init, NoDup (map fst init) -> NoDup (map fst (build init pairs)) /\ forall k, assoc k (build init pairs) = match assoc k (rev pairs) with Some a => Some a | None => assoc k init end.
Proof.
  induction pairs as [|[j v] pairs IH]; intros init N; [split; [exact N|reflexivity]|]. cbn [build fold_left fst snd rev].
  destruct (IH (assoc_set j v init) (assoc_set_nodup j v init N)) as [H1 H2]. split; [exact H1|]. intros k. fold (build (assoc_set j v init) pairs). rewrite H2.
  rewrite assoc_app. destruct (assoc k (rev pairs)); [reflexivity|]. cbn. destruct (String.eqb_spec k j) as [->|Nj]; [apply assoc_set_same|now apply assoc_set_other].
Qed.
Lemma build_with pairs : dict_with (build [] pairs) pairs.
Proof. destruct (build_dict pairs [] (NoDup_nil _)) as [H1 H2]. split; [exact H1|]. intros k. rewrite H2. now destruct (assoc k (rev pairs)). Qed.
Lemma build_nil pairs : build [] pairs = [] <-> pairs = [].
Proof.
  split; [|intros ->; reflexivity]. intros E. destruct pairs as [|[k v] r] using rev_ind; [reflexivity|]. exfalso. clear IHr. unfold build in E. rewrite fold_left_app in E. cbn in E.
  destruct (fold_left _ r []) as [|[j w] l]; [discriminate|]. cbn in E. destruct (String.eqb k j); discriminate.
Qed.
Section Items.
Context {A : Type} (pick : com_spec_object -> option A) (object : A -> com_spec_object) (Hpick : forall s a, pick s = Some a <-> s = object a).
Lemma split_items_iff l : forall processed unprocessed bad p d b, split_items pick l processed unprocessed bad = Ok (p, d, b) /\ b = false <->
  bad = false /\ b = false /\ usable l /\ (exists objs, objects_of l = map object objs /\ p = processed ++ objs) /\ d = build unprocessed (pairs_of l).
Proof.
  induction l as [|x l IH]; intros processed unprocessed bad p d b.
  - cbn. split.
    + intros [E ->]. injection E as <- <- <-. splits; auto; [constructor|]. exists []. now rewrite app_nil_r.
    + intros (-> & -> & _ & ([|] & E & ->) & ->); [|discriminate]. rewrite app_nil_r. auto.
  - destruct x as [s|args| ].
    + cbn [split_items objects_of pairs_of]. destruct (pick s) as [a|] eqn:P.
      * rewrite IH. apply Hpick in P as ->. split.
        -- intros (-> & -> & U & (objs & O & ->) & ->). splits; auto; [constructor; [exact Logic.I|exact U]|]. exists (a :: objs). cbn. rewrite O, <- app_assoc. auto.
        -- intros (-> & -> & U & (objs & O & ->) & ->). inversion U; subst. splits; auto. destruct objs as [|a' objs]; [discriminate|]. cbn in O. injection O as O1 O2.
           assert (a = a'). { apply (f_equal pick) in O1. rewrite (proj2 (Hpick _ a) eq_refl), (proj2 (Hpick _ a') eq_refl) in O1. congruence. } subst a'.
           exists objs. rewrite <- app_assoc. auto.
      * split; [intros [E _]; discriminate|]. intros (_ & _ & _ & ([|a objs] & O & _) & _); [discriminate|]. cbn in O. injection O as O _. apply Hpick in O. congruence.
    + assert (H : (exists k v, args = [AStr k; v]) \/ (exists j v, args = [j; v] /\ forall k, j <> AStr k) \/ (forall j v, args <> [j; v])).
      { destruct args as [|j [|v [|w r]]]; [right; right; discriminate|right; right; discriminate| |right; right; discriminate].
        destruct j; try (right; left; do 2 eexists; split; [reflexivity|discriminate]). left. eauto. }
      destruct H as [(k & v & ->)|[(j & v & -> & N)|N]].
      * cbn [split_items objects_of pairs_of]. rewrite IH. cbn [build fold_left fst snd]. fold (build (assoc_set k v unprocessed) (pairs_of l)).
        split; intros (-> & -> & U & O & D); splits; auto; [constructor; [exact Logic.I|exact U]|now inversion U].
      * assert (E : split_items pick (ItemTuple [j; v] :: l) processed unprocessed bad = split_items pick l processed unprocessed true) by (destruct j; try reflexivity; now destruct (N s)).
        rewrite E, IH. split; [intros (F & _); discriminate|]. intros (_ & _ & U & _). exfalso. inversion U as [|x r U1 U2]; subst. destruct j; try contradiction U1. now destruct (N s).
      * assert (E : split_items pick (ItemTuple args :: l) processed unprocessed bad = Err NotImplementedError).
        { destruct args as [|j [|v [|w r]]]; cbn; try (destruct j; reflexivity); try reflexivity. now destruct (N j v). }
        rewrite E. split; [intros [F _]; discriminate|]. intros (_ & _ & U & _). exfalso. inversion U as [|x r U1 U2]; subst. destruct args as [|j [|v [|w r']]]; try contradiction U1; try (now destruct (N j v)).
        all: destruct j; contradiction U1.
    + cbn [split_items]. split; [intros [F _]; discriminate|]. intros (_ & _ & U & _). inversion U. contradiction.
Qed.
Context (belongs : part -> keyword_args -> A -> Prop) (ps : list part) (make : keyword_args -> result (specs A)).
Context (Hsound : forall kw s, make kw = Ok s -> shaped ps s /\ asked belongs ps kw (spec_list s)).
Lemma items_sound l r : com_specs pick make (CList l) = Ok r -> wanted_items belongs object ps l r.
Proof.
  cbn [com_specs]. intros H. apply bind_iff in H as ([[p d] b] & H & K). destruct b; [discriminate|].
  destruct (proj1 (split_items_iff l [] [] false p d false) (conj H eq_refl)) as (_ & _ & U & (objs & O & E) & D). cbn [app] in E. subst p d.
  destruct (pairs_of l) as [|x pairs] eqn:P.
  - cbn in K. injection K as <-. now constructor.
  - destruct (build [] (x :: pairs)) as [|y d] eqn:B; [apply (proj1 (build_nil _)) in B; discriminate|]. rewrite <- B in K.
    replace (match build [] (x :: pairs) with [] => Ok objs | _ :: _ => let* s := make (build [] (x :: pairs)) in match s with One _ => Err TypeError | Many r0 => Ok (objs ++ r0) end end)
      with (let* s := make (build [] (x :: pairs)) in match s with One _ => Err TypeError | Many r0 => Ok (objs ++ r0) end) in K by (rewrite B; reflexivity).
    apply bind_iff in K as (s & M & K). destruct s as [a|m]; [discriminate|]. injection K as <-. apply Hsound in M as [S M].
    apply wanted_pairs with (build [] (x :: pairs)); auto; rewrite ?P; try discriminate.
    + destruct ps as [|? [|? ?]]; cbn in *; try contradiction. lia.
    + apply build_with.
Qed.
Lemma com_specs_sound c r : supported c -> com_specs pick make c = Ok r -> wanted belongs object ps c r.
Proof.
  destruct c as [|kw|s|l|l| ]; cbn [supported]; intros S H; try contradiction.
  - injection H as <-. constructor.
  - cbn [com_specs] in H. apply bind_iff in H as (s & M & H). injection H as <-. constructor. now apply Hsound in M.
  - constructor. now apply items_sound.
  - constructor. now apply items_sound.
Qed.
Context (Hasked : forall kw kw' l, (forall k, assoc k kw = assoc k kw') -> asked belongs ps kw l -> (2 <= List.length ps)%nat -> asked belongs ps kw' l).
Context (Hcomplete : forall kw l, NoDup (map fst kw) -> asked belongs ps kw l -> exists s, make kw = Ok s /\ spec_list s = l).
Lemma items_complete l r : wanted_items belongs object ps l r -> com_specs pick make (CList l) = Ok r.
Proof.
  intros W. cbn [com_specs].
  assert (H : usable l /\ exists objs, objects_of l = map object objs) by (destruct W; eauto). destruct H as [U [objs O]].
  destruct (proj2 (split_items_iff l [] [] false objs (build [] (pairs_of l)) false)) as [S _]; [splits; auto; now exists objs|]. rewrite S. cbn [bind].
  assert (Inj : forall objs', objects_of l = map object objs' -> objs' = objs).
  { clear - O Hpick. rewrite O. clear O. revert objs. clear l. intros objs. induction objs as [|a objs IH]; intros [|b objs'] E; try discriminate; [reflexivity|]. cbn in E. injection E as E1 E2.
    f_equal; [|now apply IH]. apply (f_equal pick) in E1. rewrite (proj2 (Hpick _ a) eq_refl), (proj2 (Hpick _ b) eq_refl) in E1. congruence. }
  destruct W as [l' U' O' P|l' d made U' O' P L D W].
  - rewrite P. cbn. now rewrite (Inj _ O').
  - rewrite (Inj _ O'). destruct (build [] (pairs_of l)) as [|y d'] eqn:B; [apply (proj1 (build_nil _)) in B; contradiction|]. rewrite <- B.
    destruct (build_with (pairs_of l)) as [B1 B2].
    assert (W' : asked belongs ps (build [] (pairs_of l)) made). { apply Hasked with d; auto. intros k. rewrite B2. apply D. }
    destruct (Hcomplete _ _ B1 W') as (s & M & <-). rewrite M. cbn [bind]. apply Hsound in M as [S' _]. destruct s; [|reflexivity]. destruct ps as [|? [|? ?]]; cbn in *; try contradiction. lia.
Qed.
Lemma com_specs_complete c r : distinct_keys c -> wanted belongs object ps c r -> com_specs pick make c = Ok r.
Proof.
  intros N W0. revert N. destruct W0 as [|d l W|items l W|items l W]; intros N; [reflexivity| |now apply items_complete|exact (items_complete _ _ W)].
  cbn [com_specs]. destruct (Hcomplete _ _ N W) as (s & -> & <-). reflexivity.
Qed.
End Items.
Lemma assoc_some_iff {A} k (l : list (string * A)) : In k (map fst l) <-> assoc k l <> None.
Proof. rewrite assoc_none. destruct (in_dec string_dec k (map fst l)); tauto. Qed.
Lemma asked_ext {A} (belongs : part -> keyword_args -> A -> Prop) ps kw kw' l : (forall k, assoc k kw = assoc k kw') -> asked belongs ps kw l -> (2 <= List.length ps)%nat -> asked belongs ps kw' l.
Proof.
  intros E H L.
  assert (I : forall k, In k (map fst kw') <-> In k (map fst kw)).
  { intros k. rewrite !assoc_some_iff, E. reflexivity. }
  inversion H as [p kw0 s B|p q ps' kw0 l' K F]; subst; [cbn in L; lia|]. constructor.
  - intros k J. apply K. now apply I.
  - assert (G : filter (is_named kw') (firsts (p :: q :: ps')) = filter (is_named kw) (firsts (p :: q :: ps'))).
    { apply filter_ext. intros r. unfold is_named. apply eq_true_iff_eq. fold (mem (part_name r) (map fst kw')). fold (mem (part_name r) (map fst kw)). rewrite !mem_iff. apply I. }
    rewrite G. clear G H K L I. revert F. generalize (filter (is_named kw) (firsts (p :: q :: ps'))) as rs. intros rs F.
    induction F as [|r s rs l0 (kw1 & K1 & B) F IH]; constructor; auto. exists kw1. now rewrite <- E.
Qed.
Lemma provided_pick s a : provided_spec s = Some a <-> s = SProvide a.
Proof. destruct s; cbn; split; congruence. Qed.
Lemma required_pick s a : required_spec s = Some a <-> s = SRequire a.
Proof. destruct s; cbn; split; congruence. Qed.
Lemma interface_ref_eq i : interface_ref i = ref_to_interface i.
Proof. destruct i as [i [p|]]; [|reflexivity]. destruct i; reflexivity. Qed.

Lemma p_port_sound ports name i c id ports' p : supported c -> create_p_port ports name (Some i) c (PortKeywords id) = (ports', Ok p) ->
  ports' = ports ++ [PortPrototypeElement_P p] /\ exists l, p = mkProvidePortPrototype (with_name name id) l (ref_to_interface i) /\
  wanted (provided_for (ia_path i)) SProvide (parts (ia_interface i)) c l.
Proof.
  intros S H. unfold create_p_port in H. destruct (let* s := _ in _) as [q|] eqn:E in H; cbn [add_port] in H; [|discriminate]. injection H as <- <-.
  split; [reflexivity|]. apply bind_iff in E as (l & C & E). cbn in E. injection E as <-. rewrite interface_ref_eq. exists l. split; [reflexivity|].
  apply (com_specs_sound provided_spec SProvide provided_pick _ _ _ (provided_sound i)) in C; auto.
Qed.
Lemma p_port_complete ports name i c id l : located i -> distinct_keys c -> wanted (provided_for (ia_path i)) SProvide (parts (ia_interface i)) c l ->
  let p := mkProvidePortPrototype (with_name name id) l (ref_to_interface i) in
  create_p_port ports name (Some i) c (PortKeywords id) = (ports ++ [PortPrototypeElement_P p], Ok p).
Proof.
  intros G D W p. unfold create_p_port.
  apply (com_specs_complete provided_spec SProvide provided_pick _ _ (make_provided (Some i)) (provided_sound i)) in W; auto.
  - rewrite W. cbn. rewrite interface_ref_eq. reflexivity.
  - intros kw kw' l'. apply asked_ext.
  - intros kw l' N. now apply provided_complete.
Qed.
Lemma r_port_sound ports name i c a id ports' p : supported c -> create_r_port ports name (Some i) c a (PortKeywords id) = (ports', Ok p) ->
  ports' = ports ++ [PortPrototypeElement_R p] /\ exists l allow, p = mkRequirePortPrototype (with_name name id) l allow (ref_to_interface i) /\
  holds means_flag [("", a)] "" allow /\ wanted (required_for (ia_path i)) SRequire (parts (ia_interface i)) c l.
Proof.
  intros S H. unfold create_r_port in H. destruct (let* s := _ in _) as [q|] eqn:E in H; cbn [add_port] in H; [|discriminate]. injection H as <- <-.
  split; [reflexivity|]. apply bind_iff in E as (l & C & E). cbn [interface_arg_ref bind port_ident] in E. apply bind_iff in E as (allow & B & E). injection E as <-. rewrite interface_ref_eq.
  exists l, allow. split; [reflexivity|]. split; [now apply opt_bool_iff|].
  apply (com_specs_sound required_spec SRequire required_pick _ _ _ (required_sound i)) in C; auto.
Qed.
Lemma r_port_complete ports name i c a id l allow : located i -> distinct_keys c -> holds means_flag [("", a)] "" allow ->
  wanted (required_for (ia_path i)) SRequire (parts (ia_interface i)) c l ->
  let p := mkRequirePortPrototype (with_name name id) l allow (ref_to_interface i) in
  create_r_port ports name (Some i) c a (PortKeywords id) = (ports ++ [PortPrototypeElement_R p], Ok p).
Proof.
  intros G D B W p. unfold create_r_port.
  apply (com_specs_complete required_spec SRequire required_pick _ _ (make_required (Some i)) (required_sound i)) in W; auto.
  - rewrite W. apply opt_bool_iff in B. change (kwarg "" [("", a)]) with a in B. cbn [interface_arg_ref bind port_ident]. rewrite B. cbn. rewrite interface_ref_eq. reflexivity.
  - intros kw kw' l'. apply asked_ext.
  - intros kw l' N. now apply required_complete.
Qed.

(** ** Ports that provide and require *)
Lemma append_provided l : forall x y, append_all_pr (x, y) (map (fun a => ItemSpec (SProvide a)) l) = Ok (x ++ l, y).
Proof. induction l as [|a l IH]; intros x y; cbn; [now rewrite app_nil_r|]. rewrite IH, <- app_assoc. reflexivity. Qed.
Lemma append_required l : forall x y, append_all_pr (x, y) (map (fun a => ItemSpec (SRequire a)) l) = Ok (x, y ++ l).
Proof. induction l as [|a l IH]; intros x y; cbn; [now rewrite app_nil_r|]. rewrite IH, <- app_assoc. reflexivity. Qed.
Definition handed {A} (object : A -> com_spec_object) (ps : list part) (c : com_spec_arg) (l : list A) : com_spec_arg :=
  match c with
  | CDict _ => match ps, l with [_], [a] => CSpec (object a) | _, _ => CList (map (fun a => ItemSpec (object a)) l) end
  | _ => c
  end.
Section Handed.
Context {A : Type} (object : A -> com_spec_object) (belongs : part -> keyword_args -> A -> Prop) (ps : list part) (make : keyword_args -> result (specs A)).
Context (Hsound : forall kw s, make kw = Ok s -> shaped ps s /\ asked belongs ps kw (spec_list s)).
Lemma made_arg_sound c c' : plain c -> made_arg object make c = Ok c' -> exists l, wanted belongs object ps c l /\ c' = handed object ps c l.
Proof.
  destruct c as [|kw|s|l|l| ]; cbn [plain made_arg]; intros P H; try contradiction.
  - injection H as <-. exists []. split; [constructor|reflexivity].
  - apply bind_iff in H as (s & M & H). injection H as <-. apply Hsound in M as [S M]. exists (spec_list s). split; [now constructor|].
    destruct ps as [|p [|q r]], s; try contradiction; reflexivity.
Qed.
Context (Hcomplete : forall kw l, NoDup (map fst kw) -> asked belongs ps kw l -> exists s, make kw = Ok s /\ spec_list s = l).
Lemma made_arg_complete c l : plain c -> distinct_keys c -> wanted belongs object ps c l -> made_arg object make c = Ok (handed object ps c l).
Proof.
  intros P N W. revert P N. destruct W as [|d l W|items l W|items l W]; intros P N; try contradiction; [reflexivity|].
  cbn [made_arg]. destruct (Hcomplete _ _ N W) as (s & M & <-). rewrite M. cbn [bind handed]. apply Hsound in M as [S _]. destruct ps as [|p [|q r]], s; try contradiction; reflexivity.
Qed.
End Handed.
Lemma wanted_length {A} (belongs : part -> keyword_args -> A -> Prop) object ps c l : plain c -> wanted belongs object ps c l ->
  match c with CNone => l = [] | _ => ps <> [] /\ (List.length ps = 1%nat -> exists a, l = [a]) end.
Proof.
  intros P W. revert P. destruct W as [|d l W|items l W|items l W]; intros P; try contradiction; [reflexivity|].
  inversion W; subst; cbn; split; try discriminate; eauto.
Qed.
Lemma pr_specs_of ps pc rc pl rl : plain pc -> plain rc ->
  match pc with CNone => pl = [] | _ => ps <> [] /\ (List.length ps = 1%nat -> exists a : ProvidePortComSpec, pl = [a]) end ->
  match rc with CNone => rl = [] | _ => ps <> [] /\ (List.length ps = 1%nat -> exists a : RequirePortComSpec, rl = [a]) end ->
  (refused ps pc rc -> pr_com_specs (handed SProvide ps pc pl) (handed SRequire ps rc rl) = Err TypeError) /\
  (~ refused ps pc rc -> pr_com_specs (handed SProvide ps pc pl) (handed SRequire ps rc rl) = Ok (pl, rl)).
Proof.
  unfold refused. destruct pc as [|pd| | | | ], rc as [|rd| | | | ]; cbn [plain]; intros P R Hp Hr; try contradiction.
  - subst. split; [intros (_ & (d & E) & _); discriminate|]. reflexivity.
  - subst pl. split; [intros (_ & (d & E) & _); discriminate|]. intros _. destruct Hr as [Hn Hr]. destruct ps as [|p [|q r]]; [contradiction| |].
    + destruct (Hr eq_refl) as [a ->]. reflexivity.
    + cbn [handed pr_com_specs bind]. now rewrite append_required.
  - subst rl. destruct Hp as [Hn Hp]. destruct ps as [|p [|q r]]; [contradiction| |].
    + split; [intros (L & _); cbn in L; lia|]. intros _. destruct (Hp eq_refl) as [a ->]. reflexivity.
    + split; [reflexivity|]. intros N. exfalso. apply N. split; [cbn; lia|]. split; [eauto|reflexivity].
  - split; [intros (_ & _ & E); discriminate|]. intros _. destruct Hp as [Hn Hp], Hr as [_ Hr]. destruct ps as [|p [|q r]]; [contradiction| |].
    + destruct (Hp eq_refl) as [a ->], (Hr eq_refl) as [b ->]. reflexivity.
    + cbn [handed]. unfold pr_com_specs. cbn [is_list items_of bind].
      pose proof (append_provided pl [] []) as Q1. cbn [app] in Q1. rewrite Q1. cbn [bind]. exact (append_required rl pl []).
Qed.
Lemma pr_port_sound ports name i pc rc id ports' p : plain pc -> plain rc -> create_pr_port ports name (Some i) pc rc (PortKeywords id) = (ports', Ok p) ->
  ~ refused (parts (ia_interface i)) pc rc /\
  ports' = ports ++ [PortPrototypeElement_PR p] /\ exists pl rl, p = mkPRPortPrototype (with_name name id) (ref_to_interface i) pl rl /\
  wanted (provided_for (ia_path i)) SProvide (parts (ia_interface i)) pc pl /\ wanted (required_for (ia_path i)) SRequire (parts (ia_interface i)) rc rl.
Proof.
  intros Pp Pr H. unfold create_pr_port in H. destruct (let* s := _ in _) as [q|] eqn:E in H; cbn [add_port] in H; [|discriminate]. injection H as <- <-.
  apply bind_iff in E as (pc' & E1 & E). apply bind_iff in E as (rc' & E2 & E). cbn [interface_arg_ref port_ident bind] in E. rewrite interface_ref_eq in E.
  apply bind_iff in E as ([pl' rl'] & E3 & E). injection E as <-.
  destruct (made_arg_sound SProvide _ _ _ (provided_sound i) pc pc' Pp E1) as (pl & W1 & ->).
  destruct (made_arg_sound SRequire _ _ _ (required_sound i) rc rc' Pr E2) as (rl & W2 & ->).
  destruct (pr_specs_of (parts (ia_interface i)) pc rc pl rl Pp Pr (wanted_length _ _ _ _ _ Pp W1) (wanted_length _ _ _ _ _ Pr W2)) as [R1 R2].
  assert (N : ~ refused (parts (ia_interface i)) pc rc) by (intros R; rewrite (R1 R) in E3; discriminate).
  rewrite (R2 N) in E3. injection E3 as <- <-. split; [exact N|]. split; [reflexivity|]. exists pl, rl. auto.
Qed.
Lemma pr_port_complete ports name i pc rc id pl rl : located i -> plain pc -> plain rc -> distinct_keys pc -> distinct_keys rc -> ~ refused (parts (ia_interface i)) pc rc ->
  wanted (provided_for (ia_path i)) SProvide (parts (ia_interface i)) pc pl -> wanted (required_for (ia_path i)) SRequire (parts (ia_interface i)) rc rl ->
  let p := mkPRPortPrototype (with_name name id) (ref_to_interface i) pl rl in
  create_pr_port ports name (Some i) pc rc (PortKeywords id) = (ports ++ [PortPrototypeElement_PR p], Ok p).
Proof.
  intros G Pp Pr Dp Dr N W1 W2 p. unfold create_pr_port.
  rewrite (made_arg_complete SProvide _ _ _ (provided_sound i) (fun kw l => provided_complete i kw l G) pc pl Pp Dp W1). cbn [bind].
  rewrite (made_arg_complete SRequire _ _ _ (required_sound i) (fun kw l => required_complete i kw l G) rc rl Pr Dr W2). cbn [bind interface_arg_ref port_ident].
  destruct (pr_specs_of (parts (ia_interface i)) pc rc pl rl Pp Pr (wanted_length _ _ _ _ _ Pp W1) (wanted_length _ _ _ _ _ Pr W2)) as [_ R2].
  rewrite (R2 N). cbn. now rewrite interface_ref_eq.
Qed.
(** The only-provided com-specs are refused even though they are what the interface asks for *)
Lemma pr_port_refused ports name i pc rc id : plain pc -> plain rc -> refused (parts (ia_interface i)) pc rc ->
  exists x, create_pr_port ports name (Some i) pc rc (PortKeywords id) = (ports, Err x).
Proof.
  intros Pp Pr R. destruct (create_pr_port ports name (Some i) pc rc (PortKeywords id)) as [ports' [p|x]] eqn:E.
  - apply pr_port_sound in E as [N _]; auto. contradiction.
  - exists x. unfold create_pr_port in E. destruct (let* s := _ in _) in E; cbn in E; [discriminate|]. injection E as <- <-. reflexivity.
Qed.
Lemma add_port_error {A} (inj : A -> PortPrototypeElement) ports r ports' x : add_port inj ports r = (ports', Err x) -> ports' = ports.
Proof. destruct r; cbn; congruence. Qed.
Lemma provided_for_ref path p kw s : provided_for path p kw s -> provided_ref s = ref_to_part path p.
Proof. destruct p, s as [ [] | [] | [] | [] | [] | [] ]; cbn; try (intros []; fail); intuition. Qed.
Lemma required_for_ref path p kw s : required_for path p kw s -> required_ref s = ref_to_part path p.
Proof. destruct p, s as [ [] | [] | [] | [] | [] | [] ]; cbn; try (intros []; fail); intuition. Qed.
Lemma asked_refs {A} (belongs : part -> keyword_args -> A -> Prop) (ref_of : A -> option ref) path ps kw l :
  (forall p kw s, belongs p kw s -> ref_of s = ref_to_part path p) -> NoDup (map part_name ps) -> asked belongs ps kw l ->
  map ref_of l = map (ref_to_part path) (match ps with [p] => [p] | _ => filter (is_named kw) ps end).
Proof.
  intros H N W. revert N. destruct W as [p kw s B|p q ps kw l K F]; intros N; [cbn; f_equal; eauto|]. rewrite (firsts_distinct _ N) in F. cbv beta iota.
  revert F. generalize (filter (is_named kw) (p :: q :: ps)) as rs. intros rs F. induction F as [|r s rs l (kw' & _ & B) F IH]; [reflexivity|]. cbn. f_equal; [eauto|exact IH].
Qed.
