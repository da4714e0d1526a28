(** Proofs about creating internal behaviors, exclusive areas and runnables. *)
From Verif Require Import Base PBase MHeap SHeap MNames PNames MWork PWork MNum MXml MEnum MRefTab MRef PRef MCodec MElem0 MElem1 MElemA MElemB MElemC MElem2 MElemD MElem3 MElem4 MElemE MElem5 MElemF MArxml MFind SFind PFind PConn MValue MEvent SEvent PEvent MPort SPort PPort MAccess SAccess PAccess MRunnable SRunnable.
Open Scope list_scope.

(** ** One object or several *)
Lemma mapM_iff {A B} (f : A -> result B) (M : A -> B -> Prop) l r : (forall a x, In a l -> (f a = Ok x <-> M a x)) -> (mapM f l = Ok r <-> Forall2 M l r).
Proof.
  revert r. induction l as [|a l IH]; intros r F; cbn [mapM].
  - split; [intros E; injection E as <-; constructor|]. intros H. inversion H. reflexivity.
  - rewrite bind_iff. split.
    + intros (x & E1 & E2). apply bind_iff in E2 as (y & E2 & E3). injection E3 as <-. constructor; [apply F; [now left|assumption]|].
      apply IH; [intros b z I; apply F; now right|assumption].
    + intros H. inversion H as [|? x ? r' Hx Hr]. subst. exists x. split; [apply F; [now left|assumption]|]. apply bind_iff. exists r'. split; [|reflexivity].
      apply IH; [intros b z I; apply F; now right|assumption].
Qed.
Lemma forall2_map {A B} (f : B -> A) l r : Forall2 (fun a x => a = f x) l r <-> l = map f r.
Proof.
  split.
  - intros H. induction H as [|a x l r E H IH]; [reflexivity|]. cbn. now rewrite E, IH.
  - intros ->. induction r; cbn; constructor; auto.
Qed.
Section Objects.
Context {A : Type} (pick : lib_object -> option A) (make : A -> lib_object).
Context (Back : forall x, pick (make x) = Some x) (Only : forall o x, pick o = Some x -> o = make x).
Lemma strict_iff a x : strict pick a = Ok x <-> a = AObj (make x).
Proof.
  unfold strict. split.
  - destruct a as [| | | | | | |o| ]; try discriminate. destruct (pick o) eqn:E; [|discriminate]. intros H. injection H as ->. now rewrite (Only _ _ E).
  - intros ->. now rewrite Back.
Qed.
Lemma strict_all l r : mapM (strict pick) l = Ok r <-> l = map (fun x => AObj (make x)) r.
Proof. rewrite <- forall2_map. apply mapM_iff. intros a x _. apply strict_iff. Qed.
Context (NotProps : forall p, pick (OSwDataDefProps p) = None) (NotConditional : forall p, pick (OSwDataDefPropsConditional p) = None).
Lemma objects_means a l : a <> ANone -> (objects pick a = Ok l <-> means_objects make a l).
Proof.
  intros N. split.
  - intros E. assert (M : mapM (strict pick) match iterable a with Some r => r | None => [a] end = Ok l) by (destruct a; [contradiction|exact E ..]). clear E.
    apply strict_all in M. destruct a as [|b|n|s|r|r|r|o| ]; cbn [iterable] in M.
    + contradiction.
    + destruct l; discriminate.
    + destruct l; discriminate.
    + destruct s as [|c s]; [|cbn in M; destruct l; discriminate]. destruct l; [constructor|discriminate].
    + subst. constructor.
    + subst. constructor.
    + destruct r as [|[k v] r]; [|destruct l; discriminate]. destruct l; [constructor|discriminate].
    + destruct o;
        try (destruct l as [|x [|y l]]; try discriminate; cbn in M; injection M as M; rewrite M; constructor).
      rename e into p. destruct (SwDataDefProps_variants p) as [|v vs] eqn:V; [|destruct l as [|x l]; [discriminate|]; cbn in M; injection M as M _; pose proof (Back x) as B; rewrite <- M, NotConditional in B; discriminate].
      destruct l; [now constructor|discriminate].
    + destruct l; discriminate.
  - intros [x|r|r| | |p E].
    + assert (I : iterable (AObj (make x)) = None) by (pose proof (Back x) as B; destruct (make x); try reflexivity; rewrite NotProps in B; discriminate).
      unfold objects. rewrite I. apply strict_all. reflexivity.
    + cbn. now apply strict_all.
    + cbn. now apply strict_all.
    + reflexivity.
    + reflexivity.
    + cbn. rewrite E. reflexivity.
Qed.
Lemma objects_iff kw k l : objects pick (kwarg k kw) = Ok l <-> holds_list (means_objects make) kw k l.
Proof.
  unfold holds_list. destruct (given k kw) as [a|] eqn:G.
  - apply given_some in G as [-> N]. now apply objects_means.
  - apply given_none in G as ->. cbn. split; [intros H; now injection H as <-|now intros ->].
Qed.
End Objects.
Lemma one_or_list_means {A} (f : arg -> result A) (M : arg -> A -> Prop) a l : a <> ANone -> (forall x, M ANone x -> False) -> (forall l x, M (AList l) x -> False) ->
  (forall a x, f a = Ok x <-> M a x) -> (one_or_list f a = Ok l <-> means_list M a l).
Proof.
  intros Na NN NL F. split.
  - intros E. destruct a as [| | | |r| | | | ]; [contradiction|..]; try (cbn in E; apply bind_iff in E as (x & E1 & E2); injection E2 as <-; constructor; now apply F).
    apply list_several. eapply mapM_iff; [intros; apply F|exact E].
  - intros [b x H|r xs H].
    + destruct b; try (exfalso; eauto; fail); cbn; apply bind_iff; exists x; (split; [now apply F|reflexivity]).
    + cbn. eapply mapM_iff; [intros; apply F|exact H].
Qed.
Lemma one_or_list_iff {A} (f : arg -> result A) (M : arg -> A -> Prop) kw k l : (forall x, M ANone x -> False) -> (forall l x, M (AList l) x -> False) ->
  (forall a x, f a = Ok x <-> M a x) -> (one_or_list f (kwarg k kw) = Ok l <-> holds_list (means_list M) kw k l).
Proof.
  intros NN NL F. unfold holds_list. destruct (given k kw) as [a|] eqn:G.
  - apply given_some in G as [-> N]. now apply one_or_list_means.
  - apply given_none in G as ->. cbn. split; [intros H; now injection H as <-|now intros ->].
Qed.
Section Turns.
Context {A : Type} (name_of : A -> string) (rename : string -> A -> A) (Same : forall a, rename (name_of a) a = a).
Lemma in_turn_iff l l' : in_turn name_of rename l l' <-> l' = append_each name_of rename l.
Proof.
  split.
  - intros H. induction H as [|l l' a l'' H IH Ad]; [reflexivity|]. apply added_iff in Ad; [|assumption]. unfold append_each in *. rewrite fold_left_app. cbn. now rewrite <- IH.
  - intros ->. induction l as [|a l IH] using rev_ind; [constructor|]. eapply in_turn_next; [exact IH|]. apply added_iff; [assumption|]. unfold append_each. now rewrite fold_left_app.
Qed.
Context (pick : lib_object -> option A) (make : A -> lib_object).
Context (Back : forall x, pick (make x) = Some x) (Only : forall o x, pick o = Some x -> o = make x).
Context (NotProps : forall p, pick (OSwDataDefProps p) = None) (NotConditional : forall p, pick (OSwDataDefPropsConditional p) = None).
Lemma named_iff kw k l : (let* l := objects pick (kwarg k kw) in Ok (append_each name_of rename l)) = Ok l <-> holds_named make name_of rename kw k l.
Proof.
  rewrite bind_iff. unfold holds_named. split.
  - intros (x & E & F). injection F as <-. exists x. split; [now apply (objects_iff pick make)|now apply in_turn_iff].
  - intros (x & E & F). exists x. split; [now apply (objects_iff pick make)|]. apply in_turn_iff in F. now subst.
Qed.
End Turns.
Lemma result_same a : rename_result_point (result_point_name a) a = a.
Proof. destruct a. unfold rename_result_point, result_point_name. cbn. now rewrite with_own_name. Qed.
Lemma triggering_same a : rename_triggering_point (triggering_point_name a) a = a.
Proof. destruct a. unfold rename_triggering_point, triggering_point_name. cbn. now rewrite with_own_name. Qed.
Lemma wait_same a : rename_wait_point (wait_point_name a) a = a.
Proof. destruct a. unfold rename_wait_point, wait_point_name. cbn. now rewrite with_own_name. Qed.
Ltac by_pick := intros; repeat match goal with o : lib_object |- _ => destruct o end; try discriminate; try reflexivity; congruence.
Lemma arguments_iff kw k l : objects (fun o => match o with ORunnableEntityArgument e => Some e | _ => None end) (kwarg k kw) = Ok l <-> holds_list (means_objects ORunnableEntityArgument) kw k l.
Proof. apply objects_iff; by_pick. Qed.
Lemma externals_iff kw k l : objects (fun o => match o with OExternalTriggeringPoint e => Some e | _ => None end) (kwarg k kw) = Ok l <-> holds_list (means_objects OExternalTriggeringPoint) kw k l.
Proof. apply objects_iff; by_pick. Qed.
Lemma mode_accesses_iff kw k l : objects (fun o => match o with OModeAccessPoint e => Some e | _ => None end) (kwarg k kw) = Ok l <-> holds_list (means_objects OModeAccessPoint) kw k l.
Proof. apply objects_iff; by_pick. Qed.
Lemma areas_iff kw k l : objects (fun o => match o with OExclusiveArea e => Some e | _ => None end) (kwarg k kw) = Ok l <-> holds_list (means_objects OExclusiveArea) kw k l.
Proof. apply objects_iff; by_pick. Qed.
Lemma events_iff kw k l : objects (fun o => match o with ORteEvent e => Some e | _ => None end) (kwarg k kw) = Ok l <-> holds_list (means_objects ORteEvent) kw k l.
Proof. apply objects_iff; by_pick. Qed.
Lemma runnables_iff kw k l : objects (fun o => match o with ORunnableEntity e => Some e | _ => None end) (kwarg k kw) = Ok l <-> holds_list (means_objects ORunnableEntity) kw k l.
Proof. apply objects_iff; by_pick. Qed.
Lemma options_iff kw k l : objects (fun o => match o with OPortApiOption e => Some e | _ => None end) (kwarg k kw) = Ok l <-> holds_list (means_objects OPortApiOption) kw k l.
Proof. apply objects_iff; by_pick. Qed.
Lemma variable_accesses_iff kw k l : variable_accesses (kwarg k kw) = Ok l <-> holds_named OVariableAccess variable_access_name rename_variable_access kw k l.
Proof. apply named_iff; [exact variable_same|by_pick ..]. Qed.
Lemma result_points_iff kw k l : result_points (kwarg k kw) = Ok l <-> holds_named OAsynchronousServerCallResultPoint result_point_name rename_result_point kw k l.
Proof. apply named_iff; [exact result_same|by_pick ..]. Qed.
Lemma internals_iff kw k l : internal_triggering_points (kwarg k kw) = Ok l <-> holds_named OInternalTriggeringPoint triggering_point_name rename_triggering_point kw k l.
Proof. apply named_iff; [exact triggering_same|by_pick ..]. Qed.
Lemma switches_iff kw k l : mode_switch_points (kwarg k kw) = Ok l <-> holds_named OModeSwitchPoint mode_switch_point_name rename_mode_switch_point kw k l.
Proof. apply named_iff; [exact switch_same|by_pick ..]. Qed.
Lemma parameters_iff kw k l : parameter_accesses (kwarg k kw) = Ok l <-> holds_named OParameterAccess parameter_access_name rename_parameter_access kw k l.
Proof. apply named_iff; [exact parameter_same|by_pick ..]. Qed.
Lemma calls_iff kw k l : server_call_points (kwarg k kw) = Ok l <-> holds_named OServerCallPoint server_call_point_name rename_server_call_point kw k l.
Proof. apply named_iff; [exact call_same|by_pick ..]. Qed.
Lemma waits_iff kw k l : wait_points (kwarg k kw) = Ok l <-> holds_named OWaitPoint wait_point_name rename_wait_point kw k l.
Proof. apply named_iff; [exact wait_same|by_pick ..]. Qed.
Lemma reasons_iff kw k l : one_or_list (strict (fun o => match o with OExecutableEntityActivationReason e => Some e | _ => None end)) (kwarg k kw) = Ok l <->
  holds_list (means_list means_reason) kw k l.
Proof. apply one_or_list_iff; try (intros; discriminate). intros. apply strict_iff; by_pick. Qed.
Lemma reentrancy_iff kw k v : optional (strict (fun o => match o with OReentrancyLevel e => Some e | _ => None end)) (kwarg k kw) = Ok v <-> holds means_reentrancy kw k v.
Proof. apply opt_iff. intros. apply strict_iff; by_pick. Qed.

(** ** References *)
Lemma accepts_area d : accepts rc_ExclusiveAreaRef d = true <-> d = IdentifiableSubTypes_EXCLUSIVE_AREA.
Proof. unfold accepts. cbn [rc_accepted rc_ExclusiveAreaRef existsb]. rewrite orb_false_r. apply dest_eqb_spec. Qed.
Lemma accepts_method d : accepts rc_SwAddrMethodRef d = true <-> d = IdentifiableSubTypes_SW_ADDR_METHOD.
Proof. unfold accepts. cbn [rc_accepted rc_SwAddrMethodRef existsb]. rewrite orb_false_r. apply dest_eqb_spec. Qed.
Lemma as_ref_iff c a r : as_ref c a = Some r <-> of_class (rc_name c) a r.
Proof.
  split.
  - destruct a as [| | | | | | |o| ]; try discriminate. destruct o; try discriminate. cbn. destruct (String.eqb_spec (rc_name c0) (rc_name c)) as [E|]; [|discriminate].
    intros H. injection H as ->. now constructor.
  - intros [c' r' E]. cbn. now rewrite E, String.eqb_refl.
Qed.
Lemma exclusive_area_iff a x : exclusive_area a = Ok x <-> means_exclusive_area a x.
Proof.
  split.
  - intros E. assert (R : forall r, as_ref rc_ExclusiveAreaRef a = Some r -> (let* r := check_and_set_reference (RefObj rc_ExclusiveAreaRef r) rc_ExclusiveAreaRef in
               Ok (mkExclusiveAreaRefConditional (Some r))) = Ok x -> means_exclusive_area a x).
    { intros r R F. apply as_ref_iff in R. destruct R as [c r Rn]. unfold check_and_set_reference in F. cbn [rc_accepted rc_ExclusiveAreaRef] in F. rewrite String.eqb_refl in F. cbn [orb] in F.
      unfold ref_new in F. cbn [bind] in F. destruct (accepts _ _) eqn:Ac; [|discriminate]. apply accepts_area in Ac. cbn [bind] in F. injection F as <-. destruct r as [v d]. cbn in *. subst d. now constructor. }
    unfold exclusive_area in E. destruct a as [| | |s| | | |o| ]; try discriminate.
    + cbn in E. injection E as <-. constructor.
    + destruct o; try discriminate; [injection E as <-; constructor|]. destruct (as_ref _ _) eqn:As; [|discriminate]. eapply R; [reflexivity|exact E].
  - intros [e|s|c r Rn D]; [reflexivity|reflexivity|]. unfold exclusive_area. cbn [as_ref]. rewrite Rn. cbn [rc_name rc_ExclusiveAreaRef]. rewrite String.eqb_refl.
    unfold check_and_set_reference. cbn [rc_accepted rc_ExclusiveAreaRef rc_name]. rewrite String.eqb_refl. cbn [orb]. unfold ref_new. cbn [bind].
    apply accepts_area in D. rewrite D. destruct r. reflexivity.
Qed.
Lemma insides_iff kw k l : one_or_list exclusive_area (kwarg k kw) = Ok l <-> holds_list (means_list means_exclusive_area) kw k l.
Proof. apply one_or_list_iff; [intros x H; inversion H|intros r x H; inversion H|exact exclusive_area_iff]. Qed.
Lemma class_mapM c l rs : mapM (fun x => match as_ref c x with Some r => Ok r | None => Err TypeError end) l = Ok rs <-> Forall2 (of_class (rc_name c)) l rs.
Proof.
  apply mapM_iff. intros a x _. rewrite <- as_ref_iff. destruct (as_ref _ _); split; intros H; try discriminate; now injection H as <-.
Qed.
Lemma nesting_iff kw k l : nesting_orders (kwarg k kw) = Ok l <-> holds_list means_nesting_orders kw k l.
Proof.
  unfold holds_list. destruct (given k kw) as [a|] eqn:G.
  2: { apply given_none in G as ->. cbn. split; [intros H; now injection H as <-|now intros ->]. }
  apply given_some in G as [-> N]. unfold nesting_orders. destruct (as_ref rc_ExclusiveAreaNestingOrderRef a) as [r|] eqn:As.
  - apply as_ref_iff in As. split.
    + intros E. injection E as <-. apply nesting_given. now apply list_one.
    + intros H0. inversion H0 as [a' l' H|a' NL H]; subst; clear H0.
      * inversion As as [c r0 Ec]; subst. inversion H as [a' x Hx|l' xs Hx]; subst. inversion Hx. reflexivity.
      * exfalso. eapply H. exact As.
  - assert (No : forall r, ~ of_class "ExclusiveAreaNestingOrderRef" a r) by (intros r H; apply (as_ref_iff rc_ExclusiveAreaNestingOrderRef) in H; congruence).
    destruct a as [| | | |r| | | | ]; [contradiction|..].
    4: { rewrite class_mapM. split.
         - intros H. apply nesting_given. now apply list_several.
         - intros H0. inversion H0 as [a' l' H|a' NL H]; subst; clear H0; [|exfalso; eapply NL; reflexivity]. inversion H as [? x Hx|? ? Hx]; subst; [inversion Hx|assumption]. }
    all: split; [intros E; injection E as <-; apply nesting_ignored; [discriminate|assumption]|];
      intros H0; inversion H0 as [a' l' H|a' NL H]; subst; clear H0; [inversion H as [? x Hx|? ? Hx]; subst; destruct (No x Hx)|reflexivity].
Qed.
Lemma addr_method_iff kw k v : opt_ref rc_SwAddrMethodRef (kwarg k kw) = Ok v <-> holds means_addr_method kw k v.
Proof.
  apply opt_iff. intros a x _. split.
  - destruct a as [|b|n|s|l|l|l|o| ]; try discriminate.
    + intros E. cbn in E. injection E as <-. constructor.
    + destruct o; try discriminate. unfold check_and_set_reference. cbn [rc_accepted rc_SwAddrMethodRef]. intros E.
      assert (F : ref_new rc_SwAddrMethodRef (rf_value r) (Some (rf_dest r)) = Ok x) by (destruct (_ || _); [exact E|discriminate]).
      unfold ref_new in F. cbn [bind] in F. destruct (accepts _ _) eqn:Ac; [|discriminate]. injection F as <-. apply accepts_method in Ac.
      destruct r as [rv rd]. cbn in *. subst rd. now constructor.
  - intros [s|c r D]; [reflexivity|]. unfold check_and_set_reference. cbn [rc_accepted rc_SwAddrMethodRef].
    apply accepts_method in D. rewrite D, orb_true_r. unfold ref_new. cbn [bind]. rewrite D. now destruct r.
Qed.

(** ** Exclusive areas by name *)
Lemma texts_iff a n : In n (texts a) <-> mentions a n.
Proof.
  assert (F : forall n l, In n (flat_map (fun x => match x with AStr s => [s] | _ => [] end) l) <-> In (AStr n) l).
  { clear n. intros n l. rewrite in_flat_map. split.
    - intros (x & I & J). destruct x; try destruct J as []; [subst; assumption|contradiction].
    - intros I. exists (AStr n). split; [assumption|now left]. }
  split.
  - destruct a as [|b|z|s|l|l|l|o| ]; try (intros []; fail); cbn [texts iterable].
    + intros [->|[]]. constructor.
    + intros I. constructor. now apply F.
    + intros I. constructor. now apply F.
    + intros I. constructor. apply F in I. apply in_map_iff in I as ((k & v) & E & I). injection E as <-. apply in_map_iff. now exists (k, v).
    + destruct o; try (intros []; fail). cbn [texts iterable]. intros I. apply F in I. apply in_map_iff in I as (x & E & _). discriminate.
  - intros [s|l s I|l s I|l s I]; cbn [texts iterable].
    + now left.
    + now apply F.
    + now apply F.
    + apply F. apply in_map_iff in I as (x & E & I). apply in_map_iff. exists x. split; [now rewrite E|assumption].
Qed.
Lemma those_filter {A} (P : A -> Prop) (p : A -> bool) (R : forall a, p a = true <-> P a) l l' : those P l l' <-> l' = filter p l.
Proof.
  split.
  - intros H. induction H as [|a l l' H _ ->|a l l' H _ ->]; [reflexivity| |]; cbn [filter].
    + apply R in H. now rewrite H.
    + destruct (p a) eqn:E; [apply R in E; contradiction|reflexivity].
  - intros ->. induction l as [|a l IH]; cbn [filter]; [constructor|]. destruct (p a) eqn:E.
    + apply those_in; [now apply R|assumption].
    + apply those_out; [intros H; apply R in H; congruence|assumption].
Qed.
Lemma among_iff n names : existsb (String.eqb n) names = true <-> In n names.
Proof. rewrite existsb_exists. split; [intros (x & I & E); apply String.eqb_eq in E; now subst|]. intros I. exists n. split; [assumption|apply String.eqb_refl]. Qed.
Lemma area_ref_at w pl self b a : stands_at w pl self -> area_ref (Some w) b a = Some (ref_to_area self b a).
Proof.
  intros (P & N & E). unfold area_ref, owner_path, ref_to_area. rewrite P. cbn [option_map]. rewrite E, path_below by assumption.
  rewrite path_below by (destruct self; discriminate). now rewrite <- app_assoc.
Qed.
Lemma enter_areas w pl self b areas : stands_at w pl self ->
  mapM exclusive_area (map (fun x => match area_ref (Some w) b x with Some r => AObj (ORef rc_ExclusiveAreaRef r) | None => ANone end) areas) =
  Ok (map (fun x => mkExclusiveAreaRefConditional (Some (ref_to_area self b x))) areas).
Proof.
  intros At. induction areas as [|a l IH]; [reflexivity|]. cbn [map mapM]. rewrite (area_ref_at w pl self) by assumption.
  assert (E : exclusive_area (AObj (ORef rc_ExclusiveAreaRef (ref_to_area self b a))) = Ok (mkExclusiveAreaRefConditional (Some (ref_to_area self b a))))
    by (apply exclusive_area_iff; constructor; reflexivity).
  rewrite E. cbn [bind]. rewrite IH. reflexivity.
Qed.
Definition named_only (b : SwcInternalBehavior) (names : list string) : list ExclusiveArea :=
  filter (fun x => existsb (String.eqb (area_name x)) names) (SwcInternalBehavior_exclusive_areas b).
Lemma all_named b names : forallb (fun n => existsb (String.eqb n) (map area_name (named_only b names))) names = true <->
  forall n, In n names -> In n (map area_name (SwcInternalBehavior_exclusive_areas b)).
Proof.
  rewrite forallb_forall. split; intros H n I.
  - specialize (H n I). apply among_iff in H. unfold named_only in H. apply in_map_iff in H as (x & E & J). apply filter_In in J as [J _]. apply in_map_iff. now exists x.
  - apply among_iff. specialize (H n I). apply in_map_iff in H as (x & E & J). apply in_map_iff. exists x. split; [assumption|]. apply filter_In. split; [assumption|]. apply among_iff. now rewrite E.
Qed.
Lemma named_areas_eq o b a : named_areas o b a = match texts a with [] => Ok a | n :: l => let names := n :: l in
    if forallb (fun n => existsb (String.eqb n) (map area_name (named_only b names))) names
    then Ok (AList (map (fun x => match area_ref o b x with Some r => AObj (ORef rc_ExclusiveAreaRef r) | None => ANone end) (named_only b names)))
    else Err ValueError end.
Proof. reflexivity. Qed.
Lemma enter_iff w pl self b kw k l : stands_at w pl self ->
  ((exists a, named_areas (Some w) b (kwarg k kw) = Ok a /\ one_or_list exclusive_area a = Ok l) <-> holds_list (means_areas self b) kw k l).
Proof.
  intros At. unfold holds_list. destruct (given k kw) as [a|] eqn:G.
  2: { apply given_none in G as ->. split; [intros (a & E & F); injection E as <-; now injection F as <-|intros ->; exists ANone; auto]. }
  apply given_some in G as [-> N]. rewrite named_areas_eq. pose proof (texts_iff a) as T. destruct (texts a) as [|n names] eqn:X.
  - assert (No : forall n, ~ mentions a n) by (intros n H; apply T in H; destruct H).
    assert (I : one_or_list exclusive_area a = Ok l <-> means_list means_exclusive_area a l)
      by (apply one_or_list_means; [assumption|intros x H; inversion H|intros r x H; inversion H|exact exclusive_area_iff]).
    split.
    + intros (a' & E & F). injection E as <-. apply areas_by_ref; [assumption|now apply I].
    + intros H. exists a. split; [reflexivity|]. apply I. inversion H as [a' areas (n & M)|a' l' _ M]; subst; [destruct (No n M)|assumption].
  - assert (Mn : mentions a n) by (apply T; now left).
    set (names' := n :: names) in *. clearbody names'. clear X. cbv zeta. assert (T' : forall x, existsb (String.eqb (area_name x)) names' = true <-> mentions a (area_name x)) by (intros x; now rewrite among_iff).
    split.
    + intros (a' & E & F). destruct (forallb _ _) eqn:All; [|discriminate]. injection E as <-. cbn [one_or_list] in F. rewrite (enter_areas w pl self) in F by assumption. injection F as <-.
      apply areas_by_name.
      * now exists n.
      * intros m M. apply T in M. rewrite all_named in All. now apply All.
      * now apply (those_filter _ _ T').
    + intros H. inversion H as [a' areas Ex All Th|a' l' No _]; subst; [|destruct (No n Mn)].
      eexists. split.
      * assert (Al : forallb (fun n => existsb (String.eqb n) (map area_name (named_only b names'))) names' = true) by (apply all_named; intros m M; apply All, T, M).
        rewrite Al. reflexivity.
      * cbn [one_or_list]. rewrite (enter_areas w pl self) by assumption. apply (those_filter _ _ T') in Th as ->. reflexivity.
Qed.

(** ** The runnable *)
Lemma symbol_iff name kw s : opt_text_strict (default_symbol name kw) = Ok s <-> has_symbol name kw s.
Proof.
  unfold default_symbol. split.
  - destruct (assoc "symbol" kw) as [a|] eqn:E; [|intros F; injection F as <-; now apply symbol_default].
    destruct a as [| | |t| | | | | ]; cbn [opt_text_strict optional]; try discriminate.
    + intros F. injection F as <-. now apply symbol_none.
    + destruct t as [|c t]; intros F; cbn in F; injection F as <-; [now apply symbol_empty|]. apply symbol_given; [assumption|discriminate].
  - intros [E|E|t E N|E]; rewrite E; try reflexivity. destruct t; [contradiction|reflexivity].
Qed.
Lemma given_kwarg k kw kw' : assoc k kw' = assoc k kw -> kwarg k kw' = kwarg k kw.
Proof. unfold kwarg. now intros ->. Qed.
Lemma kwarg_same k a kw : kwarg k (assoc_set k a kw) = a.
Proof. unfold kwarg. now rewrite assoc_set_same. Qed.
Lemma kwarg_other k j a kw : k <> j -> kwarg k (assoc_set j a kw) = kwarg k kw.
Proof. intros N. unfold kwarg. now rewrite assoc_set_other. Qed.
Lemma keywords_set names kw k a j a' : In k names -> In j names -> (only names (assoc_set k a (assoc_set j a' kw)) <-> only names kw).
Proof.
  intros K J. unfold only. split; intros H x X.
  - apply H. rewrite keys_set. right. rewrite keys_set. now right.
  - rewrite keys_set, keys_set in X. destruct X as [->|[->|X]]; auto.
Qed.
Lemma create_runnable_iff w pl self b name kw r b' : stands_at w pl self ->
  (create_runnable (Some w) b name kw = (b', Ok r) <-> describes self b name kw r /\ b' = append_runnable b r).
Proof.
  intros At. set (body := let* _ := no_clash ["self"; "name"] kw in
         let* areas := named_areas (Some w) b (kwarg "can_enter_leave" kw) in
         new_runnable name (assoc_set "can_enter_leave" areas (assoc_set "symbol" (default_symbol name kw) kw))).
  assert (Body : body = Ok r <-> describes self b name kw r).
  { unfold body. clear body b'. rewrite bind_iff. split.
    - intros (u & _ & E). apply bind_iff in E as (areas & Ar & E). unfold new_runnable in E. cbv zeta in E.
      rewrite kwarg_same in E. rewrite !(kwarg_other _ "can_enter_leave") in E by discriminate. rewrite kwarg_same in E. rewrite !(kwarg_other _ "symbol") in E by discriminate.
      repeat (let x := fresh "x" in let H := fresh "H" in apply bind_iff in E as (x & H & E)). injection E as <-.
      assert (En := proj1 (enter_iff w pl self b kw "can_enter_leave" _ At) (ex_intro _ areas (conj Ar H2))).
      constructor; cbn [RunnableEntity_ident RunnableEntity_symbol RunnableEntity_can_be_invoked_concurrently RunnableEntity_minimum_start_interval RunnableEntity_reentrancy_level RunnableEntity_sw_addr_method RunnableEntity_can_enter_leave RunnableEntity_runs_insides RunnableEntity_exclusive_area_nesting_order RunnableEntity_activation_reasons RunnableEntity_argument RunnableEntity_external_triggering_point RunnableEntity_mode_access_point RunnableEntity_async_server_call_result_point RunnableEntity_data_read_access RunnableEntity_data_receive_point_by_argument RunnableEntity_data_receive_point_by_value RunnableEntity_data_send_point RunnableEntity_data_write_access RunnableEntity_internal_triggering_point RunnableEntity_mode_switch_point RunnableEntity_parameter_access RunnableEntity_read_local_variable RunnableEntity_write_local_variable RunnableEntity_server_call_point RunnableEntity_wait_point].
      + apply keywords_iff in H. apply keywords_set in H; [|cbn; tauto|cbn; tauto]. revert H. apply only_perm. intros k. unfold runnable_keywords, runnable_arguments. cbn [In app identifiable_keywords]. tauto.
      + eapply identity_iff; [|eassumption]. intros k K. rewrite !given_set; [reflexivity|..]; intros ->; absurd_in K.
      + now apply symbol_iff.
      + now apply opt_bool_iff.
      + now apply opt_float_iff.
      + now apply reentrancy_iff.
      + now apply addr_method_iff.
      + exact En.
      + now apply insides_iff.
      + now apply nesting_iff.
      + now apply reasons_iff.
      + now apply arguments_iff.
      + now apply externals_iff.
      + now apply mode_accesses_iff.
      + now apply result_points_iff.
      + now apply variable_accesses_iff.
      + now apply variable_accesses_iff.
      + now apply variable_accesses_iff.
      + now apply variable_accesses_iff.
      + now apply variable_accesses_iff.
      + now apply internals_iff.
      + now apply switches_iff.
      + now apply parameters_iff.
      + now apply variable_accesses_iff.
      + now apply variable_accesses_iff.
      + now apply calls_iff.
      + now apply waits_iff.
    - intros D. exists tt. split.
      { apply (only_no_clash runnable_arguments); [|apply (ds_only _ _ _ _ _ D)]. intros k [<-|[<-|[]]] K; absurd_in K. }
      destruct D as [D1 D2 D3 D4 D5 D6 D7 D8 D9 D10 D11 D12 D13 D14 D15 D16 D17 D18 D19 D20 D21 D22 D23 D24 D25 D26 D27].
      apply (enter_iff w pl self b kw "can_enter_leave" _ At) in D8 as (areas & Ar & D8). apply bind_iff. exists areas. split; [exact Ar|].
      unfold new_runnable. cbv zeta.
      rewrite kwarg_same. rewrite !(kwarg_other _ "can_enter_leave") by discriminate. rewrite kwarg_same. rewrite !(kwarg_other _ "symbol") by discriminate.
      apply bind_iff. exists tt. split.
      { apply keywords_iff. apply keywords_set; [cbn; tauto|cbn; tauto|]. revert D1. apply only_perm. intros k. unfold runnable_keywords, runnable_arguments. cbn [In app identifiable_keywords]. tauto. }
      apply symbol_iff in D3. apply opt_bool_iff in D4. apply opt_float_iff in D5. apply reentrancy_iff in D6. apply addr_method_iff in D7. apply insides_iff in D9. apply nesting_iff in D10.
      apply reasons_iff in D11. apply arguments_iff in D12. apply externals_iff in D13. apply mode_accesses_iff in D14. apply result_points_iff in D15.
      apply variable_accesses_iff in D16, D17, D18, D19, D20, D24, D25. apply internals_iff in D21. apply switches_iff in D22. apply parameters_iff in D23. apply calls_iff in D26. apply waits_iff in D27.
      apply bind_iff. exists (RunnableEntity_ident r). split; [eapply identity_iff; [|exact D2]; intros k K; rewrite !given_set; [reflexivity|..]; intros ->; absurd_in K|].
      repeat (apply bind_iff; eexists; split; [eassumption|]). destruct r. reflexivity. }
  unfold create_runnable. fold body. split.
  - destruct body as [x|e]; intros E; [|discriminate]. injection E as <- ->. split; [now apply Body|reflexivity].
  - intros [D ->]. apply Body in D. rewrite D. reflexivity.
Qed.
Lemma create_runnable_fails o b name kw e b' : create_runnable o b name kw = (b', Err e) -> b' = b.
Proof. unfold create_runnable. destruct (let* _ := _ in _); intros E; [discriminate|]. now injection E as <- _. Qed.
Lemma create_area_iff b name kw a b' : create_exclusive_area b name kw = (b', Ok a) <->
  (only ["desc"; "category"; "uuid"; "admin_data"; "long_name"] kw /\ identity name kw (ExclusiveArea_ident a)) /\ b' = append_exclusive_area b a.
Proof.
  assert (Body : forall i, (let* _ := check_keywords identifiable_keywords kw in new_identifiable name kw) = Ok i <->
                 only ["desc"; "category"; "uuid"; "admin_data"; "long_name"] kw /\ identity name kw i).
  { intros i. rewrite bind_iff. split.
    - intros (u & E & F). split; [|now apply (identity_iff name kw kw)]. apply keywords_iff in E. revert E. apply only_perm. perm.
    - intros (E & F). exists tt. split; [|now apply (identity_iff name kw kw)]. apply keywords_iff. revert E. apply only_perm. perm. }
  unfold create_exclusive_area. split.
  - destruct (let* _ := _ in _) as [i|e] eqn:E; intros F; [|discriminate]. injection F as <- <-. split; [now apply Body|reflexivity].
  - intros [D ->]. destruct a as [i]. apply Body in D. rewrite D. reflexivity.
Qed.
Lemma create_area_fails b name kw e b' : create_exclusive_area b name kw = (b', Err e) -> b' = b.
Proof. unfold create_exclusive_area. destruct (let* _ := _ in _); intros E; [discriminate|]. now injection E as <- _. Qed.
Lemma more_runnable b r b' : one_more_runnable b r b' <-> b' = append_runnable b r.
Proof.
  unfold one_more_runnable. split.
  - destruct b, b'. cbn. intros (-> & -> & -> & -> & -> & ->). reflexivity.
  - intros ->. cbn. splits; reflexivity.
Qed.
Lemma more_area b a b' : one_more_area b a b' <-> b' = append_exclusive_area b a.
Proof.
  unfold one_more_area. split.
  - destruct b, b'. cbn. intros (-> & -> & -> & -> & -> & ->). reflexivity.
  - intros ->. cbn. splits; reflexivity.
Qed.
Lemma unknown_area w b name kw a n : given "can_enter_leave" kw = Some a -> mentions a n -> ~ In n (map area_name (SwcInternalBehavior_exclusive_areas b)) ->
  ~ In "self" (map fst kw) -> ~ In "name" (map fst kw) -> create_runnable w b name kw = (b, Err ValueError).
Proof.
  intros G M N S' N'. apply given_some in G as [G _]. unfold create_runnable.
  assert (Nc : no_clash ["self"; "name"] kw = Ok tt) by (apply clash_iff; intros k K [<-|[<-|[]]]; contradiction).
  rewrite Nc, G, named_areas_eq. cbn [bind]. apply texts_iff in M. destruct (texts a) as [|m names]; [destruct M|].
  destruct (forallb _ _) eqn:All; [|reflexivity]. exfalso. apply N. rewrite all_named in All. now apply All.
Qed.

(** ** Histories *)
Lemma build_all_spec w pl self l : stands_at w pl self -> forall b, exists areas runnables, built self b l areas runnables /\
  SwcInternalBehavior_ident (build_all (Some w) b l) = SwcInternalBehavior_ident b /\
  SwcInternalBehavior_data_type_mappings (build_all (Some w) b l) = SwcInternalBehavior_data_type_mappings b /\
  SwcInternalBehavior_exclusive_areas (build_all (Some w) b l) = SwcInternalBehavior_exclusive_areas b ++ areas /\
  SwcInternalBehavior_events (build_all (Some w) b l) = SwcInternalBehavior_events b /\
  SwcInternalBehavior_port_api_options (build_all (Some w) b l) = SwcInternalBehavior_port_api_options b /\
  SwcInternalBehavior_runnables (build_all (Some w) b l) = SwcInternalBehavior_runnables b ++ runnables.
Proof.
  intros At. unfold build_all. induction l as [|x l IH]; intros b; cbn [fold_left].
  - exists [], []. rewrite !app_nil_r. splits; try reflexivity. constructor.
  - destruct x as [n kw|n kw]; cbn [build].
    + destruct (create_exclusive_area b n kw) as [b' [a|e]] eqn:E; cbn [fst].
      * apply create_area_iff in E as [[E1 E2] E]. destruct (IH b') as (areas & runnables & B & F1 & F2 & F3 & F4 & F5 & F6). exists (a :: areas), runnables.
        subst b'. cbn in F1, F2, F3, F4, F5, F6. rewrite <- app_assoc in F3. splits; try assumption. eapply built_area; [eassumption|eassumption|now apply more_area|assumption].
      * pose proof (create_area_fails _ _ _ _ _ E) as ->. destruct (IH b) as (areas & runnables & B & F). exists areas, runnables. split; [|exact F].
        apply built_no_area; [|assumption]. intros a H. assert (X : create_exclusive_area b n kw = (append_exclusive_area b a, Ok a)) by (apply create_area_iff; auto). congruence.
    + destruct (create_runnable (Some w) b n kw) as [b' [r|e]] eqn:E; cbn [fst].
      * apply (create_runnable_iff w pl self) in E as [D E]; [|assumption]. destruct (IH b') as (areas & runnables & B & F1 & F2 & F3 & F4 & F5 & F6). exists areas, (r :: runnables).
        subst b'. cbn in F1, F2, F3, F4, F5, F6. rewrite <- app_assoc in F6. splits; try assumption. eapply built_runnable; [eassumption|now apply more_runnable|assumption].
      * pose proof (create_runnable_fails _ _ _ _ _ _ E) as ->. destruct (IH b) as (areas & runnables & B & F). exists areas, runnables. split; [|exact F].
        apply built_no_runnable; [|assumption]. intros r H. assert (X : create_runnable (Some w) b n kw = (append_runnable b r, Ok r)) by (apply (create_runnable_iff w pl self); auto). congruence.
Qed.
Definition area_exists (self : list string) (b : SwcInternalBehavior) (e : ExclusiveAreaRefConditional) : Prop :=
  exists a, In a (SwcInternalBehavior_exclusive_areas b) /\ ExclusiveAreaRefConditional_exclusive_area e = Some (ref_to_area self b a).
Lemma those_in_list {A} (P : A -> Prop) l l' a : those P l l' -> In a l' -> In a l /\ P a.
Proof. intros H. induction H as [|x l l' Px H IH|x l l' Px H IH]; [intros []|intros [<-|I]; [split; [now left|assumption]|]|intros I]; apply IH in I as [I J]; split; auto; now right. Qed.
Lemma those_complete {A} (P : A -> Prop) l l' a : those P l l' -> In a l -> P a -> In a l'.
Proof. intros H. induction H as [|x l l' Px H IH|x l l' Px H IH]; [intros []| |]; intros [<-|I] Pa; [now left|right; auto|contradiction|auto]. Qed.
Lemma named_exist self b a l : (exists n, mentions a n) -> means_areas self b a l -> Forall (area_exists self b) l.
Proof.
  intros (n & M) H. inversion H as [a' areas Ex All Th|a' l' No _]; subst; [|destruct (No n M)].
  apply Forall_map, Forall_forall. intros x I. apply (those_in_list _ _ _ _ Th) in I as [I _]. exists x. auto.
Qed.

(** ** The internal behavior *)
Lemma mapping_sets_iff kw k l : mapping_sets (kwarg k kw) = Ok l <-> holds_list means_mapping_sets kw k l.
Proof.
  unfold holds_list. destruct (given k kw) as [a|] eqn:G.
  2: { apply given_none in G as ->. cbn. split; [intros H; now injection H as <-|now intros ->]. }
  apply given_some in G as [-> N]. split.
  - intros E. destruct a as [|b|n|s|r|r|r|o| ]; cbn [mapping_sets] in E; [contradiction|..].
    all: try (cbn in E; discriminate E).
    + cbn in E. injection E as <-. apply mapping_text.
    + apply mapping_list. now apply class_mapM in E.
    + apply mapping_tuple. now apply class_mapM in E.
    + apply class_mapM in E. destruct r as [|[x y] r]; cbn in E; [inversion E; constructor|]. inversion E as [|? ? ? ? H]. inversion H.
    + apply class_mapM in E. destruct o; cbn [iterable] in E; try (inversion E as [|? ? ? ? H H']; subst; inversion H'; subst; apply mapping_one; exact H).
      destruct (SwDataDefProps_variants e) as [|v vs] eqn:V; cbn in E; [inversion E; now constructor|]. inversion E as [|? ? ? ? H]. inversion H.
  - intros H. destruct H as [s|a r H|r rs H|r rs H| |p H].
    + reflexivity.
    + destruct H as [c r E]. cbn [mapping_sets iterable]. apply class_mapM. constructor; [now constructor|constructor].
    + cbn [mapping_sets iterable]. now apply class_mapM.
    + cbn [mapping_sets iterable]. now apply class_mapM.
    + reflexivity.
    + cbn. rewrite H. reflexivity.
Qed.
Lemma split_parts c s p : In p (split_at c s) -> mem_char c p = false.
Proof.
  revert p. induction s as [|x s IH]; intros p; cbn [split_at].
  - intros [<-|[]]. reflexivity.
  - destruct (Ascii.eqb x c) eqn:E; [intros [<-|I]; [reflexivity|auto]|]. destruct (split_at c s) as [|a l]; [intros [<-|[]]; cbn; now rewrite E|].
    intros [<-|I]; [|apply IH; now right]. cbn. rewrite E. apply IH. now left.
Qed.
Lemma last_part_iff r k : last_part r = k <-> mem_char slash k = false /\ (rf_value r = k \/ exists front, rf_value r = (front ++ "/" ++ k)%string).
Proof.
  unfold last_part. split.
  - intros <-. pose proof (split_at_nonempty slash (rf_value r)) as N. pose proof (join_split slash (rf_value r)) as J.
    destruct (exists_last N) as (l & a & E). rewrite E in *. rewrite last_last. split.
    + apply (split_parts slash (rf_value r)). rewrite E. apply in_or_app. right. now left.
    + destruct l as [|b l]; [left; cbn in J; now rewrite J|right]. exists (join (String slash "") (b :: l)). rewrite <- J at 1. now rewrite join_snoc.
  - intros [M [->|(front & ->)]]; [now rewrite split_at_no|].
    change (front ++ "/" ++ k)%string with (front ++ String slash k)%string. rewrite split_at_app, last_app by apply split_at_nonempty. now rewrite split_at_no.
Qed.
Lemma assoc_set_found {A} k (old v : A) m1 m2 : ~ In k (map fst m1) -> assoc_set k v (m1 ++ (k, old) :: m2) = m1 ++ (k, v) :: m2.
Proof.
  induction m1 as [|[k' v'] m1 IH]; cbn; intros N.
  - now rewrite String.eqb_refl.
  - destruct (String.eqb_spec k k') as [->|_]; [destruct N; now left|]. rewrite IH; [reflexivity|]. intros I. apply N. now right.
Qed.
Lemma keyed_nodup l m : keyed l m -> NoDup (map fst m).
Proof.
  intros H. induction H as [|l m e _ IH _|l m e k _ IH _ N|l m1 old m2 e k _ IH _]; [constructor|assumption| |].
  - rewrite map_app. apply NoDup_app_snoc || (apply (NoDup_Add (a := k) (l := map fst m)); [|split; assumption]). rewrite <- (app_nil_r (map fst m)) at 1. apply Add_app.
  - rewrite map_app in *. exact IH.
Qed.
Lemma keyed_iff l m : keyed l m <-> m = fold_left append_port_api_option l [].
Proof.
  assert (Key : forall e k, option_key e k <-> option_map last_part (PortApiOption_port e) = Some k).
  { intros e k. unfold option_key. destruct (PortApiOption_port e) as [r|]; cbn [option_map].
    - split.
      + intros (r' & E & H). injection E as <-. f_equal. now apply last_part_iff.
      + intros E. injection E as E. exists r. split; [reflexivity|]. now apply last_part_iff.
    - split; [intros (r & E & _); discriminate|discriminate]. }
  split.
  - intros H. pose proof (keyed_nodup _ _ H) as N. revert N. induction H as [|l m e _ IH P|l m e k _ IH K N|l m1 old m2 e k _ IH K]; intros Nd; [reflexivity|..]; rewrite fold_left_app; cbn [fold_left]; unfold append_port_api_option at 1.
    + rewrite P. now apply IH.
    + apply Key in K. destruct (PortApiOption_port e) as [r|]; [|discriminate]. injection K as ->. rewrite <- IH.
      * rewrite assoc_set_fresh; [reflexivity|]. now apply assoc_none.
      * rewrite map_app in Nd. now apply NoDup_remove_1 with (a := k) in Nd; rewrite app_nil_r in Nd.
    + apply Key in K. destruct (PortApiOption_port e) as [r|]; [|discriminate]. injection K as ->. rewrite <- IH.
      * rewrite map_app in Nd. cbn in Nd. apply NoDup_remove_2 in Nd. rewrite assoc_set_found; [reflexivity|]. intros I. apply Nd. apply in_or_app. now left.
      * rewrite map_app in *. exact Nd.
  - intros ->. induction l as [|e l IH] using rev_ind; [constructor|]. rewrite fold_left_app. cbn [fold_left]. set (m := fold_left append_port_api_option l []) in *. clearbody m.
    unfold append_port_api_option. destruct (PortApiOption_port e) as [r|] eqn:P; [|now apply keyed_no_port].
    assert (K : option_key e (last_part r)) by (apply Key; rewrite P; reflexivity).
    destruct (assoc (last_part r) m) as [old|] eqn:As.
    + apply assoc_in in As. apply in_split in As as (m1 & m2 & ->). rewrite assoc_set_found; [eapply keyed_again; eassumption|].
      apply keyed_nodup in IH. rewrite map_app in IH. cbn in IH. apply NoDup_remove_2 in IH. intros I. apply IH. apply in_or_app. now left.
    + rewrite assoc_set_fresh by assumption. apply keyed_new; [assumption|assumption|]. now apply assoc_none.
Qed.
Lemma create_behavior_iff c name kw b c' : create_internal_behavior c name kw = (c', Ok b) <->
  (exists n, default_behavior_name c name n /\ describes_behavior n kw b) /\ c' = set_internal_behavior c b.
Proof.
  unfold create_internal_behavior. set (n := match name with None => _ | Some m => m end).
  assert (Name : forall x, default_behavior_name c name x <-> x = n) by (intros x; unfold n, default_behavior_name; destruct name; tauto).
  assert (Body : (let* _ := no_clash ["self"; "name"] kw in new_behavior n kw) = Ok b <-> describes_behavior n kw b).
  { clearbody n. rewrite bind_iff. split.
    - intros (u & _ & E). unfold new_behavior in E. repeat (let x := fresh "x" in let H := fresh "H" in apply bind_iff in E as (x & H & E)). injection E as <-. constructor; cbn.
      + apply keywords_iff in H. exact H.
      + now apply (identity_iff n kw kw).
      + now apply mapping_sets_iff.
      + now apply areas_iff.
      + now apply events_iff.
      + now apply runnables_iff.
      + eexists. split; [now apply options_iff; eassumption|]. now apply keyed_iff.
    - intros [D1 D2 D3 D4 D5 D6 (l & D7 & D8)]. exists tt. split.
      { eapply only_no_clash; [|exact D1]. intros k [<-|[<-|[]]] K; absurd_in K. }
      unfold new_behavior. apply bind_iff. exists tt. split; [now apply keywords_iff|].
      apply (identity_iff n kw kw) in D2; [|intros k K; reflexivity]. apply mapping_sets_iff in D3. apply areas_iff in D4. apply events_iff in D5. apply runnables_iff in D6. apply options_iff in D7. apply keyed_iff in D8.
      repeat (apply bind_iff; eexists; split; [eassumption|]). rewrite <- D8. destruct b. reflexivity. }
  split.
  - destruct (let* _ := _ in _) as [x|e] eqn:E; intros F; [|discriminate]. injection F as <- ->. split; [|reflexivity]. exists n. split; [now apply Name|now apply Body].
  - intros [(m & Nm & D) ->]. apply Name in Nm as ->. apply Body in D. rewrite D. reflexivity.
Qed.
Lemma create_behavior_fails c name kw e c' : create_internal_behavior c name kw = (c', Err e) -> c' = c.
Proof. unfold create_internal_behavior. destruct (let* _ := _ in _); intros E; [discriminate|]. now injection E as <- _. Qed.
