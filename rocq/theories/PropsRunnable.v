(** Internal behaviors, exclusive areas and runnables created from arguments: C46, C47. *)
From Verif Require Import Base PBase MHeap SHeap MNames PNames MWork MNum MXml MEnum MRefTab MRef MCodec MElem0 MElem1 MElemA MElemB MElemC MElem2 MElemD MElem3 MElem4 MElemE PElemE MElem5 MElemF MArxml MFind SFind PFind PConn MValue MEvent SEvent PEvent MPort SPort PPort MAccess SAccess PAccess MRunnable SRunnable PRunnable PropsConn PropsAccess.
Open Scope list_scope.

(** ** C46: runnables *)
(** A call succeeds if and only if the arguments describe a runnable; then that runnable is returned and
    added at the end of the behavior, and nothing else changes. *)
Theorem C46_runnable w pl self b name kw r b' : stands_at w pl self ->
  (create_runnable (Some w) b name kw = (b', Ok r) <-> describes self b name kw r /\ one_more_runnable b r b').
Proof. intros At. rewrite more_runnable. now apply (create_runnable_iff w pl self). Qed.
(** After an exception the behavior is as before. *)
Theorem C46_failure o b name kw e b' : create_runnable o b name kw = (b', Err e) -> b' = b.
Proof. apply create_runnable_fails. Qed.
(** A name that no exclusive area of the behavior has is an error, whatever the other arguments are. *)
Theorem C46_unknown_area o b name kw a n : ~ In "self" (map fst kw) -> ~ In "name" (map fst kw) ->
  given "can_enter_leave" kw = Some a -> mentions a n -> ~ In n (map area_name (SwcInternalBehavior_exclusive_areas b)) ->
  create_runnable o b name kw = (b, Err ValueError).
Proof. intros. now apply (unknown_area o b name kw a n). Qed.
(** When areas are named, the runnable refers to exactly the areas of these names: to each of them, and
    to nothing else. *)
Theorem C46_named_areas w pl self b name kw r b' a : stands_at w pl self -> create_runnable (Some w) b name kw = (b', Ok r) ->
  given "can_enter_leave" kw = Some a -> (exists n, mentions a n) ->
  forall e, In e (RunnableEntity_can_enter_leave r) <->
    exists x, In x (SwcInternalBehavior_exclusive_areas b) /\ mentions a (area_name x) /\ e = mkExclusiveAreaRefConditional (Some (ref_to_area self b x)).
Proof.
  intros At E G (n & M) e. apply (create_runnable_iff w pl self) in E as [D _]; [|assumption]. pose proof (ds_enter _ _ _ _ _ D) as H. unfold holds_list in H. rewrite G in H.
  inversion H as [a' areas Ex All Th|a' l' No _]; subst; [|destruct (No n M)]. rewrite in_map_iff. split.
  - intros (x & <- & I). apply (those_in_list _ _ _ _ Th) in I as [I J]. exists x. auto.
  - intros (x & I & J & ->). exists x. split; [reflexivity|]. now apply (those_complete _ _ _ _ Th).
Qed.
(** Outside of a package there are no references to areas: naming one is an error. *)
Theorem C46_needs_package o b name kw a n : owner_path o = None -> given "can_enter_leave" kw = Some a -> mentions a n ->
  exists e, create_runnable o b name kw = (b, Err e).
Proof.
  intros O G M. destruct (create_runnable o b name kw) as [b' [r|e]] eqn:E; [|apply create_runnable_fails in E as ->; eauto]. exfalso. unfold create_runnable in E.
  destruct (let* _ := _ in _) as [x|] eqn:B in E; [|discriminate]. apply bind_iff in B as (u & _ & B). apply bind_iff in B as (areas & Ar & B).
  apply given_some in G as [G _]. rewrite G, named_areas_eq in Ar. apply texts_iff in M. destruct (texts a) as [|m names]; [destruct M|]. cbv zeta in Ar. destruct (forallb _ _) eqn:All in Ar; [|discriminate].
  injection Ar as <-. unfold new_runnable in B. cbv zeta in B. rewrite kwarg_same in B. apply bind_iff in B as (? & _ & B). apply bind_iff in B as (? & _ & B). apply bind_iff in B as (? & _ & B).
  apply bind_iff in B as (l & F & _). cbn [one_or_list] in F. destruct (named_only b (m :: names)) as [|y l'] eqn:No.
  - rewrite forallb_forall in All. specialize (All m (or_introl eq_refl)). discriminate.
  - cbn [map mapM] in F. unfold area_ref in F. rewrite O in F. discriminate.
Qed.
(** Access points with different names are stored as they are given. *)
Theorem C46_distinct_points w pl self b name kw r b' l : stands_at w pl self -> create_runnable (Some w) b name kw = (b', Ok r) -> NoDup (map variable_access_name l) ->
  (given "data_read_access" kw = Some (AList (map (fun x => AObj (OVariableAccess x)) l)) -> RunnableEntity_data_read_access r = l) /\
  (given "data_write_access" kw = Some (AList (map (fun x => AObj (OVariableAccess x)) l)) -> RunnableEntity_data_write_access r = l) /\
  (given "data_send_point" kw = Some (AList (map (fun x => AObj (OVariableAccess x)) l)) -> RunnableEntity_data_send_point r = l) /\
  (given "data_receive_point_by_argument" kw = Some (AList (map (fun x => AObj (OVariableAccess x)) l)) -> RunnableEntity_data_receive_point_by_argument r = l) /\
  (given "data_receive_point_by_value" kw = Some (AList (map (fun x => AObj (OVariableAccess x)) l)) -> RunnableEntity_data_receive_point_by_value r = l).
Proof.
  intros At E N. apply (create_runnable_iff w pl self) in E as [D _]; [|assumption].
  assert (X : forall k m, holds_named OVariableAccess variable_access_name rename_variable_access kw k m ->
              given k kw = Some (AList (map (fun x => AObj (OVariableAccess x)) l)) -> m = l).
  { intros k m (g & H & T) G. unfold holds_list in H. rewrite G in H. apply in_turn_iff in T as ->; [|exact variable_same].
    assert (g = l) as ->; [|apply append_each_distinct; [exact variable_same|exact N]].
    inversion H as [|g' M| | | |]. subst g'. clear - M. revert g M. induction l as [|x l IH]; intros [|y g] M; try discriminate; [reflexivity|]. cbn in M. injection M as -> M. f_equal. now apply IH. }
  splits; apply X; apply D.
Qed.
(** Any sequence of calls, with any outcomes: the areas and runnables that were described are added in
    order, and nothing else changes. *)
Theorem C46_history w pl self b l : stands_at w pl self -> let b' := build_all (Some w) b l in
  exists areas runnables, built self b l areas runnables /\
  SwcInternalBehavior_exclusive_areas b' = SwcInternalBehavior_exclusive_areas b ++ areas /\
  SwcInternalBehavior_runnables b' = SwcInternalBehavior_runnables b ++ runnables /\
  SwcInternalBehavior_ident b' = SwcInternalBehavior_ident b /\
  SwcInternalBehavior_data_type_mappings b' = SwcInternalBehavior_data_type_mappings b /\
  SwcInternalBehavior_events b' = SwcInternalBehavior_events b /\
  SwcInternalBehavior_port_api_options b' = SwcInternalBehavior_port_api_options b.
Proof.
  intros At b'. destruct (build_all_spec w pl self l At b) as (areas & runnables & B & F1 & F2 & F3 & F4 & F5 & F6). exists areas, runnables. auto 10.
Qed.
(** If runnables are only created with names of areas, then after any sequence of calls every area a
    runnable can enter exists in the behavior. *)
Definition by_name (x : building) : Prop :=
  match x with CreateArea _ _ => True | CreateRunnable _ kw => forall a, given "can_enter_leave" kw = Some a -> exists n, mentions a n end.
Theorem C46_references_exist w pl self l : stands_at w pl self -> Forall by_name l -> forall b,
  (forall r e, In r (SwcInternalBehavior_runnables b) -> In e (RunnableEntity_can_enter_leave r) -> area_exists self b e) ->
  forall r e, In r (SwcInternalBehavior_runnables (build_all (Some w) b l)) -> In e (RunnableEntity_can_enter_leave r) -> area_exists self (build_all (Some w) b l) e.
Proof.
  intros At F. unfold build_all. induction F as [|x l Fx F IH]; intros b H; cbn [fold_left]; [exact H|]. apply IH. clear IH.
  destruct x as [n kw|n kw]; cbn [build].
  - destruct (create_exclusive_area b n kw) as [b' [a|e0]] eqn:E; cbn [fst]; [|apply create_area_fails in E as ->; exact H].
    apply create_area_iff in E as [_ ->]. intros r e R I. destruct (H r e R I) as (x & J & X). exists x. split; [|exact X]. cbn. apply in_or_app. now left.
  - destruct (create_runnable (Some w) b n kw) as [b' [x|e0]] eqn:E; cbn [fst]; [|apply create_runnable_fails in E as ->; exact H].
    apply (create_runnable_iff w pl self) in E as [D ->]; [|assumption]. intros r e R I. cbn in R. apply in_app_or in R as [R|[<-|[]]].
    + destruct (H r e R I) as (y & J & X). exists y. auto.
    + pose proof (ds_enter _ _ _ _ _ D) as A. unfold holds_list in A. destruct (given "can_enter_leave" kw) as [a|] eqn:G; [|rewrite A in I; destruct I].
      apply named_exist in A; [|apply Fx, G]. rewrite Forall_forall in A. destruct (A e I) as (y & J & X). exists y. auto.
Qed.

(** ** C47: internal behaviors and exclusive areas *)
(** The behavior is the one described; the component gets it, and nothing else of it changes. *)
Theorem C47_behavior c name kw b c' : create_internal_behavior c name kw = (c', Ok b) <->
  (exists n, default_behavior_name c name n /\ describes_behavior n kw b) /\
  ApplicationSoftwareComponentType_internal_behavior c' = Some b /\
  ApplicationSoftwareComponentType_ident c' = ApplicationSoftwareComponentType_ident c /\
  ApplicationSoftwareComponentType_ports c' = ApplicationSoftwareComponentType_ports c /\
  ApplicationSoftwareComponentType_symbol_props c' = ApplicationSoftwareComponentType_symbol_props c.
Proof.
  rewrite create_behavior_iff. split.
  - intros [D ->]. cbn. auto.
  - intros (D & E1 & E2 & E3 & E4). split; [exact D|]. destruct c, c'. cbn in *. unfold set_internal_behavior. cbn. congruence.
Qed.
Theorem C47_failure c name kw e c' : create_internal_behavior c name kw = (c', Err e) -> c' = c.
Proof. apply create_behavior_fails. Qed.
Theorem C47_exclusive_area b name kw a b' : create_exclusive_area b name kw = (b', Ok a) <->
  only ["desc"; "category"; "uuid"; "admin_data"; "long_name"] kw /\ identity name kw (ExclusiveArea_ident a) /\ one_more_area b a b'.
Proof. rewrite more_area, create_area_iff. tauto. Qed.
Theorem C47_exclusive_area_failure b name kw e b' : create_exclusive_area b name kw = (b', Err e) -> b' = b.
Proof. apply create_area_fails. Qed.
(** The options of the new behavior: at most one for each port. *)
Theorem C47_one_option_per_port c name kw b c' : create_internal_behavior c name kw = (c', Ok b) -> NoDup (map fst (SwcInternalBehavior_port_api_options b)).
Proof. intros E. apply create_behavior_iff in E as [(n & _ & D) _]. destruct (db_options _ _ _ D) as (l & _ & K). now apply (keyed_nodup l). Qed.

(** ** Concrete cases *)
Definition ru_behavior : SwcInternalBehavior :=
  mkSwcInternalBehavior (named "Swc_InternalBehavior") [] [mkExclusiveArea (named "A"); mkExclusiveArea (named "B"); mkExclusiveArea (named "C")] [] [] [].
Definition ru_kw : keyword_args :=
  [("minimum_start_interval", ANum (NInt 0)); ("can_enter_leave", AList [AStr "C"; AStr "A"]); ("data_read_access", AList [AObj (OVariableAccess (mkVariableAccess (named "R1") None None)); AObj (OVariableAccess (mkVariableAccess (named "R2") None None))])].
Definition ru_enter (l : list string) := map (fun n => mkExclusiveAreaRefConditional (Some (mkRef (path_string ["Top"; "Swc"; "Swc_InternalBehavior"; n]) IdentifiableSubTypes_EXCLUSIVE_AREA))) l.
Example C46_example : exists r, create_runnable (Some ac_owner) ru_behavior "Run" ru_kw = (append_runnable ru_behavior r, Ok r) /\
  RunnableEntity_symbol r = Some "Run" /\ RunnableEntity_can_enter_leave r = ru_enter ["A"; "C"] /\
  map variable_access_name (RunnableEntity_data_read_access r) = ["R1"; "R2"] /\ stands_at ac_owner ac_place ["Top"; "Swc"].
Proof.
  exists (match snd (create_runnable (Some ac_owner) ru_behavior "Run" ru_kw) with Ok r => r | Err _ => ac_runnable end).
  split; [vm_compute; reflexivity|]. split; [vm_compute; reflexivity|]. split; [vm_compute; reflexivity|]. split; [vm_compute; reflexivity|exact ac_stands].
Qed.
Example C46_unknown_example : create_runnable (Some ac_owner) ru_behavior "Run" [("can_enter_leave", AList [AStr "A"; AStr "D"])] = (ru_behavior, Err ValueError).
Proof. reflexivity. Qed.
Example C46_history_example : let b := build_all (Some ac_owner) (mkSwcInternalBehavior (named "Swc_InternalBehavior") [] [] [] [] [])
    [CreateRunnable "Early" [("can_enter_leave", AStr "A")]; CreateArea "A" []; CreateArea "B" [("bad", ANone)]; CreateRunnable "Late" [("can_enter_leave", AStr "A")]] in
  map area_name (SwcInternalBehavior_exclusive_areas b) = ["A"] /\ map runnable_name (SwcInternalBehavior_runnables b) = ["Late"] /\
  map RunnableEntity_can_enter_leave (SwcInternalBehavior_runnables b) = [ru_enter ["A"]].
Proof. vm_compute. auto. Qed.
Definition ru_component := mkApplicationSoftwareComponentType (named "Swc") [] None None.
Definition ru_option (p : string) (e : option bool) := mkPortApiOption e None None [] (Some (mkRef (path_string ["Top"; "Swc"; p]) IdentifiableSubTypes_P_PORT_PROTOTYPE)) [] None.
Example C47_example : let x := create_internal_behavior ru_component None
    [("data_type_mappings", AStr "/Maps/Map"); ("exclusive_areas", ATuple [AObj (OExclusiveArea (mkExclusiveArea (named "A")))]);
     ("port_api_options", AList [AObj (OPortApiOption (ru_option "P" None)); AObj (OPortApiOption (ru_option "Q" None)); AObj (OPortApiOption (ru_option "P" (Some true)))])] in
  exists b, snd x = Ok b /\ ApplicationSoftwareComponentType_internal_behavior (fst x) = Some b /\ id_name (SwcInternalBehavior_ident b) = "Swc_InternalBehavior" /\
  SwcInternalBehavior_data_type_mappings b = [mkRef "/Maps/Map" IdentifiableSubTypes_DATA_TYPE_MAPPING_SET] /\
  map area_name (SwcInternalBehavior_exclusive_areas b) = ["A"] /\ SwcInternalBehavior_port_api_options b = [("P", ru_option "P" (Some true)); ("Q", ru_option "Q" None)].
Proof.
  intros x. exists (match snd x with Ok b => b | Err _ => ru_behavior end). unfold x. vm_compute. auto 10.
Qed.

(** ** What does not hold *)
(** The areas are not in the order they are named in. *)
Theorem C46_order_refuted : exists w pl self b name r b', stands_at w pl self /\
  create_runnable (Some w) b name [("can_enter_leave", AList [AStr "C"; AStr "A"; AStr "C"])] = (b', Ok r) /\
  RunnableEntity_can_enter_leave r = ru_enter ["A"; "C"].
Proof.
  exists ac_owner, ac_place, ["Top"; "Swc"], ru_behavior, "Run",
    (match snd (create_runnable (Some ac_owner) ru_behavior "Run" [("can_enter_leave", AList [AStr "C"; AStr "A"; AStr "C"])]) with Ok r => r | Err _ => ac_runnable end),
    (fst (create_runnable (Some ac_owner) ru_behavior "Run" [("can_enter_leave", AList [AStr "C"; AStr "A"; AStr "C"])])).
  split; [exact ac_stands|]. split; vm_compute; reflexivity.
Qed.
(** References that are given together with names are dropped, and so is anything else in the list. *)
Theorem C46_mixed_refuted : exists w pl self b name kw r b', stands_at w pl self /\
  kw = [("can_enter_leave", AList [AObj (ORef rc_ExclusiveAreaRef (mkRef "/Other/Behavior/Area" IdentifiableSubTypes_EXCLUSIVE_AREA)); ANum (NInt 7); AStr "B"])] /\
  create_runnable (Some w) b name kw = (b', Ok r) /\ RunnableEntity_can_enter_leave r = ru_enter ["B"].
Proof.
  set (kw := [("can_enter_leave", AList [AObj (ORef rc_ExclusiveAreaRef (mkRef "/Other/Behavior/Area" IdentifiableSubTypes_EXCLUSIVE_AREA)); ANum (NInt 7); AStr "B"])]).
  exists ac_owner, ac_place, ["Top"; "Swc"], ru_behavior, "Run", kw,
    (match snd (create_runnable (Some ac_owner) ru_behavior "Run" kw) with Ok r => r | Err _ => ac_runnable end), (fst (create_runnable (Some ac_owner) ru_behavior "Run" kw)).
  split; [exact ac_stands|]. split; [reflexivity|]. split; vm_compute; reflexivity.
Qed.
(** The names of areas a runnable runs inside are neither checked nor made references: the name itself
    is stored as the path. *)
Theorem C46_inside_refuted : exists w pl self b name r b', stands_at w pl self /\
  create_runnable (Some w) b name [("runs_insides", AList [AStr "A"; AStr "Nowhere"])] = (b', Ok r) /\
  map ExclusiveAreaRefConditional_exclusive_area (RunnableEntity_runs_insides r) =
    [Some (mkRef "A" IdentifiableSubTypes_EXCLUSIVE_AREA); Some (mkRef "Nowhere" IdentifiableSubTypes_EXCLUSIVE_AREA)].
Proof.
  exists ac_owner, ac_place, ["Top"; "Swc"], ru_behavior, "Run",
    (match snd (create_runnable (Some ac_owner) ru_behavior "Run" [("runs_insides", AList [AStr "A"; AStr "Nowhere"])]) with Ok r => r | Err _ => ac_runnable end),
    (fst (create_runnable (Some ac_owner) ru_behavior "Run" [("runs_insides", AList [AStr "A"; AStr "Nowhere"])])).
  split; [exact ac_stands|]. split; vm_compute; reflexivity.
Qed.
(** A nesting order given as text, or a tuple of references, is ignored without an exception. *)
Theorem C46_nesting_refuted : exists w pl self b name r b', stands_at w pl self /\
  create_runnable (Some w) b name [("exclusive_area_nesting_order", AStr "/Top/Swc/Order")] = (b', Ok r) /\ RunnableEntity_exclusive_area_nesting_order r = [].
Proof.
  exists ac_owner, ac_place, ["Top"; "Swc"], ru_behavior, "Run",
    (match snd (create_runnable (Some ac_owner) ru_behavior "Run" [("exclusive_area_nesting_order", AStr "/Top/Swc/Order")]) with Ok r => r | Err _ => ac_runnable end),
    (fst (create_runnable (Some ac_owner) ru_behavior "Run" [("exclusive_area_nesting_order", AStr "/Top/Swc/Order")])).
  split; [exact ac_stands|]. split; vm_compute; reflexivity.
Qed.
(** Two runnables, and two exclusive areas, can have the same name. *)
Theorem C46_same_name_refuted : exists w pl self b l, stands_at w pl self /\ l = [CreateArea "X" []; CreateArea "X" []; CreateRunnable "Run" []; CreateRunnable "Run" []] /\
  map area_name (SwcInternalBehavior_exclusive_areas b) = [] /\ map runnable_name (SwcInternalBehavior_runnables b) = [] /\
  map area_name (SwcInternalBehavior_exclusive_areas (build_all (Some w) b l)) = ["X"; "X"] /\
  map runnable_name (SwcInternalBehavior_runnables (build_all (Some w) b l)) = ["Run"; "Run"].
Proof.
  exists ac_owner, ac_place, ["Top"; "Swc"], (mkSwcInternalBehavior (named "Swc_InternalBehavior") [] [] [] [] []), [CreateArea "X" []; CreateArea "X" []; CreateRunnable "Run" []; CreateRunnable "Run" []].
  split; [exact ac_stands|]. split; [reflexivity|]. vm_compute. auto.
Qed.
(** A behavior that the component has is replaced without an exception. *)
Theorem C47_replaced_refuted : exists c b b' c', ApplicationSoftwareComponentType_internal_behavior c = Some b /\ SwcInternalBehavior_runnables b <> [] /\
  create_internal_behavior c None [] = (c', Ok b') /\ SwcInternalBehavior_runnables b' = [] /\ ApplicationSoftwareComponentType_internal_behavior c' = Some b'.
Proof.
  set (b := append_runnable ru_behavior ac_runnable). exists (set_internal_behavior ru_component b), b.
  exists (mkSwcInternalBehavior (named "Swc_InternalBehavior") [] [] [] [] []), (set_internal_behavior ru_component (mkSwcInternalBehavior (named "Swc_InternalBehavior") [] [] [] [] [])).
  split; [reflexivity|]. split; [discriminate|]. split; [reflexivity|]. split; reflexivity.
Qed.
Print Assumptions C46_runnable.
Print Assumptions C46_failure.
Print Assumptions C46_unknown_area.
Print Assumptions C46_named_areas.
Print Assumptions C46_needs_package.
Print Assumptions C46_distinct_points.
Print Assumptions C46_history.
Print Assumptions C46_references_exist.
Print Assumptions C47_behavior.
Print Assumptions C47_failure.
Print Assumptions C47_exclusive_area.
Print Assumptions C47_exclusive_area_failure.
Print Assumptions C47_one_option_per_port.
Print Assumptions C46_order_refuted.
Print Assumptions C46_mixed_refuted.
Print Assumptions C46_inside_refuted.
Print Assumptions C46_nesting_refuted.
Print Assumptions C46_same_name_refuted.
Print Assumptions C47_replaced_refuted.
