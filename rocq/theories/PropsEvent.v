(** Creating events and port API options in the internal behavior of a component: C36 and C37. *)
From Coq Require Import Sorted Permutation.
From Verif Require Import Base PBase MHeap SHeap MNames PNames MWork MNum MXml MEnum MRefTab MRef MCodec MElem0 MElem1 MElem2 MElem4 MElemE MElem5 MElemF MArxml MFind MConn SFind PFind PConn MEvent SEvent PEvent PropsConn.
Open Scope list_scope.

(** * C36: events *)
(** A call that succeeds adds exactly the event it returns: the event that the texts ask for, in the
    name asked for or that name with a number, which no other event has; its start reference is
    that of the runnable.  Nothing but the events changes, and of the other events at most one
    changes its name. *)
Theorem C36_created w pl self b c runnable name kw b' e : stands_at w pl self -> create_event (Some w) b c runnable name kw = (b', Ok e) ->
  exists r parts make ident modes base olds,
    In r (SwcInternalBehavior_runnables b) /\ runnable_name r = runnable /\
    asks pl self (ow_ports w) c parts make /\ name_asked pl c runnable parts name base /\ kw = Keywords ident modes /\
    e = make (with_name (event_name e) ident) modes (Some (ref_to_runnable self b r)) /\
    event_start e = Some (ref_to_runnable self b r) /\
    (event_name e = base \/ exists k, event_name e = (base ++ "_" ++ dec k)%string) /\
    same_but_events b b' /\ SwcInternalBehavior_events b' = olds ++ [e] /\ one_renamed base (SwcInternalBehavior_events b) olds /\
    ~ In (event_name e) (map event_name olds).
Proof.
  intros P H. rewrite create_event_plan in H. destruct (plan (Some w) b c runnable name) as [[[base mk] r]|x] eqn:Pl; cbn [prepared] in H; [|discriminate].
  apply add_event_effect in H as (olds & n & R & F & M & E & ->). pose proof (finish_common _ _ _ _ _ _ _ _ _ _ _ Pl E) as [Nn St].
  unfold finish in E. destruct mk as [mk|]; cbn [bind] in E; [|discriminate]. destruct kw as [i m|]; [|discriminate].
  destruct (plan_sound w pl self b c runnable name base mk r P Pl) as (I & Nm & parts & A & B).
  rewrite (runnable_ref_at w pl self) in * by assumption. exists r, parts, mk, i, m, base, olds. rewrite Nn. pose proof (make_unique_shape _ _ _ _ M).
  splits; auto; try apply set_events_same. congruence.
Qed.
(** A call whose texts ask for an event succeeds, when names are not ambiguous.  Without an event
    whose name begins with the name asked for, it gets exactly this name and the others keep
    theirs. *)
Theorem C36_accepted w pl self b c r parts make name base ident modes : stands_at w pl self -> distinct_names w pl b ->
  In r (SwcInternalBehavior_runnables b) -> asks pl self (ow_ports w) c parts make -> name_asked pl c (runnable_name r) parts name base ->
  let outcome := create_event (Some w) b c (runnable_name r) name (Keywords ident modes) in
  (exists b' n, outcome = (b', Ok (make (with_name n ident) modes (Some (ref_to_runnable self b r))))) /\
  ((forall e, In e (SwcInternalBehavior_events b) -> String.prefix base (event_name e) = false) ->
     outcome = (set_events b (SwcInternalBehavior_events b ++ [make (with_name base ident) modes (Some (ref_to_runnable self b r))]),
                Ok (make (with_name base ident) modes (Some (ref_to_runnable self b r))))).
Proof.
  intros P D I A B outcome. pose proof (plan_complete w pl self b c r parts make name base P D I A B) as Pl. unfold outcome. rewrite create_event_plan, Pl. cbn [prepared].
  unfold finish. cbn [bind]. rewrite (runnable_ref_at w pl self) by assumption. split.
  - unfold add_event. destruct (make_unique_event_name b base) as [b1 n]. eauto.
  - intros F. unfold add_event, make_unique_event_name. rewrite make_unique_free.
    + rewrite rename_events_same, set_own_events. reflexivity.
    + intros x X. apply in_map_iff in X as (e & <- & Ie). auto.
Qed.
(** Wherever the behavior is, a call adds at most one event, of a name that no other has; the start
    reference is that of the runnable of the given name. *)
Theorem C36_one_event o b c runnable name kw b' res : create_event o b c runnable name kw = (b', res) ->
  same_but_events b b' /\
  match res with
  | Ok e => exists r base olds, In r (SwcInternalBehavior_runnables b) /\ runnable_name r = runnable /\ event_start e = runnable_ref o b r /\
      one_renamed base (SwcInternalBehavior_events b) olds /\ SwcInternalBehavior_events b' = olds ++ [e] /\ ~ In (event_name e) (map event_name olds)
  | Err _ => SwcInternalBehavior_events b' = SwcInternalBehavior_events b \/ exists base, one_renamed base (SwcInternalBehavior_events b) (SwcInternalBehavior_events b')
  end.
Proof.
  intros H. split; [eauto using create_keeps_rest|]. apply create_effect in H. destruct res as [e|x].
  - destruct H as (r & base & olds & I & Nm & R & F & S & -> & _). exists r, base, olds. splits; auto.
  - destruct H as [->|(base & olds & n & R & -> & _)]; [now left|]. right. exists base. exact R.
Qed.
(** A call that fails changes nothing, unless it is for a mode-switch event or its further keyword
    arguments are rejected.  Missing: these two cases, for which the claim is false
    (C36_failing_calls_refuted); C36_one_event states what they can change. *)
Theorem C36_failure_changes_nothing_partial o b c runnable name ident modes b' x : (forall m a, c <> CallModeSwitch m a) ->
  create_event o b c runnable name (Keywords ident modes) = (b', Err x) -> b' = b.
Proof.
  intros N H. rewrite create_event_plan in H. destruct (plan o b c runnable name) as [[[base mk] r]|y] eqn:Pl; cbn [prepared] in H; [|congruence].
  destruct (plan_ready _ _ _ _ _ _ _ _ Pl N) as [f ->]. unfold finish in H. cbn [bind] in H. unfold add_event in H. destruct (make_unique_event_name b base). discriminate.
Qed.
(** Any sequence of calls: runnables and everything else but the events stay; the number of events
    grows by the number of successful calls; every start reference was there before or is that of a
    runnable of the behavior. *)
Theorem C36_history w pl self b calls : stands_at w pl self -> let b' := fold_left (call_on (Some w)) calls b in
  same_but_events b b' /\
  List.length (SwcInternalBehavior_events b') = (List.length (SwcInternalBehavior_events b) + successes (Some w) b calls)%nat /\
  forall e, In e (SwcInternalBehavior_events b') -> In (event_start e) (map event_start (SwcInternalBehavior_events b)) \/
    exists r, In r (SwcInternalBehavior_runnables b) /\ event_start e = Some (ref_to_runnable self b r).
Proof.
  intros P b'. destruct (history (Some w) calls b) as (A & B & C). splits; auto. intros e I. destruct (C e I) as [X|(r & J & X)]; [auto|]. right. exists r. split; [assumption|].
  rewrite X. now apply runnable_ref_at with (pl := pl).
Qed.
(** Event names stay different, unless some name and that name with _0 were both taken. *)
Theorem C36_names_stay_distinct o b c runnable name kw b' res : NoDup (map event_name (SwcInternalBehavior_events b)) ->
  create_event o b c runnable name kw = (b', res) ->
  NoDup (map event_name (SwcInternalBehavior_events b')) \/
  exists base, In base (map event_name (SwcInternalBehavior_events b)) /\ In (base ++ "_0")%string (map event_name (SwcInternalBehavior_events b)).
Proof. apply create_distinct. Qed.

(** ** Concrete cases *)
Definition ev_runnable (n : string) : RunnableEntity :=
  mkRunnableEntity (named n) [] [] [] None None [] None [] [] None [] [] [] [] [] [] [] [] [] [] [] [] None [] [].
Definition ev_ref (n : string) (d : IdentifiableSubTypes) := Some (mkRef (path_string ["I"; n]) d).
Definition ev_group := mkModeDeclarationGroupPrototype (named "mode") None (ev_ref "OnOff" IdentifiableSubTypes_MODE_DECLARATION_GROUP).
Definition ev_data (n : string) := mkVariableDataPrototype (named n) None None None.
Definition ev_operation (n : string) := mkClientServerOperation (named n) [] None None [].
Definition ev_speed := mkSenderReceiverInterface (named "Speed") None None [ev_data "value"] [].
Definition ev_wheels := mkSenderReceiverInterface (named "Wheels") None None [ev_data "left"; ev_data "right"] [].
Definition ev_service := mkClientServerInterface (named "Service") None None [ev_operation "read"; ev_operation "write"] [].
Definition ev_modes := mkModeSwitchInterface (named "Modes") None None (Some ev_group).
Definition ev_on_off := mkModeDeclarationGroup (named "OnOff") None [mkModeDeclaration (named "On") None; mkModeDeclaration (named "Off") None] None [] None None.
Definition ev_elements : list ARElement :=
  [AR_SenderReceiverInterface ev_speed; AR_SenderReceiverInterface ev_wheels; AR_ClientServerInterface ev_service; AR_ModeSwitchInterface ev_modes; AR_ModeDeclarationGroup ev_on_off].
Definition ev_interfaces : list package := [mkPackage (named "I") ev_elements []].
Definition ev_r (n i : string) (d : IdentifiableSubTypes) := PortPrototypeElement_R (mkRequirePortPrototype (named n) [] None (ev_ref i d)).
Definition ev_p (n i : string) (d : IdentifiableSubTypes) := PortPrototypeElement_P (mkProvidePortPrototype (named n) [] (ev_ref i d)).
Definition ev_ports : list PortPrototypeElement :=
  [ev_r "speed" "Speed" IdentifiableSubTypes_SENDER_RECEIVER_INTERFACE; ev_r "Wheels" "Wheels" IdentifiableSubTypes_SENDER_RECEIVER_INTERFACE;
   ev_p "service" "Service" IdentifiableSubTypes_CLIENT_SERVER_INTERFACE; ev_r "Modes" "Modes" IdentifiableSubTypes_MODE_SWITCH_INTERFACE;
   ev_p "Manager" "Modes" IdentifiableSubTypes_MODE_SWITCH_INTERFACE].
Definition ev_settings : settings := [("init_event_prefix", "IT"); ("data_receive_event_prefix", "DRT"); ("swc_mode_switch_event_prefix", "MST")].
Definition ev_place := mkPlace ev_interfaces (Some ev_settings) "/Top/Swc" (fun _ => true).
Definition ev_owner := mkOwner ev_ports (Some ev_place).
Definition ev_behavior := mkSwcInternalBehavior (named "Behavior") [] [] [] [] [ev_runnable "Init"; ev_runnable "Run"].
Definition no_keywords := Keywords (named "unused") [].
Lemma ev_stands : stands_at ev_owner ev_place ["Top"; "Swc"].
Proof. repeat split. discriminate. Qed.
Lemma ev_distinct : distinct_names ev_owner ev_place ev_behavior.
Proof.
  split; [|split].
  - apply (scope_okb_ok ["Init"; "Run"]). reflexivity.
  - apply (scope_okb_ok ["speed"; "Wheels"; "service"; "Modes"; "Manager"]). reflexivity.
  - intros ns e A. apply at_elements in A. cbn in A. destruct A as [<-|[<-|[<-|[<-|[<-|[]]]]]]; cbn; repeat constructor; cbn; intuition discriminate.
Qed.
Lemma ev_at e : In e ev_elements ->
  at_path ev_interfaces ["I"; element_name e] (FElement e).
Proof. intros I. apply (at_inside ev_interfaces (mkPackage (named "I") ev_elements [])); [left; reflexivity|]. now apply in_element. Qed.
(** The texts of these calls ask for events. *)
Example C36_example_data : asks ev_place ["Top"; "Swc"] ev_ports (CallDataReceived "Wheels/right") ["Wheels"; "right"]
  (fun i m s => RteEvent_DataReceivedEvent (mkDataReceivedEvent i m s (Some (mkRVariableInAtomicSwcInstanceRef
     (Some (mkRef "/Top/Swc/Wheels" IdentifiableSubTypes_R_PORT_PROTOTYPE)) (Some (mkRef "/I/Wheels/right" IdentifiableSubTypes_VARIABLE_DATA_PROTOTYPE)))))).
Proof.
  apply (asks_data ev_place ["Top"; "Swc"] ev_ports _ (ev_r "Wheels" "Wheels" IdentifiableSubTypes_SENDER_RECEIVER_INTERFACE) ["I"; "Wheels"] (ev_data "right")).
  apply (data_is_named ev_place ev_ports _ _ (Some "right") ["I"; "Wheels"] ev_wheels); [|cbn; tauto|exact Logic.I| |cbn; tauto].
  - apply (says_element "Wheels" "right" []); split; (discriminate || reflexivity).
  - eexists. split; [reflexivity|]. split; [reflexivity|]. apply (ev_at (AR_SenderReceiverInterface ev_wheels)). cbn. tauto.
Qed.
Definition ev_mode (m : string) := mkRModeInAtomicSwcInstanceRef (Some (mkRef "/Top/Swc/Modes" IdentifiableSubTypes_R_PORT_PROTOTYPE))
  (Some (mkRef "/I/Modes/mode" IdentifiableSubTypes_MODE_DECLARATION_GROUP_PROTOTYPE)) (Some (mkRef ("/I/OnOff/" ++ m) IdentifiableSubTypes_MODE_DECLARATION)).
Example C36_example_mode : mode_of ev_place ["Top"; "Swc"] ev_ports "Modes/Off" (ev_mode "Off").
Proof.
  apply (mode_of_port ev_place ["Top"; "Swc"] ev_ports (ev_r "Modes" "Modes" IdentifiableSubTypes_MODE_SWITCH_INTERFACE) ["I"; "Modes"] ev_modes ev_group ["I"; "OnOff"] ev_on_off (mkModeDeclaration (named "Off") None));
    try reflexivity; try (cbn; tauto); try exact Logic.I.
  - split; [discriminate|reflexivity].
  - eexists. split; [reflexivity|]. split; [reflexivity|]. apply (ev_at (AR_ModeSwitchInterface ev_modes)). cbn. tauto.
  - eexists. split; [reflexivity|]. split; [reflexivity|]. apply (ev_at (AR_ModeDeclarationGroup ev_on_off)). cbn. tauto.
Qed.
Definition ev_call c r n := create_event (Some ev_owner) ev_behavior c r n no_keywords.
Definition ev_after (l : list a_call) := SwcInternalBehavior_events (fold_left (call_on (Some ev_owner)) l ev_behavior).
Example C36_example_results :
  snd (ev_call CallInit "Init" None) = Ok (RteEvent_InitEvent (mkInitEvent (named "IT_Init") [] (Some (mkRef "/Top/Swc/Behavior/Init" IdentifiableSubTypes_RUNNABLE_ENTITY)))) /\
  option_map event_name (match snd (ev_call (CallDataReceived "Wheels/right") "Run" None) with Ok e => Some e | Err _ => None end) = Some "DRT_Run_Wheels_right" /\
  snd (ev_call (CallDataReceived "Wheels") "Run" None) = Err ValueError /\ snd (ev_call (CallDataReceived "service/read") "Run" None) = Err ValueError /\
  snd (ev_call CallInit "Other" None) = Err KeyError /\ snd (ev_call CallBackground "Run" None) = Err RuntimeError.
Proof. vm_compute. repeat split. Qed.
Example C36_example_history :
  map event_name (ev_after [(CallInit, "Init", None, no_keywords); (CallDataReceived "speed", "Run", Some "Ev", no_keywords); (CallDataReceived "Wheels/left", "Run", Some "Ev", no_keywords);
    (CallModeSwitch (ModeTexts ["Modes/On"; "Modes/Off"]) None, "Run", Some "Ev", no_keywords); (CallInit, "Nowhere", None, no_keywords)]) = ["IT_Init"; "Ev_0"; "Ev_1"; "Ev_2"].
Proof. vm_compute. reflexivity. Qed.

(** ** What does not hold *)
(** A failing call can change the name of an event: the name of a mode-switch event is made unique
    before the mode is looked up, and that of any event before its keyword arguments are checked. *)
Theorem C36_failing_calls_refuted : exists w pl self b,
  stands_at w pl self /\ distinct_names w pl b /\
  (let b' := fst (create_event (Some w) b (CallModeSwitch (ModeText "Modes/Nowhere") None) "Run" (Some "Ev") no_keywords) in
   (exists x, snd (create_event (Some w) b (CallModeSwitch (ModeText "Modes/Nowhere") None) "Run" (Some "Ev") no_keywords) = Err x) /\
   map event_name (SwcInternalBehavior_events b) = ["Ev"] /\ map event_name (SwcInternalBehavior_events b') = ["Ev_0"]) /\
  (let b' := fst (create_event (Some w) b CallInit "Run" (Some "Ev") (BadKeywords TypeError)) in
   snd (create_event (Some w) b CallInit "Run" (Some "Ev") (BadKeywords TypeError)) = Err TypeError /\
   map event_name (SwcInternalBehavior_events b') = ["Ev_0"]).
Proof.
  exists ev_owner, ev_place, ["Top"; "Swc"], (fst (create_event (Some ev_owner) ev_behavior CallInit "Run" (Some "Ev") no_keywords)).
  split; [exact ev_stands|]. split; [exact ev_distinct|]. split; [split; [exists ValueError|]|]; vm_compute; auto.
Qed.
(** A behavior that belongs to no component, or to one outside any package, gets events that start
    nothing: the call succeeds and the reference is missing. *)
Theorem C36_detached_refuted : exists b r e e', In r (SwcInternalBehavior_runnables b) /\
  snd (create_event None b CallInit (runnable_name r) (Some "Ev") no_keywords) = Ok e /\ event_start e = None /\
  snd (create_event (Some (mkOwner [] None)) b CallInit (runnable_name r) (Some "Ev") no_keywords) = Ok e' /\ event_start e' = None.
Proof.
  exists ev_behavior, (ev_runnable "Run"), (RteEvent_InitEvent (mkInitEvent (named "Ev") [] None)), (RteEvent_InitEvent (mkInitEvent (named "Ev") [] None)).
  split; [right; left; reflexivity|]. repeat split.
Qed.
(** When the mode group was given to the constructor of its interface rather than created in it, a
    mode-switch event is created without reference to the group. *)
Theorem C36_mode_group_refuted : exists w pl self b e i, stands_at w pl self /\ distinct_names w pl b /\
  snd (create_event (Some w) b (CallModeSwitch (ModeText "Modes/On") None) "Run" (Some "Ev") no_keywords) = Ok (RteEvent_SwcModeSwitchEvent e) /\
  SwcModeSwitchEvent_mode e = Some (OneMode i) /\ RModeInAtomicSwcInstanceRef_context_mode_declaration_group_prototype i = None.
Proof.
  set (pl := mkPlace ev_interfaces (Some ev_settings) "/Top/Swc" (fun _ => false)).
  set (i := mkRModeInAtomicSwcInstanceRef (Some (mkRef "/Top/Swc/Modes" IdentifiableSubTypes_R_PORT_PROTOTYPE)) None (Some (mkRef "/I/OnOff/On" IdentifiableSubTypes_MODE_DECLARATION))).
  exists (mkOwner ev_ports (Some pl)), pl, ["Top"; "Swc"], ev_behavior,
    (mkSwcModeSwitchEvent (named "Ev") [] (Some (mkRef "/Top/Swc/Behavior/Run" IdentifiableSubTypes_RUNNABLE_ENTITY)) None (Some (OneMode i))), i.
  split; [repeat split; discriminate|]. split; [exact ev_distinct|]. vm_compute. auto.
Qed.
(** Names that are different can become equal. *)
Theorem C36_names_refuted : exists w pl self b b' e, stands_at w pl self /\ NoDup (map event_name (SwcInternalBehavior_events b)) /\
  create_event (Some w) b CallInit "Run" (Some "Ev") no_keywords = (b', Ok e) /\ ~ NoDup (map event_name (SwcInternalBehavior_events b')).
Proof.
  set (b0 := fst (create_event (Some ev_owner) ev_behavior CallInit "Run" (Some "Ev") no_keywords)).
  set (b := fst (create_event (Some ev_owner) b0 CallInit "Run" (Some "Ev_0") no_keywords)).
  exists ev_owner, ev_place, ["Top"; "Swc"], b, (fst (create_event (Some ev_owner) b CallInit "Run" (Some "Ev") no_keywords)),
    (RteEvent_InitEvent (mkInitEvent (named "Ev_1") [] (Some (mkRef "/Top/Swc/Behavior/Run" IdentifiableSubTypes_RUNNABLE_ENTITY)))).
  split; [exact ev_stands|]. split; [vm_compute; repeat constructor; cbn; intuition discriminate|]. split; [vm_compute; reflexivity|].
  intros N. vm_compute in N. inversion N as [|? ? H _]. apply H. left. reflexivity.
Qed.

(** * C37: port API options *)
(** After a call, whatever its outcome, exactly the selected ports have the option with the given
    attributes and the options of all other ports are as before; the new ones follow the old ones in
    case-insensitive order of their names.  The call succeeds exactly if every given name is a
    port. *)
Theorem C37_selected_ports w pl self b s a b' res : stands_at w pl self -> NoDup (map port_name (ow_ports w)) -> Forall valid_name (map port_name (ow_ports w)) ->
  create_port_api_options (Some w) b s a = (b', res) ->
  let old := SwcInternalBehavior_port_api_options b in let new := SwcInternalBehavior_port_api_options b' in
  b' = set_options b new /\
  (forall p, In p (ow_ports w) -> means_port s (port_name p) -> assoc (port_name p) new = Some (option_for self p a)) /\
  (forall k, ~ (In k (map port_name (ow_ports w)) /\ means_port s k) -> assoc k new = assoc k old) /\
  (exists added, map fst new = map fst old ++ added /\ NoDup added /\ StronglySorted before added /\
     forall n, In n added <-> In n (map port_name (ow_ports w)) /\ means_port s n /\ ~ In n (map fst old)) /\
  (all_known w s -> res = Ok tt) /\ (~ all_known w s -> res = Err ValueError).
Proof. apply options_effect. Qed.
(** Each port at most once, after any number of calls. *)
Theorem C37_at_most_once w pl self calls b : stands_at w pl self -> NoDup (map port_name (ow_ports w)) -> Forall valid_name (map port_name (ow_ports w)) ->
  NoDup (map fst (SwcInternalBehavior_port_api_options b)) ->
  NoDup (map fst (SwcInternalBehavior_port_api_options (fold_left (fun b c => fst (create_port_api_options (Some w) b (fst c) (snd c))) calls b))).
Proof. intros P N V. revert b. induction calls as [|[s a] calls IH]; intros b D; cbn [fold_left fst snd]; [assumption|]. apply IH. eauto using options_keys. Qed.
(** Without a component nothing happens and the call raises. *)
Theorem C37_no_component b s a : create_port_api_options None b s a = (b, Err RuntimeError).
Proof. reflexivity. Qed.

Definition some_args := mkApiArgs (Some true) None None [] [] None.
Example C37_example : map fst (SwcInternalBehavior_port_api_options (fst (create_port_api_options (Some ev_owner) ev_behavior (OnePort "*") some_args))) =
    ["Manager"; "Modes"; "service"; "speed"; "Wheels"] /\
  map fst (SwcInternalBehavior_port_api_options (fst (create_port_api_options (Some ev_owner) (fst (create_port_api_options (Some ev_owner) ev_behavior (OnePort "speed") some_args))
    (Ports ["Wheels"; "Manager"; "speed"]) some_args))) = ["speed"; "Manager"; "Wheels"] /\
  NoDup (map port_name (ow_ports ev_owner)) /\ Forall valid_name (map port_name (ow_ports ev_owner)) /\ all_known ev_owner (Ports ["Wheels"; "Manager"]).
Proof.
  split; [vm_compute; reflexivity|]. split; [vm_compute; reflexivity|]. destruct (scope_okb_ok (map port_name ev_ports) eq_refl) as [V N]. split; [exact N|]. split; [exact V|].
  intros n [<-|[<-|[]]]; cbn; tauto.
Qed.
(** A call with an unknown name raises, but the options for the known names are stored. *)
Theorem C37_unknown_names_refuted : exists w pl self b s a b' n, stands_at w pl self /\ NoDup (map port_name (ow_ports w)) /\ Forall valid_name (map port_name (ow_ports w)) /\
  ~ all_known w s /\ create_port_api_options (Some w) b s a = (b', Err ValueError) /\
  assoc n (SwcInternalBehavior_port_api_options b) = None /\ assoc n (SwcInternalBehavior_port_api_options b') <> None.
Proof.
  exists ev_owner, ev_place, ["Top"; "Swc"], ev_behavior, (Ports ["speed"; "Nowhere"]), some_args,
    (fst (create_port_api_options (Some ev_owner) ev_behavior (Ports ["speed"; "Nowhere"]) some_args)), "speed".
  destruct (scope_okb_ok (map port_name ev_ports) eq_refl) as [V N]. split; [exact ev_stands|]. split; [exact N|]. split; [exact V|]. split.
  - intros H. specialize (H "Nowhere" (or_intror (or_introl eq_refl))). cbn in H. intuition discriminate.
  - split; [vm_compute; reflexivity|]. split; [reflexivity|]. vm_compute. discriminate.
Qed.

Print Assumptions C36_created.
Print Assumptions C36_accepted.
Print Assumptions C36_one_event.
Print Assumptions C36_failure_changes_nothing_partial.
Print Assumptions C36_history.
Print Assumptions C36_names_stay_distinct.
Print Assumptions C36_failing_calls_refuted.
Print Assumptions C36_detached_refuted.
Print Assumptions C36_mode_group_refuted.
Print Assumptions C36_names_refuted.
Print Assumptions C37_selected_ports.
Print Assumptions C37_at_most_once.
Print Assumptions C37_no_component.
Print Assumptions C37_unknown_names_refuted.
