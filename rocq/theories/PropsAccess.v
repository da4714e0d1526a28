(** Access points of a runnable, created from texts that name ports and elements: C34. *)
From Verif Require Import Base PBase MHeap SHeap MNames PNames MWork MNum MXml MEnum MRefTab MRef MCodec MElem0 MElem1 MElemA MElemB MElemC MElem2 MElemD MElem3 MElem4 MElemE MElem5 MElemF MArxml MFind SFind PFind PConn MValue MEvent SEvent PEvent MPort SPort PPort MAccess SAccess PAccess PropsConn.
From Verif Require SLiteral PLiteral.
Open Scope list_scope.

(** A call with one text that succeeds adds the access point that the text grants for the port, its
    interface and the further arguments, in the list for its kind, and changes nothing else; or the
    text is one of those that are accepted but grant nothing. *)
Theorem C34_one_text w pl self s r h text args r' h' u : stands_at w pl self -> pl_settings pl = Some s ->
  create_port_access (Some w) r h [AccessItem text args] = (r', h', Ok u) ->
  (exists a, grants pl self (ow_ports w) s text (dict h args) a /\ gains r a r') \/ (grants_nothing pl (ow_ports w) text /\ r' = r).
Proof.
  intros St Se. unfold create_port_access. rewrite (proj1 St), Se. cbn [create_items]. destruct (create_item w pl s r h (AccessItem text args)) as [[r1 h1] [v|e]] eqn:E; [|discriminate].
  intros X. injection X as <- _ _. apply (item_sound w pl self s St) in E as [(a & G & ->)|E]; [left|now right]. exists a. split; [exact G|now apply gains_iff].
Qed.
(** Several texts, none of which shares its dict with another: each grants its access point, in order. *)
Theorem C34_created w pl self s r h l r' h' u : stands_at w pl self -> pl_settings pl = Some s -> NoDup (dicts l) ->
  create_port_access (Some w) r h l = (r', h', Ok u) -> all_granted pl self (ow_ports w) s h l r r'.
Proof. intros St Se N. unfold create_port_access. rewrite (proj1 St), Se. now apply items_sound. Qed.
(** Where names are unambiguous, every list of such texts is accepted, and gives that runnable. *)
Theorem C34_accepted w pl self s r h l r' : stands_at w pl self -> pl_settings pl = Some s -> distinct w pl -> NoDup (dicts l) ->
  all_granted pl self (ow_ports w) s h l r r' -> exists h', create_port_access (Some w) r h l = (r', h', Ok tt).
Proof. intros St Se D N. unfold create_port_access. rewrite (proj1 St), Se. now apply items_complete. Qed.
(** After an exception the runnable has the access points of the texts before the one that failed. *)
Theorem C34_failure w pl self s r h l r' h' e : stands_at w pl self -> pl_settings pl = Some s -> NoDup (dicts l) ->
  create_port_access (Some w) r h l = (r', h', Err e) ->
  exists l1 x l2, l = l1 ++ x :: l2 /\ all_granted pl self (ow_ports w) s h l1 r r'.
Proof.
  intros St Se N. unfold create_port_access. rewrite (proj1 St), Se. intros E. apply items_fail in E as (l1 & x & l2 & h1 & -> & E). exists l1, x, l2. split; [reflexivity|].
  eapply items_sound; eauto. unfold dicts in N. rewrite flat_map_app in N. apply NoDup_app_l in N. exact N.
Qed.
(** A runnable outside of a component, or a component outside of a document, is left as it is. *)
Theorem C34_needs_surroundings o r h l r' h' x : create_port_access o r h l = (r', h', x) ->
  (forall w pl, o = Some w -> ow_place w = Some pl -> pl_settings pl = None) -> r' = r /\ h' = h /\ exists e, x = Err e.
Proof.
  unfold create_port_access. destruct o as [w|]; [|intros E _; injection E as <- <- <-; eauto]. destruct (ow_place w) as [pl|] eqn:P; [|intros E _; injection E as <- <- <-; eauto].
  intros E H. rewrite (H w pl eq_refl P) in E. injection E as <- <- <-. eauto.
Qed.
(** After any calls with any outcomes, the runnable has gained access points one by one, at most one
    for each text, and nothing else in it has changed. *)
Theorem C34_history o r calls : exists l, gains_all r l (calls_on o r calls) /\ (List.length l <= List.length (List.concat (map snd calls)))%nat /\
  same_rest r (calls_on o r calls) /\ points (calls_on o r calls) = (points r + List.length l)%nat.
Proof. destruct (calls_gains o calls r) as (l & G & L). exists l. split; [exact G|]. split; [exact L|]. now apply gains_all_count. Qed.
(** A dict that is not passed with a text is left alone. *)
Theorem C34_dicts_kept o r h text args r' h' x : create_port_access o r h [AccessItem text args] = (r', h', x) -> forall d, args <> Some d -> h' d = h d.
Proof.
  unfold create_port_access. destruct o as [w|]; [|intros E; now injection E as <- <- <-]. destruct (ow_place w) as [pl|]; [|intros E; now injection E as <- <- <-].
  destruct (pl_settings pl) as [s|]; [|intros E; now injection E as <- <- <-]. cbn [create_items]. destruct (create_item w pl s r h (AccessItem text args)) as [[r1 h1] [v|e]] eqn:I;
  intros E; injection E as <- <- <-; eapply item_frame; exact I.
Qed.
(** Renaming sets the name and nothing else. *)
Theorem C34_rename n :
  (forall a, variable_access_name (rename_variable_access n a) = n /\ rename_variable_access (variable_access_name a) (rename_variable_access n a) = a) /\
  (forall a, mode_switch_point_name (rename_mode_switch_point n a) = n /\ rename_mode_switch_point (mode_switch_point_name a) (rename_mode_switch_point n a) = a) /\
  (forall a, parameter_access_name (rename_parameter_access n a) = n /\ rename_parameter_access (parameter_access_name a) (rename_parameter_access n a) = a) /\
  (forall a, server_call_point_name (rename_server_call_point n a) = n /\ rename_server_call_point (server_call_point_name a) (rename_server_call_point n a) = a).
Proof. splits; intros a; [destruct a as [[] ? ?]|destruct a as [[] ? ?]|destruct a as [[] ? ? ?]|destruct a as [[[] ? ? ?]|[[] ? ? ? ?]]]; split; reflexivity. Qed.

(** ** Concrete cases *)
Definition ac_runnable : RunnableEntity := mkRunnableEntity (named "Run") [] [] [] None None [] None [] [] None [] [] [] [] [] [] [] [] [] [] [] [] None [] [].
Definition ac_ref (n : string) (d : IdentifiableSubTypes) := Some (mkRef (path_string ["I"; n]) d).
Definition ac_group := mkModeDeclarationGroupPrototype (named "mode") None (ac_ref "OnOff" IdentifiableSubTypes_MODE_DECLARATION_GROUP).
Definition ac_data (n : string) := mkVariableDataPrototype (named n) None None None.
Definition ac_operation (n : string) := mkClientServerOperation (named n) [] None None [].
Definition ac_parameter (n : string) := mkParameterDataPrototype (named n) None None None.
Definition ac_wheels := mkSenderReceiverInterface (named "Wheels") None None [ac_data "left"; ac_data "right"] [].
Definition ac_memory := mkNvDataInterface (named "Memory") None None [ac_data "block"].
Definition ac_service := mkClientServerInterface (named "Service") None None [ac_operation "read"; ac_operation "write"] [].
Definition ac_modes := mkModeSwitchInterface (named "Modes") None None (Some ac_group).
Definition ac_tuning := mkParameterInterface (named "Tuning") None None [ac_parameter "gain"].
Definition ac_elements : list ARElement :=
  [AR_SenderReceiverInterface ac_wheels; AR_NvDataInterface ac_memory; AR_ClientServerInterface ac_service; AR_ModeSwitchInterface ac_modes; AR_ParameterInterface ac_tuning].
Definition ac_packages : list package := [mkPackage (named "I") ac_elements []].
Definition ac_r (n i : string) (d : IdentifiableSubTypes) := PortPrototypeElement_R (mkRequirePortPrototype (named n) [] None (ac_ref i d)).
Definition ac_p (n i : string) (d : IdentifiableSubTypes) := PortPrototypeElement_P (mkProvidePortPrototype (named n) [] (ac_ref i d)).
Definition ac_pr (n i : string) (d : IdentifiableSubTypes) := PortPrototypeElement_PR (mkPRPortPrototype (named n) (ac_ref i d) [] []).
Definition ac_ports : list PortPrototypeElement :=
  [ac_r "WheelsIn" "Wheels" IdentifiableSubTypes_SENDER_RECEIVER_INTERFACE; ac_p "WheelsOut" "Wheels" IdentifiableSubTypes_SENDER_RECEIVER_INTERFACE;
   ac_r "Memory" "Memory" IdentifiableSubTypes_NV_DATA_INTERFACE;
   ac_r "Client" "Service" IdentifiableSubTypes_CLIENT_SERVER_INTERFACE; ac_p "Server" "Service" IdentifiableSubTypes_CLIENT_SERVER_INTERFACE;
   ac_r "Modes" "Modes" IdentifiableSubTypes_MODE_SWITCH_INTERFACE; ac_p "Manager" "Modes" IdentifiableSubTypes_MODE_SWITCH_INTERFACE;
   ac_pr "Both" "Modes" IdentifiableSubTypes_MODE_SWITCH_INTERFACE; ac_r "Tuning" "Tuning" IdentifiableSubTypes_PARAMETER_INTERFACE].
Definition ac_settings : settings :=
  [("data_read_access_prefix", "READ"); ("data_receive_point_prefix", "REC"); ("data_write_access_prefix", "WRITE"); ("data_send_point_prefix", "SEND");
   ("mode_access_point_prefix", "MODE"); ("mode_switch_point_prefix", "SWITCH"); ("parameter_access_prefix", "PRM"); ("server_call_point_prefix", "CALL")].
Definition ac_place := mkPlace ac_packages (Some ac_settings) "/Top/Swc" (fun _ => true).
Definition ac_owner := mkOwner ac_ports (Some ac_place).
Lemma ac_stands : stands_at ac_owner ac_place ["Top"; "Swc"].
Proof. repeat split. discriminate. Qed.
Lemma ac_distinct : distinct ac_owner ac_place.
Proof.
  split.
  - apply (scope_okb_ok (map port_name ac_ports)). reflexivity.
  - intros ns e A. apply at_elements in A. cbn in A. destruct A as [<-|[<-|[<-|[<-|[<-|[]]]]]]; cbn; repeat constructor; cbn; intuition discriminate.
Qed.
Lemma ac_at e : In e ac_elements -> at_path ac_packages ["I"; element_name e] (FElement e).
Proof. intros I. apply (at_inside ac_packages (mkPackage (named "I") ac_elements [])); [left; reflexivity|]. now apply in_element. Qed.
(** The first dict has a name and a description, the second a timeout. *)
Definition ac_heap : heap := fun d =>
  match d with
  | 0%nat => [("name", AStr "ReadLeft"); ("desc", AStr "front wheel")]
  | 1%nat => [("timeout", ANum (NInt 2))]
  | _ => []
  end.
Definition ac_run (l : list access_item) := create_port_access (Some ac_owner) ac_runnable ac_heap l.
Definition ac_ok (l : list access_item) : bool := match snd (ac_run l) with Ok _ => true | Err _ => false end.
Definition ac_after (l : list access_item) : RunnableEntity := fst (fst (ac_run l)).
(** Names and counts of each kind. *)
Definition ac_items : list access_item :=
  [AccessItem "read:  WheelsIn/left" (Some 0%nat); AccessItem "WheelsIn/right" None; AccessItem "Value:WheelsIn/right" None; AccessItem "WheelsOut/left" None;
   AccessItem "WRITE:WheelsOut/left" None; AccessItem "Memory" None; AccessItem "Client/read" (Some 1%nat); AccessItem "Async:Client/write" None;
   AccessItem "Modes" None; AccessItem "ACCESS:Modes/mode" None; AccessItem "SWITCH:Manager" None; AccessItem "Tuning/gain" None; AccessItem "WheelsOut/left" None].
Example C34_example : ac_ok ac_items = true /\
  map variable_access_name (RunnableEntity_data_read_access (ac_after ac_items)) = ["ReadLeft"] /\
  map variable_access_name (RunnableEntity_data_receive_point_by_argument (ac_after ac_items)) = ["REC_WheelsIn_right"; "REC_Memory_block"] /\
  map variable_access_name (RunnableEntity_data_receive_point_by_value (ac_after ac_items)) = ["REC_WheelsIn_right"] /\
  map variable_access_name (RunnableEntity_data_write_access (ac_after ac_items)) = ["WRITE_WheelsOut_left"] /\
  map variable_access_name (RunnableEntity_data_send_point (ac_after ac_items)) = ["SEND_WheelsOut_left_0"; "SEND_WheelsOut_left"] /\
  map server_call_point_name (RunnableEntity_server_call_point (ac_after ac_items)) = ["CALL_Client_read"; "CALL_Client_write"] /\
  map mode_switch_point_name (RunnableEntity_mode_switch_point (ac_after ac_items)) = ["SWITCH_Manager_mode"] /\
  map parameter_access_name (RunnableEntity_parameter_access (ac_after ac_items)) = ["PRM_Tuning_gain"] /\
  map (fun a => match ModeAccessPoint_ident a with Some i => Some (id_name (ModeAccessPointIdent_ident i)) | None => None end) (RunnableEntity_mode_access_point (ac_after ac_items)) =
    [None; Some "MODE_Modes_mode"] /\ NoDup (dicts ac_items).
Proof. repeat (split; [vm_compute; reflexivity|]). vm_compute. repeat constructor; cbn; intuition discriminate. Qed.
(** A text with word, spaces and element, and the access point it grants. *)
Definition ac_point : VariableAccess :=
  mkVariableAccess (mkIdent "ReadLeft" None (Some [mkLang Language_FOR_ALL [PText "front wheel"]]) None None None None None)
    (Some (mkAutosarVariableRef None (Some (mkVariableInAtomicSWCTypeInstanceRef (Some (mkRef "/Top/Swc/WheelsIn" IdentifiableSubTypes_R_PORT_PROTOTYPE)) None []
       (Some (mkRef "/I/Wheels/left" IdentifiableSubTypes_VARIABLE_DATA_PROTOTYPE)))) None)) None.
Example C34_example_grants : grants ac_place ["Top"; "Swc"] ac_ports ac_settings "read:  WheelsIn/left" (ac_heap 0%nat) (DataPoint ReadAccess ac_point).
Proof.
  apply (grants_data ac_place ["Top"; "Swc"] ac_ports ac_settings _ (Some "READ") (ac_r "WheelsIn" "Wheels" IdentifiableSubTypes_SENDER_RECEIVER_INTERFACE) (Some "left") ["I"; "Wheels"]
           (AR_SenderReceiverInterface ac_wheels) [ac_data "left"; ac_data "right"] (ac_data "left")).
  - apply (text_prefixed "read" "  " "WheelsIn/left"); try reflexivity; [cbn; unfold SLiteral.white; cbn; tauto|now apply PLiteral.not_white_iff|]. apply (names_both "WheelsIn" "left"); [reflexivity|discriminate].
  - cbn. tauto.
  - cbn. tauto.
  - eexists. split; [reflexivity|]. split; [reflexivity|]. apply (ac_at (AR_SenderReceiverInterface ac_wheels)). cbn. tauto.
  - left. eexists. split; reflexivity.
  - cbn. tauto.
  - cbn. exists "READ". cbn. tauto.
  - exists "ReadLeft". split; [now apply named_given|]. unfold identity. splits; try reflexivity; try exact Logic.I. cbn. constructor.
  - reflexivity.
  - exact Logic.I.
  - intros k [<-|[<-|[]]]; cbn; tauto.
Qed.
Example C34_example_nothing : grants_nothing ac_place ac_ports "Server/read" /\ snd (ac_run [AccessItem "Server/read" None]) = Ok tt /\ ac_after [AccessItem "Server/read" None] = ac_runnable.
Proof.
  split; [|vm_compute; auto]. eapply (no_call ac_place ac_ports "Server/read" None (mkProvidePortPrototype (named "Server") [] (ac_ref "Service" IdentifiableSubTypes_CLIENT_SERVER_INTERFACE)) (Some "read") ["I"; "Service"] ac_service (ac_operation "read")).
  - apply text_plain; [reflexivity|]. apply (names_both "Server" "read"); [reflexivity|discriminate].
  - exact Logic.I.
  - cbn. tauto.
  - eexists. split; [reflexivity|]. split; [reflexivity|]. apply (ac_at (AR_ClientServerInterface ac_service)). cbn. tauto.
  - cbn. tauto.
Qed.
Example C34_example_failures : map (fun l => (snd (ac_run l), points (ac_after l)))
   [[AccessItem "WheelsIn" None]; [AccessItem "WheelsIn/left" None; AccessItem "Nowhere/left" None]; [AccessItem "get:WheelsIn/left" None]; [AccessItem "Tuning/offset" None]; [BadItem TypeError];
    [AccessItem "WheelsIn/left" (Some 1%nat)]] =
   [(Err RuntimeError, O); (Err ValueError, 1%nat); (Err ValueError, O); (Err RuntimeError, O); (Err TypeError, O); (Err TypeError, O)].
Proof. vm_compute. reflexivity. Qed.

(** ** What the full statement would need *)
(** Texts that are accepted although they add nothing: a mode switch point at a require-port, any mode
    access at a PR-port, an operation at a provide-port. *)
Theorem C34_silent_refuted : exists w pl self r h l, stands_at w pl self /\ distinct w pl /\ List.length l = 3%nat /\
  forall text, In text l -> snd (create_port_access (Some w) r h [AccessItem text None]) = Ok tt /\ fst (fst (create_port_access (Some w) r h [AccessItem text None])) = r.
Proof.
  exists ac_owner, ac_place, ["Top"; "Swc"], ac_runnable, ac_heap, ["SWITCH:Modes"; "Both"; "Server/read"]. split; [exact ac_stands|]. split; [exact ac_distinct|]. split; [reflexivity|].
  intros text [<-|[<-|[<-|[]]]]; vm_compute; auto.
Qed.
(** The only parameter of an interface cannot be left out of the text, unlike the only data element. *)
Theorem C34_only_parameter_refuted : exists w pl self r h p i d, stands_at w pl self /\ distinct w pl /\ In p (ow_ports w) /\
  leads_to (pl_packages pl) (port_interface_ref p) ["I"; "Tuning"] (AR_ParameterInterface i) /\ ParameterInterface_parameters i = [d] /\
  snd (create_port_access (Some w) r h [AccessItem (port_name p) None]) = Err AttributeError.
Proof.
  exists ac_owner, ac_place, ["Top"; "Swc"], ac_runnable, ac_heap, (ac_r "Tuning" "Tuning" IdentifiableSubTypes_PARAMETER_INTERFACE), ac_tuning, (ac_parameter "gain").
  split; [exact ac_stands|]. split; [exact ac_distinct|]. split; [cbn; tauto|]. split; [|split; [reflexivity|vm_compute; reflexivity]].
  eexists. split; [reflexivity|]. split; [reflexivity|]. apply (ac_at (AR_ParameterInterface ac_tuning)). cbn. tauto.
Qed.
(** A dict that is used for two texts names only the first access point: the call takes the name out
    of the caller's dict. *)
Theorem C34_shared_dict_refuted : exists w pl self s r h d text1 text2 r' h', stands_at w pl self /\ pl_settings pl = Some s /\ distinct w pl /\
  given "name" (h d) = Some (AStr "ReadLeft") /\
  create_port_access (Some w) r h [AccessItem text1 (Some d); AccessItem text2 (Some d)] = (r', h', Ok tt) /\
  map variable_access_name (RunnableEntity_data_read_access r') = ["ReadLeft"] /\
  map variable_access_name (RunnableEntity_data_receive_point_by_argument r') = ["REC_WheelsIn_right"] /\ given "name" (h' d) = None.
Proof.
  exists ac_owner, ac_place, ["Top"; "Swc"], ac_settings, ac_runnable, ac_heap, 0%nat, "READ:WheelsIn/left", "WheelsIn/right",
    (ac_after [AccessItem "READ:WheelsIn/left" (Some 0%nat); AccessItem "WheelsIn/right" (Some 0%nat)]), (snd (fst (ac_run [AccessItem "READ:WheelsIn/left" (Some 0%nat); AccessItem "WheelsIn/right" (Some 0%nat)]))).
  split; [exact ac_stands|]. split; [reflexivity|]. split; [exact ac_distinct|]. split; [reflexivity|]. split; [|vm_compute; auto].
  unfold ac_after, ac_run. destruct (create_port_access _ _ _ _) as [[a b] c] eqn:E. cbn [fst snd]. f_equal. change c with (snd (a, b, c)). rewrite <- E. vm_compute. reflexivity.
Qed.
(** The words do not select the direction: READ at a provide-port gives write access, SEND at a
    require-port a receive point, and SYNC there as well. *)
Theorem C34_direction_refuted : exists w pl self r h l, stands_at w pl self /\ distinct w pl /\
  snd (create_port_access (Some w) r h l) = Ok tt /\ l = [AccessItem "READ:WheelsOut/left" None; AccessItem "SEND:WheelsIn/left" None; AccessItem "SYNC:WheelsIn/right" None] /\
  let r' := fst (fst (create_port_access (Some w) r h l)) in
  map variable_access_name (RunnableEntity_data_write_access r') = ["WRITE_WheelsOut_left"] /\
  map variable_access_name (RunnableEntity_data_receive_point_by_argument r') = ["REC_WheelsIn_left"; "REC_WheelsIn_right"].
Proof.
  exists ac_owner, ac_place, ["Top"; "Swc"], ac_runnable, ac_heap, [AccessItem "READ:WheelsOut/left" None; AccessItem "SEND:WheelsIn/left" None; AccessItem "SYNC:WheelsIn/right" None].
  split; [exact ac_stands|]. split; [exact ac_distinct|]. vm_compute. auto.
Qed.

Print Assumptions C34_one_text.
Print Assumptions C34_created.
Print Assumptions C34_accepted.
Print Assumptions C34_failure.
Print Assumptions C34_needs_surroundings.
Print Assumptions C34_history.
Print Assumptions C34_dicts_kept.
Print Assumptions C34_rename.
Print Assumptions C34_silent_refuted.
Print Assumptions C34_only_parameter_refuted.
Print Assumptions C34_shared_dict_refuted.
Print Assumptions C34_direction_refuted.
