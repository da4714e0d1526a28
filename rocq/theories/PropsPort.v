(** C32: the com-specs of a created port cover what the argument names, in all cases the constructors
    accept, and nothing else; ports are appended or nothing changes. *)
From Verif Require Import Base PBase MNum MXml MEnum MRefTab MRef MCodec MElem0 MElem1 MElemA MElemB MElemC MElem2 MElemD MElem3 MElem4 MElemE MArxml MFind MValue MEvent MPort SPort PPort.
Open Scope list_scope.

(** A successful call adds exactly one port, with the name, the interface and the com-specs asked for. *)
Theorem C32_provide_port ports name i c id ports' p : supported c -> create_p_port ports name (Some i) c (PortKeywords id) = (ports', Ok p) ->
  ports' = ports ++ [PortPrototypeElement_P p] /\ exists l, p = mkProvidePortPrototype (with_name name id) l (ref_to_interface i) /\
  wanted (provided_for (ia_path i)) SProvide (parts (ia_interface i)) c l.
Proof. apply p_port_sound. Qed.
Theorem C32_require_port ports name i c allow_unconnected id ports' p : supported c ->
  create_r_port ports name (Some i) c allow_unconnected (PortKeywords id) = (ports', Ok p) ->
  ports' = ports ++ [PortPrototypeElement_R p] /\ exists l allow, p = mkRequirePortPrototype (with_name name id) l allow (ref_to_interface i) /\
  holds means_flag [("", allow_unconnected)] "" allow /\ wanted (required_for (ia_path i)) SRequire (parts (ia_interface i)) c l.
Proof. apply r_port_sound. Qed.
Theorem C32_provide_require_port ports name i pc rc id ports' p : plain pc -> plain rc ->
  create_pr_port ports name (Some i) pc rc (PortKeywords id) = (ports', Ok p) ->
  ports' = ports ++ [PortPrototypeElement_PR p] /\ exists pl rl, p = mkPRPortPrototype (with_name name id) (ref_to_interface i) pl rl /\
  wanted (provided_for (ia_path i)) SProvide (parts (ia_interface i)) pc pl /\ wanted (required_for (ia_path i)) SRequire (parts (ia_interface i)) rc rl.
Proof. intros P R H. now apply pr_port_sound in H. Qed.

(** Every argument that asks for com-specs succeeds, if the interface can be referred to. *)
Theorem C32_provide_port_accepted ports name i c id l : located i -> distinct_keys c ->
  wanted (provided_for (ia_path i)) SProvide (parts (ia_interface i)) c l ->
  let p := mkProvidePortPrototype (with_name name id) l (ref_to_interface i) in
  create_p_port ports name (Some i) c (PortKeywords id) = (ports ++ [PortPrototypeElement_P p], Ok p).
Proof. apply p_port_complete. Qed.
Theorem C32_require_port_accepted ports name i c allow_unconnected id l allow : located i -> distinct_keys c ->
  holds means_flag [("", allow_unconnected)] "" allow -> wanted (required_for (ia_path i)) SRequire (parts (ia_interface i)) c l ->
  let p := mkRequirePortPrototype (with_name name id) l allow (ref_to_interface i) in
  create_r_port ports name (Some i) c allow_unconnected (PortKeywords id) = (ports ++ [PortPrototypeElement_R p], Ok p).
Proof. apply r_port_complete. Qed.
(** Missing: see C32_provided_side_refuted. *)
Theorem C32_provide_require_port_accepted_partial ports name i pc rc id pl rl : located i -> plain pc -> plain rc -> distinct_keys pc -> distinct_keys rc ->
  ~ refused (parts (ia_interface i)) pc rc ->
  wanted (provided_for (ia_path i)) SProvide (parts (ia_interface i)) pc pl -> wanted (required_for (ia_path i)) SRequire (parts (ia_interface i)) rc rl ->
  let p := mkPRPortPrototype (with_name name id) (ref_to_interface i) pl rl in
  create_pr_port ports name (Some i) pc rc (PortKeywords id) = (ports ++ [PortPrototypeElement_PR p], Ok p).
Proof. apply pr_port_complete. Qed.

(** One com-spec per named part, in the order of the interface, each referring to its part. *)
Theorem C32_provided_references path ps d l : NoDup (map part_name ps) -> asked (provided_for path) ps d l ->
  map provided_ref l = map (ref_to_part path) (match ps with [p] => [p] | _ => filter (is_named d) ps end).
Proof. apply asked_refs. apply provided_for_ref. Qed.
Theorem C32_required_references path ps d l : NoDup (map part_name ps) -> asked (required_for path) ps d l ->
  map required_ref l = map (ref_to_part path) (match ps with [p] => [p] | _ => filter (is_named d) ps end).
Proof. apply asked_refs. apply required_for_ref. Qed.

(** Names that the interface does not have are rejected: no port is added. *)
Theorem C32_unknown_name ports name i d id k : (2 <= List.length (parts (ia_interface i)))%nat -> In k (map fst d) -> ~ In k (map part_name (parts (ia_interface i))) ->
  (exists x, create_p_port ports name (Some i) (CDict d) (PortKeywords id) = (ports, Err x)) /\
  (forall allow, exists x, create_r_port ports name (Some i) (CDict d) allow (PortKeywords id) = (ports, Err x)).
Proof.
  intros L K N. split.
  - destruct (create_p_port _ _ _ _ _) as [ports' [p|x]] eqn:E; [|apply add_port_error in E as ->; eauto].
    apply p_port_sound in E; [|exact Logic.I]. destruct E as (_ & l & _ & W). inversion W; subst. apply asked_many_inv in H0 as [H _]; [|exact L]. destruct (N (H k K)).
  - intros allow. destruct (create_r_port _ _ _ _ _) as [ports' [p|x]] eqn:E; [|apply add_port_error in E as ->; eauto].
    apply r_port_sound in E; [|exact Logic.I]. destruct E as (_ & l & al & _ & _ & W). inversion W; subst. apply asked_many_inv in H0 as [H _]; [|exact L]. destruct (N (H k K)).
Qed.
(** A failing call changes nothing, whatever the arguments. *)
Theorem C32_failure_changes_nothing ports name i c rc allow kw x ports' :
  (create_p_port ports name i c kw = (ports', Err x) -> ports' = ports) /\
  (create_r_port ports name i c allow kw = (ports', Err x) -> ports' = ports) /\
  (create_pr_port ports name i c rc kw = (ports', Err x) -> ports' = ports).
Proof. splits; apply add_port_error. Qed.

(** ** What does not hold *)
(** A com-spec object given alone is dropped without a message. *)
Theorem C32_single_object_refuted ports name i s id :
  let p := mkProvidePortPrototype (with_name name id) [] (ref_to_interface i) in
  create_p_port ports name (Some i) (CSpec s) (PortKeywords id) = (ports ++ [PortPrototypeElement_P p], Ok p).
Proof. intros p. cbn. rewrite interface_ref_eq. reflexivity. Qed.
(** A list of pairs is rejected if the interface has one part only. *)
Theorem C32_pairs_refuted ports name i p items id : parts (ia_interface i) = [p] -> pairs_of items <> [] ->
  exists x, create_p_port ports name (Some i) (CList items) (PortKeywords id) = (ports, Err x).
Proof.
  intros P N. destruct (create_p_port _ _ _ _ _) as [ports' [q|x]] eqn:E; [|apply add_port_error in E as ->; eauto].
  exfalso. apply p_port_sound in E; [|exact Logic.I]. destruct E as (_ & l & _ & W). rewrite P in W. inversion W as [| |it l' W'|]; subst. inversion W' as [|? ? ? ? ? ? L]; subst; [contradiction|]. cbn in L. lia.
Qed.
(** Com-specs for the provided side of a PR-port are rejected if the interface has several parts and
    there are none for the required side. *)
Theorem C32_provided_side_refuted ports name i pc rc id : plain pc -> plain rc -> refused (parts (ia_interface i)) pc rc ->
  exists x, create_pr_port ports name (Some i) pc rc (PortKeywords id) = (ports, Err x).
Proof. apply pr_port_refused. Qed.
(** Parts with the names of parameters cannot be given com-specs. *)
Theorem C32_reserved_names_refuted ports name i d id : In "cls" (map fst d) \/ In "port_interface" (map fst d) ->
  create_p_port ports name (Some i) (CDict d) (PortKeywords id) = (ports, Err TypeError).
Proof.
  intros H. unfold create_p_port, com_specs, make_provided.
  assert (E : no_clash ["cls"; "port_interface"] d = Err TypeError).
  { unfold no_clash. assert (X : existsb (fun k => existsb (String.eqb k) ["cls"; "port_interface"]) (map fst d) = true); [|now rewrite X].
    apply existsb_exists. destruct H as [H|H]; eexists; (split; [exact H|reflexivity]). }
  now rewrite E.
Qed.

(** ** Examples *)
Definition ex_props (q : SwImplPolicy) : SwDataDefProps :=
  mkSwDataDefProps [mkSwDataDefPropsConditional None None [] None None None None None None None None None None (Some q) None None None None None None].
Definition ex_data (n : string) (q : option SwImplPolicy) : VariableDataPrototype := mkVariableDataPrototype (named n) (option_map ex_props q) None None.
Definition ex_many : interface_arg :=
  mkInterfaceArg (IfSenderReceiver (mkSenderReceiverInterface (named "I") None None [ex_data "Speed" None; ex_data "Event" (Some SwImplPolicy_QUEUED); ex_data "Spare" None] [])) (Some "/Interfaces/I").
Definition ex_one : interface_arg := mkInterfaceArg (IfSenderReceiver (mkSenderReceiverInterface (named "I") None None [ex_data "Speed" None] [])) (Some "/Interfaces/I").
Definition ex_server : interface_arg :=
  mkInterfaceArg (IfClientServer (mkClientServerInterface (named "I") None None
     [mkClientServerOperation (named "Read") [] None None [] ; mkClientServerOperation (named "Write") [] None None []] [])) (Some "/Interfaces/I").
Definition ex_mode : interface_arg :=
  mkInterfaceArg (IfModeSwitch (mkModeSwitchInterface (named "I") None None (Some (mkModeDeclarationGroupPrototype (named "mode") None None))) true) (Some "/Interfaces/I").
Definition ex_data_ref (n : string) := Some (mkRef ("/Interfaces/I/" ++ n)%string IdentifiableSubTypes_VARIABLE_DATA_PROTOTYPE).
Definition ex_operation_ref (n : string) := Some (mkRef ("/Interfaces/I/" ++ n)%string IdentifiableSubTypes_CLIENT_SERVER_OPERATION).
Definition ex_dict : keyword_args := [("Event", ADict [("uses_end_to_end_protection", ABool true)]); ("Speed", ADict [("init_value", ANum (NInt 7))])].
Definition refs_p (r : list PortPrototypeElement * result ProvidePortPrototype) := match snd r with Ok p => Some (map provided_ref (ProvidePortPrototype_com_spec p)) | Err _ => None end.
Definition refs_r (r : list PortPrototypeElement * result RequirePortPrototype) := match snd r with Ok p => Some (map required_ref (RequirePortPrototype_com_spec p)) | Err _ => None end.
Definition refs_pr (r : list PortPrototypeElement * result PRPortPrototype) :=
  match snd r with Ok p => Some (map provided_ref (PRPortPrototype_provided_com_spec p), map required_ref (PRPortPrototype_required_com_spec p)) | Err _ => None end.
Definition ex_kw := PortKeywords (named "").

Example C32_example_many :
  refs_p (create_p_port [] "P" (Some ex_many) (CDict ex_dict) ex_kw) = Some [ex_data_ref "Speed"; ex_data_ref "Event"] /\
  refs_r (create_r_port [] "R" (Some ex_many) (CDict [("Spare", ADict [("alive_timeout", ANum (NInt 2))]); ("Event", ADict [("queue_length", ANum (NInt 5))])]) ANone ex_kw)
    = Some [ex_data_ref "Event"; ex_data_ref "Spare"] /\
  refs_p (create_p_port [] "P" (Some ex_server) (CDict [("Write", ADict []); ("Read", ADict [("queue_length", ANum (NInt 1))])]) ex_kw) = Some [ex_operation_ref "Read"; ex_operation_ref "Write"] /\
  refs_p (create_p_port [] "P" (Some ex_many) (CList [ItemTuple [AStr "Event"; ADict []]; ItemTuple [AStr "Speed"; ADict []]]) ex_kw) = Some [ex_data_ref "Speed"; ex_data_ref "Event"] /\
  refs_p (create_p_port [] "P" (Some ex_one) (CDict [("init_value", ANum (NInt 7))]) ex_kw) = Some [ex_data_ref "Speed"] /\
  refs_p (create_p_port [] "P" (Some ex_mode) (CDict [("queue_length", ANum (NInt 7))]) ex_kw)
    = Some [Some (mkRef "/Interfaces/I/mode" IdentifiableSubTypes_MODE_DECLARATION_GROUP_PROTOTYPE)] /\
  refs_pr (create_pr_port [] "PR" (Some ex_many) (CDict ex_dict) (CDict [("Spare", ADict [])]) ex_kw) = Some ([ex_data_ref "Speed"; ex_data_ref "Event"], [ex_data_ref "Spare"]) /\
  NoDup (map part_name (parts (ia_interface ex_many))) /\ located ex_many /\ distinct_keys (CDict ex_dict).
Proof.
  splits; try (vm_compute; reflexivity); try discriminate; try exact Logic.I;
  repeat (constructor; [cbn; intuition discriminate|]); constructor.
Qed.
(** The hypotheses of the acceptance theorem are met by a dict for two of three data elements. *)
Example C32_example_wanted : exists l, List.length l = 2%nat /\ wanted (provided_for (ia_path ex_many)) SProvide (parts (ia_interface ex_many)) (CDict ex_dict) l.
Proof.
  destruct (create_p_port [] "P" (Some ex_many) (CDict ex_dict) ex_kw) as [ports [p|x]] eqn:E; [|vm_compute in E; discriminate].
  pose proof E as E'. apply p_port_sound in E; [|exact Logic.I]. destruct E as (_ & l & -> & W). exists l. split; [|exact W].
  vm_compute in E'. injection E' as _ <- . reflexivity.
Qed.
Example C32_example_rejected :
  create_p_port [] "P" (Some ex_many) (CDict [("Nothing", ADict [])]) ex_kw = ([], Err ValueError) /\
  create_r_port [] "P" (Some ex_many) (CDict [("Nothing", ADict [])]) ANone ex_kw = ([], Err TypeError) /\
  create_p_port [] "P" (Some ex_one) (CList [ItemTuple [AStr "Speed"; ADict []]]) ex_kw = ([], Err TypeError) /\
  create_pr_port [] "P" (Some ex_many) (CDict ex_dict) CNone ex_kw = ([], Err TypeError) /\ refused (parts (ia_interface ex_many)) (CDict ex_dict) CNone.
Proof. splits; try (vm_compute; reflexivity). unfold refused. cbn. splits; [lia|eauto|reflexivity]. Qed.

Print Assumptions C32_provide_port.
Print Assumptions C32_require_port.
Print Assumptions C32_provide_require_port.
Print Assumptions C32_provide_port_accepted.
Print Assumptions C32_require_port_accepted.
Print Assumptions C32_provide_require_port_accepted_partial.
Print Assumptions C32_provided_references.
Print Assumptions C32_required_references.
Print Assumptions C32_unknown_name.
Print Assumptions C32_failure_changes_nothing.
Print Assumptions C32_single_object_refuted.
Print Assumptions C32_pairs_refuted.
Print Assumptions C32_provided_side_refuted.
Print Assumptions C32_reserved_names_refuted.
