(** Reading raises exceptions of a few kinds only. *)
From Verif Require Import Base PBase MNum MXml MEnum MRefTab MRef MCodec MElem0 MElem1 MElemA MElemB MElemC MElem2 MElemD MElem3 MElem4 MElemE MElem5 MElemF MNs MArxml PElemB PElemD PArxml PNs MReport MLook MDispatch SRaise.
Open Scope list_scope.
Open Scope string_scope.
Create HintDb kinds.

Lemma e_ok {A} (a : A) : expected (Ok a).
Proof. intros e E. discriminate. Qed.
Lemma e_err {A} e : In e reading_kinds -> expected (A := A) (Err e).
Proof. intros I x [= <-]. exact I. Qed.
Lemma e_bind {A B} (r : result A) (f : A -> result B) : expected r -> (forall a, expected (f a)) -> expected (bind r f).
Proof. intros R F. destruct r as [a|e]; cbn; [apply F|]. intros x [= <-]. now apply R. Qed.
Lemma e_mapM {A B} (f : A -> result B) l : (forall a, expected (f a)) -> expected (mapM f l).
Proof. intros F. induction l as [|a l IH]; cbn [mapM]; [apply e_ok|]. apply e_bind; [apply F|]. intros b. apply e_bind; [exact IH|]. intros. apply e_ok. Qed.
Ltac head t := match t with ?f _ => head f | _ => t end.
Ltac kinds_step := cbv beta zeta; match goal with
  | |- forall _, _ => intro
  | |- expected (Ok _) => apply e_ok
  | |- expected (Err _) => apply e_err; cbn; tauto
  | |- expected (bind _ _) => apply e_bind; [|intro]
  | |- expected (mapM _ _) => apply e_mapM; intro
  | |- expected (match ?x with _ => _ end) => destruct x
  | |- _ => solve [eauto with kinds nocore]
  | |- expected ?t => let h := head t in unfold h
  end.
Ltac kinds := repeat kinds_step.
Lemma e_child {A} tag k (f : xml -> result A) : (forall x, expected (f x)) -> expected (child tag k f).
Proof. intros F. unfold child. kinds. Qed.
Lemma e_children {A} c tag k (f : xml -> result A) : (forall x, expected (f x)) -> expected (children c tag k f).
Proof. intros F. unfold children. kinds. Qed.
Lemma e_children_any {A} c k (f : xml -> result A) : (forall x, expected (f x)) -> expected (children_any c k f).
Proof. intros F. unfold children_any. kinds. Qed.
Lemma e_child_inner {A} tag k (f : xml -> result A) : (forall x, expected (f x)) -> expected (child_inner tag k f).
Proof. intros F. unfold child_inner. kinds. Qed.
Lemma e_child_inner_try {A} tag k (f : xml -> result A) : (forall x, expected (f x)) -> expected (child_inner_try tag k f).
Proof. intros F. unfold child_inner_try. pose proof (e_child_inner tag k f F) as H. destruct (child_inner tag k f) as [a|e]; [apply e_ok|]. destruct e; (apply e_ok || exact H). Qed.
Lemma e_child_find {A} c tag k (f : xml -> result A) : (forall x, expected (f x)) -> expected (child_find c tag k f).
Proof. intros F. unfold child_find. destruct (get c k); [now apply e_child|apply e_ok]. Qed.
Lemma e_select {A} (sel : string -> option (xml -> result A)) k : (forall t f, sel t = Some f -> forall x, expected (f x)) -> expected (select sel k).
Proof. intros F. induction k as [|x k IH]; cbn [select]; [apply e_ok|]. destruct (sel (x_tag x)) as [f|] eqn:E; [|exact IH]. apply e_bind; [eapply F; eauto|]. intro. apply e_bind; [exact IH|]. intro. apply e_ok. Qed.
Lemma e_children_sel {A} c k (sel : string -> option (xml -> result A)) : (forall t f, sel t = Some f -> forall x, expected (f x)) -> expected (children_sel c k sel).
Proof. intros F. unfold children_sel. destruct (get c k); [now apply e_select|apply e_ok]. Qed.
Lemma e_unexpected tags k : expected (unexpected tags k).
Proof. induction tags; cbn [unexpected]; kinds. Qed.
#[global] Hint Resolve e_ok e_child e_children e_children_any e_child_inner e_child_inner_try e_child_find e_unexpected : kinds.
Lemma e_read_mixed f x : (forall y, expected (f y)) -> expected (read_mixed f x).
Proof. intros F. unfold read_mixed. kinds. Qed.
#[global] Hint Resolve e_read_mixed : kinds.
Lemma e_recursive {A} (step : (xml -> result A) -> xml -> result A) x : local step -> (forall self y, (forall z, expected (self z)) -> expected (step self y)) -> expected (recursive step x).
Proof.
  intros L H. remember (height x) as n eqn:N. revert x N. induction n as [n IH] using lt_wf_ind. intros x ->. rewrite (recursive_eq step L).
  rewrite (L (recursive step) (fun y => if (height y <? height x)%nat then recursive step y else Err KeyError)).
  - apply H. intros z. destruct (height z <? height x)%nat eqn:E; [|apply e_err; cbn; tauto]. apply Nat.ltb_lt in E. now apply (IH _ E).
  - intros y E. apply Nat.ltb_lt in E. now rewrite E.
Qed.
(** Every text of an enumeration is accepted in the default schema version. *)
Definition current {A} (m : enum_map A) : bool :=
  match em_from m with None => true | Some l => forallb (fun p => match snd p with Plain _ => true | Versioned _ vs => existsb (N.eqb 51) vs end) l end.
Lemma e_xml_to_enum {A} (m : enum_map A) s : current m = true -> expected (xml_to_enum m s 51).
Proof.
  unfold current, xml_to_enum. destruct (em_from m) as [l|]; [|kinds]. intros C. destruct (assoc s l) as [e|] eqn:E; [|kinds].
  assert (I : In (s, e) l) by (clear C; induction l as [|[t f] l IH]; cbn in E; [discriminate|]; destruct (String.eqb s t) eqn:T; [apply String.eqb_eq in T; injection E as <-; subst; now left|right; auto]).
  rewrite forallb_forall in C. specialize (C _ I). cbn in C. destruct e; cbn; [apply e_ok|]. rewrite C. apply e_ok.
Qed.
Lemma e_rd_enum {A} (m : enum_map A) x : current m = true -> expected (rd_enum m x).
Proof. apply e_xml_to_enum. Qed.
Lemma e_get_enum {A} n (m : enum_map A) a : current m = true -> expected (get_enum n m a).
Proof. intros C. unfold get_enum. destruct (assoc n a); [|kinds]. apply e_bind; [now apply e_xml_to_enum|kinds]. Qed.
#[global] Hint Extern 1 (current _ = true) => reflexivity : kinds.
#[global] Hint Resolve e_xml_to_enum e_rd_enum e_get_enum : kinds.
(** The destinations of references are the same in every version. *)
Lemma e_destination s v : expected (xml_to_enum em_IdentifiableSubTypes s v).
Proof.
  replace (xml_to_enum em_IdentifiableSubTypes s v) with (xml_to_enum em_IdentifiableSubTypes s 51); [apply e_xml_to_enum; reflexivity|].
  unfold xml_to_enum. destruct (em_from em_IdentifiableSubTypes) as [l|] eqn:L; [|reflexivity]. destruct (assoc s l) as [e|] eqn:E; [|reflexivity].
  assert (I : In (s, e) l) by (clear L; induction l as [|[t f] l IH]; cbn in E; [discriminate|]; destruct (String.eqb s t) eqn:T; [apply String.eqb_eq in T; injection E as <-; subst; now left|right; auto]).
  assert (P : forallb (fun p => match snd p with Plain _ => true | Versioned _ _ => false end) (match em_from em_IdentifiableSubTypes with Some l => l | None => [] end) = true) by reflexivity.
  rewrite L, forallb_forall in P. specialize (P _ I). now destruct e.
Qed.
#[global] Hint Resolve e_destination : kinds.
Lemma e_read_ref c v x : expected (read_ref c v x).
Proof. unfold read_ref. kinds. Qed.
#[global] Hint Resolve e_read_ref : kinds.
Ltac choices := apply e_children_sel;
  match goal with |- forall t f, ?sel t = Some f -> _ => let E := fresh "E" in let y := fresh "y" in intros ? ? E y; let h := head sel in unfold h in E;
    repeat match type of E with context [if ?b then _ else _] => destruct b end; try discriminate E; injection E as <- end.
Ltac kinds ::= repeat first [match goal with |- expected (children_sel _ _ _) => choices end | kinds_step].
Lemma e_rd_number (x : xml) : expected (rd_number x).
Proof. unfold rd_number. kinds. Qed.
#[global] Hint Resolve e_rd_number : kinds.
Lemma e_rd_integer (x : xml) : expected (rd_integer x).
Proof. unfold rd_integer. kinds. Qed.
#[global] Hint Resolve e_rd_integer : kinds.
Lemma e_rd_int (x : xml) : expected (rd_int x).
Proof. unfold rd_int. kinds. Qed.
#[global] Hint Resolve e_rd_int : kinds.
Lemma e_rd_float (x : xml) : expected (rd_float x).
Proof. unfold rd_float. kinds. Qed.
#[global] Hint Resolve e_rd_float : kinds.
Lemma e_rd_boolean (x : xml) : expected (rd_boolean x).
Proof. unfold rd_boolean. kinds. Qed.
#[global] Hint Resolve e_rd_boolean : kinds.
Lemma e_rd_positive (x : xml) : expected (rd_positive x).
Proof. unfold rd_positive. kinds. Qed.
#[global] Hint Resolve e_rd_positive : kinds.
Lemma e_rd_str (x : xml) : expected (rd_str x).
Proof. unfold rd_str. kinds. Qed.
#[global] Hint Resolve e_rd_str : kinds.
Lemma e_read_emphasis (x : xml) : expected (read_emphasis x).
Proof. unfold read_emphasis. kinds. Qed.
#[global] Hint Resolve e_read_emphasis : kinds.
Lemma e_read_term (x : xml) : expected (read_term x).
Proof. unfold read_term. kinds. Qed.
#[global] Hint Resolve e_read_term : kinds.
Lemma e_new_lang (line : string) (l : Language) (parts : list part) : expected (new_lang line l parts).
Proof. unfold new_lang. kinds. Qed.
#[global] Hint Resolve e_new_lang : kinds.
Lemma e_read_first (line : string) (x : xml) : expected (read_first line x).
Proof. unfold read_first. kinds. Qed.
#[global] Hint Resolve e_read_first : kinds.
Lemma e_read_inline (line : string) (x : xml) : expected (read_inline line x).
Proof. unfold read_inline. kinds. Qed.
#[global] Hint Resolve e_read_inline : kinds.
Lemma e_read_lang (line : string) (x : xml) : expected (read_lang line x).
Proof. unfold read_lang. kinds. Qed.
#[global] Hint Resolve e_read_lang : kinds.
Lemma e_read_langs (line : string) (x : xml) : expected (read_langs line x).
Proof. unfold read_langs. kinds. Qed.
#[global] Hint Resolve e_read_langs : kinds.
Lemma e_new_unit_names (parts : list part) : expected (new_unit_names parts).
Proof. unfold new_unit_names. kinds. Qed.
#[global] Hint Resolve e_new_unit_names : kinds.
Lemma e_new_unit_names_str (s : string) : expected (new_unit_names_str s).
Proof. unfold new_unit_names_str. kinds. Qed.
#[global] Hint Resolve e_new_unit_names_str : kinds.
Lemma e_read_unit_inline (x : xml) : expected (read_unit_inline x).
Proof. unfold read_unit_inline. kinds. Qed.
#[global] Hint Resolve e_read_unit_inline : kinds.
Lemma e_read_unit_names (x : xml) : expected (read_unit_names x).
Proof. unfold read_unit_names. kinds. Qed.
#[global] Hint Resolve e_read_unit_names : kinds.
Lemma e_read_pag (a : attrs) : expected (read_pag a).
Proof. unfold read_pag. kinds. Qed.
#[global] Hint Resolve e_read_pag : kinds.
Lemma e_read_paragraph (x : xml) : expected (read_paragraph x).
Proof. unfold read_paragraph. kinds. Qed.
#[global] Hint Resolve e_read_paragraph : kinds.
Lemma e_read_verbatim (x : xml) : expected (read_verbatim x).
Proof. unfold read_verbatim. kinds. Qed.
#[global] Hint Resolve e_read_verbatim : kinds.
Lemma e_read_doc_items k : expected (read_doc_items k).
Proof. induction k as [|x k IH]; cbn [read_doc_items]; kinds. Qed.
#[global] Hint Resolve e_read_doc_items : kinds.

Lemma e_read_doc (x : xml) : expected (read_doc x).
Proof. unfold read_doc. kinds. Qed.
#[global] Hint Resolve e_read_doc : kinds.
Lemma e_read_annotation (x : xml) : expected (read_annotation x).
Proof. unfold read_annotation. kinds. Qed.
#[global] Hint Resolve e_read_annotation : kinds.
Lemma e_read_annotations (x : xml) : expected (read_annotations x).
Proof. unfold read_annotations. kinds. Qed.
#[global] Hint Resolve e_read_annotations : kinds.
Lemma e_read_sdg (x : xml) : expected (read_sdg x).
Proof. unfold read_sdg. kinds. Qed.
#[global] Hint Resolve e_read_sdg : kinds.
Lemma e_read_admin_data (x : xml) : expected (read_admin_data x).
Proof. unfold read_admin_data. kinds. Qed.
#[global] Hint Resolve e_read_admin_data : kinds.
Lemma e_read_referrable (kids : list xml) : expected (read_referrable kids).
Proof. unfold read_referrable. kinds. Qed.
#[global] Hint Resolve e_read_referrable : kinds.
Lemma e_read_multilanguage_referrable (kids : list xml) : expected (read_multilanguage_referrable kids).
Proof. unfold read_multilanguage_referrable. kinds. Qed.
#[global] Hint Resolve e_read_multilanguage_referrable : kinds.
Lemma e_read_identifiable (a : attrs) (kids : list xml) (name : string) (long_name : option (list lang_text)) : expected (read_identifiable a kids name long_name).
Proof. unfold read_identifiable. kinds. Qed.
#[global] Hint Resolve e_read_identifiable : kinds.
Lemma e_read_ident (a : attrs) (kids : list xml) : expected (read_ident a kids).
Proof. unfold read_ident. kinds. Qed.
#[global] Hint Resolve e_read_ident : kinds.
Lemma e_new_identifiable (d : identifiable) : expected (new_identifiable d).
Proof. unfold new_identifiable. kinds. Qed.
#[global] Hint Resolve e_new_identifiable : kinds.
Lemma e_new_referrable (d : string * option (list lang_text)) : expected (new_referrable d).
Proof. unfold new_referrable. kinds. Qed.
#[global] Hint Resolve e_new_referrable : kinds.
Lemma e_read_unit_group (v : N) (k : list xml) : expected (read_unit_group v k).
Proof. unfold read_unit_group. kinds. Qed.
#[global] Hint Resolve e_read_unit_group : kinds.
Lemma e_read_unit (v : N) (x : xml) : expected (read_unit v x).
Proof. unfold read_unit. kinds. Qed.
#[global] Hint Resolve e_read_unit : kinds.
Lemma e_read_data_filter (v : N) (x : xml) : expected (read_data_filter v x).
Proof. unfold read_data_filter. kinds. Qed.
#[global] Hint Resolve e_read_data_filter : kinds.
Lemma e_read_engineering_object (v : N) (k : list xml) : expected (read_engineering_object v k).
Proof. unfold read_engineering_object. kinds. Qed.
#[global] Hint Resolve e_read_engineering_object : kinds.
Lemma e_read_autosar_engineering_object (v : N) (x : xml) : expected (read_autosar_engineering_object v x).
Proof. unfold read_autosar_engineering_object. kinds. Qed.
#[global] Hint Resolve e_read_autosar_engineering_object : kinds.
Lemma e_read_code (v : N) (x : xml) : expected (read_code v x).
Proof. unfold read_code. kinds. Qed.
#[global] Hint Resolve e_read_code : kinds.
Lemma e_read_base_type (v : N) (k : list xml) : expected (read_base_type v k).
Proof. unfold read_base_type. kinds. Qed.
#[global] Hint Resolve e_read_base_type : kinds.
Lemma e_read_sw_base_type (v : N) (x : xml) : expected (read_sw_base_type v x).
Proof. unfold read_sw_base_type. kinds. Qed.
#[global] Hint Resolve e_read_sw_base_type : kinds.
Lemma e_read_sw_bit_representation (v : N) (x : xml) : expected (read_sw_bit_representation v x).
Proof. unfold read_sw_bit_representation. kinds. Qed.
#[global] Hint Resolve e_read_sw_bit_representation : kinds.
Lemma e_read_sw_text_props (v : N) (x : xml) : expected (read_sw_text_props v x).
Proof. unfold read_sw_text_props. kinds. Qed.
#[global] Hint Resolve e_read_sw_text_props : kinds.
Lemma e_read_implementation_props (v : N) (k : list xml) : expected (read_implementation_props v k).
Proof. unfold read_implementation_props. kinds. Qed.
#[global] Hint Resolve e_read_implementation_props : kinds.
Lemma e_read_symbol_props (v : N) (x : xml) : expected (read_symbol_props v x).
Proof. unfold read_symbol_props. kinds. Qed.
#[global] Hint Resolve e_read_symbol_props : kinds.
Lemma e_read_data_type_map (v : N) (x : xml) : expected (read_data_type_map v x).
Proof. unfold read_data_type_map. kinds. Qed.
#[global] Hint Resolve e_read_data_type_map : kinds.
Lemma e_read_read_data_type_mapping_set_group (v : N) (k : list xml) : expected (read_read_data_type_mapping_set_group v k).
Proof. unfold read_read_data_type_mapping_set_group. kinds. Qed.
#[global] Hint Resolve e_read_read_data_type_mapping_set_group : kinds.
Lemma e_read_data_type_mapping_set (v : N) (x : xml) : expected (read_data_type_mapping_set v x).
Proof. unfold read_data_type_mapping_set. kinds. Qed.
#[global] Hint Resolve e_read_data_type_mapping_set : kinds.
Lemma e_read_mode_request_type_map (v : N) (x : xml) : expected (read_mode_request_type_map v x).
Proof. unfold read_mode_request_type_map. kinds. Qed.
#[global] Hint Resolve e_read_mode_request_type_map : kinds.
Lemma e_read_port_interface (v : N) (k : list xml) : expected (read_port_interface v k).
Proof. unfold read_port_interface. kinds. Qed.
#[global] Hint Resolve e_read_port_interface : kinds.
Lemma e_read_mode_declaration (v : N) (x : xml) : expected (read_mode_declaration v x).
Proof. unfold read_mode_declaration. kinds. Qed.
#[global] Hint Resolve e_read_mode_declaration : kinds.
Lemma e_read_mode_error_behavior (v : N) (x : xml) : expected (read_mode_error_behavior v x).
Proof. unfold read_mode_error_behavior. kinds. Qed.
#[global] Hint Resolve e_read_mode_error_behavior : kinds.
Lemma e_read_mode_transition_group (v : N) (k : list xml) : expected (read_mode_transition_group v k).
Proof. unfold read_mode_transition_group. kinds. Qed.
#[global] Hint Resolve e_read_mode_transition_group : kinds.
Lemma e_read_mode_transition (v : N) (x : xml) : expected (read_mode_transition v x).
Proof. unfold read_mode_transition. kinds. Qed.
#[global] Hint Resolve e_read_mode_transition : kinds.
Lemma e_read_mode_declaration_group_prototype_data (v : N) (k : list xml) : expected (read_mode_declaration_group_prototype_data v k).
Proof. unfold read_mode_declaration_group_prototype_data. kinds. Qed.
#[global] Hint Resolve e_read_mode_declaration_group_prototype_data : kinds.
Lemma e_read_mode_declaration_group_prototype (v : N) (x : xml) : expected (read_mode_declaration_group_prototype v x).
Proof. unfold read_mode_declaration_group_prototype. kinds. Qed.
#[global] Hint Resolve e_read_mode_declaration_group_prototype : kinds.
Lemma e_read_invalidation_policy (v : N) (x : xml) : expected (read_invalidation_policy v x).
Proof. unfold read_invalidation_policy. kinds. Qed.
#[global] Hint Resolve e_read_invalidation_policy : kinds.
Lemma e_read_application_error_group (v : N) (k : list xml) : expected (read_application_error_group v k).
Proof. unfold read_application_error_group. kinds. Qed.
#[global] Hint Resolve e_read_application_error_group : kinds.
Lemma e_read_application_error (v : N) (x : xml) : expected (read_application_error v x).
Proof. unfold read_application_error. kinds. Qed.
#[global] Hint Resolve e_read_application_error : kinds.
Lemma e_read_mode_switch_interface (v : N) (x : xml) : expected (read_mode_switch_interface v x).
Proof. unfold read_mode_switch_interface. kinds. Qed.
#[global] Hint Resolve e_read_mode_switch_interface : kinds.
Lemma e_read_describable (v : N) (k : list xml) : expected (read_describable v k).
Proof. unfold read_describable. kinds. Qed.
#[global] Hint Resolve e_read_describable : kinds.
Lemma e_read_e2e_transformation_com_spec_props_group (v : N) (k : list xml) : expected (read_e2e_transformation_com_spec_props_group v k).
Proof. unfold read_e2e_transformation_com_spec_props_group. kinds. Qed.
#[global] Hint Resolve e_read_e2e_transformation_com_spec_props_group : kinds.
Lemma e_read_e2e_transformation_com_spec_props (v : N) (x : xml) : expected (read_e2e_transformation_com_spec_props v x).
Proof. unfold read_e2e_transformation_com_spec_props. kinds. Qed.
#[global] Hint Resolve e_read_e2e_transformation_com_spec_props : kinds.
Lemma e_read_e2e_profile_compatibility_props_group (v : N) (k : list xml) : expected (read_e2e_profile_compatibility_props_group v k).
Proof. unfold read_e2e_profile_compatibility_props_group. kinds. Qed.
#[global] Hint Resolve e_read_e2e_profile_compatibility_props_group : kinds.
Lemma e_read_e2e_profile_compatibility_props (v : N) (x : xml) : expected (read_e2e_profile_compatibility_props v x).
Proof. unfold read_e2e_profile_compatibility_props. kinds. Qed.
#[global] Hint Resolve e_read_e2e_profile_compatibility_props : kinds.
Lemma e_read_mode_switched_ack_request (v : N) (x : xml) : expected (read_mode_switched_ack_request v x).
Proof. unfold read_mode_switched_ack_request. kinds. Qed.
#[global] Hint Resolve e_read_mode_switched_ack_request : kinds.
Lemma e_read_mode_switch_sender_com_spec (v : N) (x : xml) : expected (read_mode_switch_sender_com_spec v x).
Proof. unfold read_mode_switch_sender_com_spec. kinds. Qed.
#[global] Hint Resolve e_read_mode_switch_sender_com_spec : kinds.
Lemma e_read_transmission_acknowledgement_request (v : N) (x : xml) : expected (read_transmission_acknowledgement_request v x).
Proof. unfold read_transmission_acknowledgement_request. kinds. Qed.
#[global] Hint Resolve e_read_transmission_acknowledgement_request : kinds.
Lemma e_read_tranmsission_com_spec_props (v : N) (x : xml) : expected (read_tranmsission_com_spec_props v x).
Proof. unfold read_tranmsission_com_spec_props. kinds. Qed.
#[global] Hint Resolve e_read_tranmsission_com_spec_props : kinds.
Lemma e_read_server_com_spec_group (v : N) (k : list xml) : expected (read_server_com_spec_group v k).
Proof. unfold read_server_com_spec_group. kinds. Qed.
#[global] Hint Resolve e_read_server_com_spec_group : kinds.
Lemma e_read_server_com_spec (v : N) (x : xml) : expected (read_server_com_spec v x).
Proof. unfold read_server_com_spec. kinds. Qed.
#[global] Hint Resolve e_read_server_com_spec : kinds.
Lemma e_read_mode_switch_receiver_com_spec (v : N) (x : xml) : expected (read_mode_switch_receiver_com_spec v x).
Proof. unfold read_mode_switch_receiver_com_spec. kinds. Qed.
#[global] Hint Resolve e_read_mode_switch_receiver_com_spec : kinds.
Lemma e_read_client_com_spec_group (v : N) (k : list xml) : expected (read_client_com_spec_group v k).
Proof. unfold read_client_com_spec_group. kinds. Qed.
#[global] Hint Resolve e_read_client_com_spec_group : kinds.
Lemma e_read_client_com_spec (v : N) (x : xml) : expected (read_client_com_spec v x).
Proof. unfold read_client_com_spec. kinds. Qed.
#[global] Hint Resolve e_read_client_com_spec : kinds.
Lemma e_read_sw_connector (v : N) (k : list xml) : expected (read_sw_connector v k).
Proof. unfold read_sw_connector. kinds. Qed.
#[global] Hint Resolve e_read_sw_connector : kinds.
Lemma e_read_pass_through_sw_connector (v : N) (x : xml) : expected (read_pass_through_sw_connector v x).
Proof. unfold read_pass_through_sw_connector. kinds. Qed.
#[global] Hint Resolve e_read_pass_through_sw_connector : kinds.
Lemma e_read_implementation (v : N) (k : list xml) : expected (read_implementation v k).
Proof. unfold read_implementation. kinds. Qed.
#[global] Hint Resolve e_read_implementation : kinds.
Lemma e_read_swc_implementation_group (v : N) (k : list xml) : expected (read_swc_implementation_group v k).
Proof. unfold read_swc_implementation_group. kinds. Qed.
#[global] Hint Resolve e_read_swc_implementation_group : kinds.
Lemma e_read_swc_implementation (v : N) (x : xml) : expected (read_swc_implementation v x).
Proof. unfold read_swc_implementation. kinds. Qed.
#[global] Hint Resolve e_read_swc_implementation : kinds.
Lemma e_read_p_mode_group_in_atomic_swc_instance_ref (v : N) (x : xml) : expected (read_p_mode_group_in_atomic_swc_instance_ref v x).
Proof. unfold read_p_mode_group_in_atomic_swc_instance_ref. kinds. Qed.
#[global] Hint Resolve e_read_p_mode_group_in_atomic_swc_instance_ref : kinds.
Lemma e_read_p_operation_in_atomic_swc_instance_ref (v : N) (x : xml) : expected (read_p_operation_in_atomic_swc_instance_ref v x).
Proof. unfold read_p_operation_in_atomic_swc_instance_ref. kinds. Qed.
#[global] Hint Resolve e_read_p_operation_in_atomic_swc_instance_ref : kinds.
Lemma e_read_p_trigger_in_atomic_swc_instance_ref (v : N) (x : xml) : expected (read_p_trigger_in_atomic_swc_instance_ref v x).
Proof. unfold read_p_trigger_in_atomic_swc_instance_ref. kinds. Qed.
#[global] Hint Resolve e_read_p_trigger_in_atomic_swc_instance_ref : kinds.
Lemma e_read_r_mode_in_atomic_swc_instance_ref (v : N) (x : xml) : expected (read_r_mode_in_atomic_swc_instance_ref v x).
Proof. unfold read_r_mode_in_atomic_swc_instance_ref. kinds. Qed.
#[global] Hint Resolve e_read_r_mode_in_atomic_swc_instance_ref : kinds.
Lemma e_read_r_mode_group_in_atomic_swc_instance_ref (v : N) (x : xml) : expected (read_r_mode_group_in_atomic_swc_instance_ref v x).
Proof. unfold read_r_mode_group_in_atomic_swc_instance_ref. kinds. Qed.
#[global] Hint Resolve e_read_r_mode_group_in_atomic_swc_instance_ref : kinds.
Lemma e_read_r_operation_in_atomic_swc_instance_ref (v : N) (x : xml) : expected (read_r_operation_in_atomic_swc_instance_ref v x).
Proof. unfold read_r_operation_in_atomic_swc_instance_ref. kinds. Qed.
#[global] Hint Resolve e_read_r_operation_in_atomic_swc_instance_ref : kinds.
Lemma e_read_r_variable_in_atomic_swc_instance_ref (v : N) (x : xml) : expected (read_r_variable_in_atomic_swc_instance_ref v x).
Proof. unfold read_r_variable_in_atomic_swc_instance_ref. kinds. Qed.
#[global] Hint Resolve e_read_r_variable_in_atomic_swc_instance_ref : kinds.
Lemma e_read_r_trigger_in_atomic_swc_instance_ref (v : N) (x : xml) : expected (read_r_trigger_in_atomic_swc_instance_ref v x).
Proof. unfold read_r_trigger_in_atomic_swc_instance_ref. kinds. Qed.
#[global] Hint Resolve e_read_r_trigger_in_atomic_swc_instance_ref : kinds.
Lemma e_read_variable_in_impl_data_instance_ref_group (v : N) (k : list xml) : expected (read_variable_in_impl_data_instance_ref_group v k).
Proof. unfold read_variable_in_impl_data_instance_ref_group. kinds. Qed.
#[global] Hint Resolve e_read_variable_in_impl_data_instance_ref_group : kinds.
Lemma e_read_variable_in_impl_data_instance_ref (v : N) (x : xml) : expected (read_variable_in_impl_data_instance_ref v x).
Proof. unfold read_variable_in_impl_data_instance_ref. kinds. Qed.
#[global] Hint Resolve e_read_variable_in_impl_data_instance_ref : kinds.
Lemma e_read_runnable_entity_argument (v : N) (x : xml) : expected (read_runnable_entity_argument v x).
Proof. unfold read_runnable_entity_argument. kinds. Qed.
#[global] Hint Resolve e_read_runnable_entity_argument : kinds.
Lemma e_read_executable_entity_activation_reason (v : N) (x : xml) : expected (read_executable_entity_activation_reason v x).
Proof. unfold read_executable_entity_activation_reason. kinds. Qed.
#[global] Hint Resolve e_read_executable_entity_activation_reason : kinds.
Lemma e_read_exclusive_area_ref_conditional (v : N) (x : xml) : expected (read_exclusive_area_ref_conditional v x).
Proof. unfold read_exclusive_area_ref_conditional. kinds. Qed.
#[global] Hint Resolve e_read_exclusive_area_ref_conditional : kinds.
Lemma e_read_abstract_access_point (v : N) (k : list xml) : expected (read_abstract_access_point v k).
Proof. unfold read_abstract_access_point. kinds. Qed.
#[global] Hint Resolve e_read_abstract_access_point : kinds.
Lemma e_read_server_call_point (v : N) (k : list xml) : expected (read_server_call_point v k).
Proof. unfold read_server_call_point. kinds. Qed.
#[global] Hint Resolve e_read_server_call_point : kinds.
Lemma e_read_async_server_call_point (v : N) (x : xml) : expected (read_async_server_call_point v x).
Proof. unfold read_async_server_call_point. kinds. Qed.
#[global] Hint Resolve e_read_async_server_call_point : kinds.
Lemma e_read_sync_server_call_point (v : N) (x : xml) : expected (read_sync_server_call_point v x).
Proof. unfold read_sync_server_call_point. kinds. Qed.
#[global] Hint Resolve e_read_sync_server_call_point : kinds.
Lemma e_read_async_server_call_result_point_group (v : N) (k : list xml) : expected (read_async_server_call_result_point_group v k).
Proof. unfold read_async_server_call_result_point_group. kinds. Qed.
#[global] Hint Resolve e_read_async_server_call_result_point_group : kinds.
Lemma e_read_async_server_call_result_point (v : N) (x : xml) : expected (read_async_server_call_result_point v x).
Proof. unfold read_async_server_call_result_point. kinds. Qed.
#[global] Hint Resolve e_read_async_server_call_result_point : kinds.
Lemma e_read_external_triggering_point_ident (v : N) (x : xml) : expected (read_external_triggering_point_ident v x).
Proof. unfold read_external_triggering_point_ident. kinds. Qed.
#[global] Hint Resolve e_read_external_triggering_point_ident : kinds.
Lemma e_read_external_triggering_point (v : N) (x : xml) : expected (read_external_triggering_point v x).
Proof. unfold read_external_triggering_point. kinds. Qed.
#[global] Hint Resolve e_read_external_triggering_point : kinds.
Lemma e_read_internal_triggering_point (v : N) (x : xml) : expected (read_internal_triggering_point v x).
Proof. unfold read_internal_triggering_point. kinds. Qed.
#[global] Hint Resolve e_read_internal_triggering_point : kinds.
Lemma e_read_mode_access_point_ident (v : N) (x : xml) : expected (read_mode_access_point_ident v x).
Proof. unfold read_mode_access_point_ident. kinds. Qed.
#[global] Hint Resolve e_read_mode_access_point_ident : kinds.
Lemma e_read_mode_switch_point (v : N) (x : xml) : expected (read_mode_switch_point v x).
Proof. unfold read_mode_switch_point. kinds. Qed.
#[global] Hint Resolve e_read_mode_switch_point : kinds.
Lemma e_read_parameter_in_atomic_swc_type_instance_ref (v : N) (x : xml) : expected (read_parameter_in_atomic_swc_type_instance_ref v x).
Proof. unfold read_parameter_in_atomic_swc_type_instance_ref. kinds. Qed.
#[global] Hint Resolve e_read_parameter_in_atomic_swc_type_instance_ref : kinds.
Lemma e_read_autosar_parameter_ref (v : N) (x : xml) : expected (read_autosar_parameter_ref v x).
Proof. unfold read_autosar_parameter_ref. kinds. Qed.
#[global] Hint Resolve e_read_autosar_parameter_ref : kinds.
Lemma e_read_wait_point_group (v : N) (k : list xml) : expected (read_wait_point_group v k).
Proof. unfold read_wait_point_group. kinds. Qed.
#[global] Hint Resolve e_read_wait_point_group : kinds.
Lemma e_read_wait_point (v : N) (x : xml) : expected (read_wait_point v x).
Proof. unfold read_wait_point. kinds. Qed.
#[global] Hint Resolve e_read_wait_point : kinds.
Lemma e_read_rte_event_group (v : N) (k : list xml) : expected (read_rte_event_group v k).
Proof. unfold read_rte_event_group. kinds. Qed.
#[global] Hint Resolve e_read_rte_event_group : kinds.
Lemma e_read_async_server_call_returns_event (v : N) (x : xml) : expected (read_async_server_call_returns_event v x).
Proof. unfold read_async_server_call_returns_event. kinds. Qed.
#[global] Hint Resolve e_read_async_server_call_returns_event : kinds.
Lemma e_read_background_event (v : N) (x : xml) : expected (read_background_event v x).
Proof. unfold read_background_event. kinds. Qed.
#[global] Hint Resolve e_read_background_event : kinds.
Lemma e_read_data_receive_error_event (v : N) (x : xml) : expected (read_data_receive_error_event v x).
Proof. unfold read_data_receive_error_event. kinds. Qed.
#[global] Hint Resolve e_read_data_receive_error_event : kinds.
Lemma e_read_data_received_event (v : N) (x : xml) : expected (read_data_received_event v x).
Proof. unfold read_data_received_event. kinds. Qed.
#[global] Hint Resolve e_read_data_received_event : kinds.
Lemma e_read_data_send_completed_event (v : N) (x : xml) : expected (read_data_send_completed_event v x).
Proof. unfold read_data_send_completed_event. kinds. Qed.
#[global] Hint Resolve e_read_data_send_completed_event : kinds.
Lemma e_read_data_write_completed_event (v : N) (x : xml) : expected (read_data_write_completed_event v x).
Proof. unfold read_data_write_completed_event. kinds. Qed.
#[global] Hint Resolve e_read_data_write_completed_event : kinds.
Lemma e_read_external_trigger_occured_event (v : N) (x : xml) : expected (read_external_trigger_occured_event v x).
Proof. unfold read_external_trigger_occured_event. kinds. Qed.
#[global] Hint Resolve e_read_external_trigger_occured_event : kinds.
Lemma e_read_init_event (v : N) (x : xml) : expected (read_init_event v x).
Proof. unfold read_init_event. kinds. Qed.
#[global] Hint Resolve e_read_init_event : kinds.
Lemma e_read_internal_trigger_occured_event (v : N) (x : xml) : expected (read_internal_trigger_occured_event v x).
Proof. unfold read_internal_trigger_occured_event. kinds. Qed.
#[global] Hint Resolve e_read_internal_trigger_occured_event : kinds.
Lemma e_read_mode_switched_ack_event (v : N) (x : xml) : expected (read_mode_switched_ack_event v x).
Proof. unfold read_mode_switched_ack_event. kinds. Qed.
#[global] Hint Resolve e_read_mode_switched_ack_event : kinds.
Lemma e_read_operation_invoked_event (v : N) (x : xml) : expected (read_operation_invoked_event v x).
Proof. unfold read_operation_invoked_event. kinds. Qed.
#[global] Hint Resolve e_read_operation_invoked_event : kinds.
Lemma e_read_swc_mode_manager_error_event (v : N) (x : xml) : expected (read_swc_mode_manager_error_event v x).
Proof. unfold read_swc_mode_manager_error_event. kinds. Qed.
#[global] Hint Resolve e_read_swc_mode_manager_error_event : kinds.
Lemma e_read_timing_event (v : N) (x : xml) : expected (read_timing_event v x).
Proof. unfold read_timing_event. kinds. Qed.
#[global] Hint Resolve e_read_timing_event : kinds.
Lemma e_read_transformer_hard_error_event_group (v : N) (k : list xml) : expected (read_transformer_hard_error_event_group v k).
Proof. unfold read_transformer_hard_error_event_group. kinds. Qed.
#[global] Hint Resolve e_read_transformer_hard_error_event_group : kinds.
Lemma e_read_transformer_hard_error_event (v : N) (x : xml) : expected (read_transformer_hard_error_event v x).
Proof. unfold read_transformer_hard_error_event. kinds. Qed.
#[global] Hint Resolve e_read_transformer_hard_error_event : kinds.
Lemma e_read_communication_buffer_locking (v : N) (x : xml) : expected (read_communication_buffer_locking v x).
Proof. unfold read_communication_buffer_locking. kinds. Qed.
#[global] Hint Resolve e_read_communication_buffer_locking : kinds.
Lemma e_read_exclusive_area (v : N) (x : xml) : expected (read_exclusive_area v x).
Proof. unfold read_exclusive_area. kinds. Qed.
#[global] Hint Resolve e_read_exclusive_area : kinds.
Lemma e_read_limit (x : xml) : expected (read_limit x).
Proof. unfold read_limit. kinds. Qed.
#[global] Hint Resolve e_read_limit : kinds.
Lemma e_read_compu_const (v : N) (x : xml) : expected (read_compu_const v x).
Proof. unfold read_compu_const. kinds. Qed.
#[global] Hint Resolve e_read_compu_const : kinds.
Lemma e_rd_numval (x : xml) : expected (rd_numval x).
Proof. unfold rd_numval. kinds. Qed.
#[global] Hint Resolve e_rd_numval : kinds.
Lemma e_read_compu_numerator_denominator_values (x : xml) : expected (read_compu_numerator_denominator_values x).
Proof. unfold read_compu_numerator_denominator_values. kinds. Qed.
#[global] Hint Resolve e_read_compu_numerator_denominator_values : kinds.
Lemma e_read_compu_rational (v : N) (x : xml) : expected (read_compu_rational v x).
Proof. unfold read_compu_rational. kinds. Qed.
#[global] Hint Resolve e_read_compu_rational : kinds.
Lemma e_read_scale_content (v : N) (k : list xml) : expected (read_scale_content v k).
Proof. unfold read_scale_content. kinds. Qed.
#[global] Hint Resolve e_read_scale_content : kinds.
Lemma e_read_compu_scale (v : N) (x : xml) : expected (read_compu_scale v x).
Proof. unfold read_compu_scale. kinds. Qed.
#[global] Hint Resolve e_read_compu_scale : kinds.
Lemma e_read_compu_scales (v : N) (x : xml) : expected (read_compu_scales v x).
Proof. unfold read_compu_scales. kinds. Qed.
#[global] Hint Resolve e_read_compu_scales : kinds.
Lemma e_read_computation (v : N) (x : xml) : expected (read_computation v x).
Proof. unfold read_computation. kinds. Qed.
#[global] Hint Resolve e_read_computation : kinds.
Lemma e_read_scale_constraint (v : N) (x : xml) : expected (read_scale_constraint v x).
Proof. unfold read_scale_constraint. kinds. Qed.
#[global] Hint Resolve e_read_scale_constraint : kinds.
Lemma e_read_constraint_base (v : N) (k : list xml) : expected (read_constraint_base v k).
Proof. unfold read_constraint_base. kinds. Qed.
#[global] Hint Resolve e_read_constraint_base : kinds.
Lemma e_read_internal_constraint (v : N) (x : xml) : expected (read_internal_constraint v x).
Proof. unfold read_internal_constraint. kinds. Qed.
#[global] Hint Resolve e_read_internal_constraint : kinds.
Lemma e_read_physical_constraint (v : N) (x : xml) : expected (read_physical_constraint v x).
Proof. unfold read_physical_constraint. kinds. Qed.
#[global] Hint Resolve e_read_physical_constraint : kinds.
Lemma e_read_data_constraint_rule (v : N) (x : xml) : expected (read_data_constraint_rule v x).
Proof. unfold read_data_constraint_rule. kinds. Qed.
#[global] Hint Resolve e_read_data_constraint_rule : kinds.
Lemma e_read_data_constraint (v : N) (x : xml) : expected (read_data_constraint v x).
Proof. unfold read_data_constraint. kinds. Qed.
#[global] Hint Resolve e_read_data_constraint : kinds.
Lemma e_read_compu_method (v : N) (x : xml) : expected (read_compu_method v x).
Proof. unfold read_compu_method. kinds. Qed.
#[global] Hint Resolve e_read_compu_method : kinds.
Lemma e_rd_value (x : xml) : expected (rd_value x).
Proof. unfold rd_value. kinds. Qed.
#[global] Hint Resolve e_rd_value : kinds.
Lemma e_read_value_list (v : N) (x : xml) : expected (read_value_list v x).
Proof. unfold read_value_list. kinds. Qed.
#[global] Hint Resolve e_read_value_list : kinds.
Lemma e_new_sw_values l : expected (new_sw_values l).
Proof. induction l as [|a l IH]; cbn [new_sw_values]; [kinds|]. repeat match goal with |- expected (match ?x with _ => _ end) => destruct x end; kinds. Qed.
Lemma e_collect {A} (f : xml -> result (option A)) k : Forall (fun x => expected (f x)) k -> expected (collect f k).
Proof. induction 1 as [|x k H _ IH]; cbn [collect]; [apply e_ok|]. apply e_bind; [exact H|]. intro. apply e_bind; [exact IH|]. kinds. Qed.
#[global] Hint Resolve e_new_sw_values : kinds.
Lemma e_read_sw_value x : expected (read_sw_value x).
Proof.
  induction x as [tag a t kids tl IH] using xml_ind'. cbn [read_sw_value]. apply Forall_forall in IH.
  destruct (String.eqb tag "VT"); [kinds|]. destruct (String.eqb tag "V"); [kinds|]. destruct (String.eqb tag "VG"); [|kinds].
  destruct kids as [|[lt la ltx lk ltl] r]; [kinds|]. inversion IH; subst. destruct (String.eqb lt "LABEL").
  - apply e_bind; [kinds|]. intro. apply e_bind; [now apply e_collect|]. kinds.
  - apply e_bind; [now apply e_collect|]. kinds.
Qed.
Lemma e_collect_sw k : expected (collect read_sw_value k).
Proof. apply e_collect, Forall_forall. intros x _. apply e_read_sw_value. Qed.
#[global] Hint Resolve e_collect_sw : kinds.

Lemma e_read_sw_values (v : N) (x : xml) : expected (read_sw_values v x).
Proof. unfold read_sw_values. kinds. Qed.
#[global] Hint Resolve e_read_sw_values : kinds.
Lemma e_rd_index (x : xml) : expected (rd_index x).
Proof. unfold rd_index. kinds. Qed.
#[global] Hint Resolve e_rd_index : kinds.
Lemma e_read_sw_axis_cont (v : N) (x : xml) : expected (read_sw_axis_cont v x).
Proof. unfold read_sw_axis_cont. kinds. Qed.
#[global] Hint Resolve e_read_sw_axis_cont : kinds.
Lemma e_read_sw_addr_method (v : N) (x : xml) : expected (read_sw_addr_method v x).
Proof. unfold read_sw_addr_method. kinds. Qed.
#[global] Hint Resolve e_read_sw_addr_method : kinds.
Lemma e_rd_alignment (x : xml) : expected (rd_alignment x).
Proof. unfold rd_alignment. kinds. Qed.
#[global] Hint Resolve e_rd_alignment : kinds.
Lemma e_read_sw_pointer_target_props_ {R} (v : N) (self : xml -> result R) (x : xml) : (forall y, expected (self y)) -> expected (read_sw_pointer_target_props_ v self x).
Proof. intros IH. unfold read_sw_pointer_target_props_. kinds. Qed.
#[global] Hint Resolve e_read_sw_pointer_target_props_ : kinds.
Lemma e_read_sw_data_def_props_conditional_ {P} (v : N) (self : xml -> result P) (x : xml) : (forall y, expected (self y)) -> expected (read_sw_data_def_props_conditional_ v self x).
Proof. intros IH. unfold read_sw_data_def_props_conditional_. kinds. Qed.
#[global] Hint Resolve e_read_sw_data_def_props_conditional_ : kinds.
Lemma e_read_sw_data_def_props_ (v : N) (self : xml -> result SwDataDefProps) (x : xml) : (forall y, expected (self y)) -> expected (read_sw_data_def_props_ v self x).
Proof. intros IH. unfold read_sw_data_def_props_. kinds. Qed.
#[global] Hint Resolve e_read_sw_data_def_props_ : kinds.
Lemma e_read_sw_data_def_props (v : N) (x : xml) : expected (read_sw_data_def_props v x).
Proof. unfold read_sw_data_def_props. apply e_recursive; [apply read_sw_data_def_props_local|intros; eauto with kinds]. Qed.
#[global] Hint Resolve e_read_sw_data_def_props : kinds.
Lemma e_read_sw_pointer_target_props (v : N) (x : xml) : expected (read_sw_pointer_target_props v x).
Proof. unfold read_sw_pointer_target_props. kinds. Qed.
#[global] Hint Resolve e_read_sw_pointer_target_props : kinds.
Lemma e_read_sw_data_def_props_conditional (v : N) (x : xml) : expected (read_sw_data_def_props_conditional v x).
Proof. unfold read_sw_data_def_props_conditional. kinds. Qed.
#[global] Hint Resolve e_read_sw_data_def_props_conditional : kinds.
Lemma e_read_implementation_data_type_element_ (v : N) (self : xml -> result ImplementationDataTypeElement) (x : xml) : (forall y, expected (self y)) -> expected (read_implementation_data_type_element_ v self x).
Proof. intros IH. unfold read_implementation_data_type_element_. kinds. Qed.
#[global] Hint Resolve e_read_implementation_data_type_element_ : kinds.
Lemma e_read_implementation_data_type_element (v : N) (x : xml) : expected (read_implementation_data_type_element v x).
Proof. unfold read_implementation_data_type_element. apply e_recursive; [apply read_implementation_data_type_element_local|intros; eauto with kinds]. Qed.
#[global] Hint Resolve e_read_implementation_data_type_element : kinds.
Lemma e_read_sw_value_cont (v : N) (x : xml) : expected (read_sw_value_cont v x).
Proof. unfold read_sw_value_cont. kinds. Qed.
#[global] Hint Resolve e_read_sw_value_cont : kinds.
Lemma e_new_not_available (label : option string) (p : option Z) : expected (new_not_available label p).
Proof. unfold new_not_available. kinds. Qed.
#[global] Hint Resolve e_new_not_available : kinds.
Lemma e_read_value_specification_element_ (v : N) (self : xml -> result ValueSpecificationElement) (x : xml) : (forall y, expected (self y)) -> expected (read_value_specification_element_ v self x).
Proof. intros IH. unfold read_value_specification_element_. kinds. Qed.
#[global] Hint Resolve e_read_value_specification_element_ : kinds.
Lemma e_read_value_specification_element (v : N) (x : xml) : expected (read_value_specification_element v x).
Proof. unfold read_value_specification_element. apply e_recursive; [apply read_value_specification_element_local|intros; eauto with kinds]. Qed.
#[global] Hint Resolve e_read_value_specification_element : kinds.
Lemma e_read_variable_in_atomic_swc_type_instance_ref (v : N) (x : xml) : expected (read_variable_in_atomic_swc_type_instance_ref v x).
Proof. unfold read_variable_in_atomic_swc_type_instance_ref. kinds. Qed.
#[global] Hint Resolve e_read_variable_in_atomic_swc_type_instance_ref : kinds.
Lemma e_read_port_in_composition_type_instance_ref (v : N) (x : xml) : expected (read_port_in_composition_type_instance_ref v x).
Proof. unfold read_port_in_composition_type_instance_ref. kinds. Qed.
#[global] Hint Resolve e_read_port_in_composition_type_instance_ref : kinds.
Lemma e_read_assembly_sw_connector (v : N) (x : xml) : expected (read_assembly_sw_connector v x).
Proof. unfold read_assembly_sw_connector. kinds. Qed.
#[global] Hint Resolve e_read_assembly_sw_connector : kinds.
Lemma e_read_inner_port (v : N) (x : xml) : expected (read_inner_port v x).
Proof. unfold read_inner_port. kinds. Qed.
#[global] Hint Resolve e_read_inner_port : kinds.
Lemma e_read_delegation_sw_connector (v : N) (x : xml) : expected (read_delegation_sw_connector v x).
Proof. unfold read_delegation_sw_connector. kinds. Qed.
#[global] Hint Resolve e_read_delegation_sw_connector : kinds.
Lemma e_read_mode_group_iref (v : N) (x : xml) : expected (read_mode_group_iref v x).
Proof. unfold read_mode_group_iref. kinds. Qed.
#[global] Hint Resolve e_read_mode_group_iref : kinds.
Lemma e_read_mode_access_point (v : N) (x : xml) : expected (read_mode_access_point v x).
Proof. unfold read_mode_access_point. kinds. Qed.
#[global] Hint Resolve e_read_mode_access_point : kinds.
Lemma e_read_autosar_data_type (v : N) (k : list xml) : expected (read_autosar_data_type v k).
Proof. unfold read_autosar_data_type. kinds. Qed.
#[global] Hint Resolve e_read_autosar_data_type : kinds.
Lemma e_read_implementation_data_type_group (v : N) (k : list xml) : expected (read_implementation_data_type_group v k).
Proof. unfold read_implementation_data_type_group. kinds. Qed.
#[global] Hint Resolve e_read_implementation_data_type_group : kinds.
Lemma e_read_implementation_data_type (v : N) (x : xml) : expected (read_implementation_data_type v x).
Proof. unfold read_implementation_data_type. kinds. Qed.
#[global] Hint Resolve e_read_implementation_data_type : kinds.
Lemma e_read_application_primitive_data_type (v : N) (x : xml) : expected (read_application_primitive_data_type v x).
Proof. unfold read_application_primitive_data_type. kinds. Qed.
#[global] Hint Resolve e_read_application_primitive_data_type : kinds.
Lemma e_read_data_prototype (v : N) (k : list xml) : expected (read_data_prototype v k).
Proof. unfold read_data_prototype. kinds. Qed.
#[global] Hint Resolve e_read_data_prototype : kinds.
Lemma e_read_application_composite_element_data_prototype (v : N) (k : list xml) : expected (read_application_composite_element_data_prototype v k).
Proof. unfold read_application_composite_element_data_prototype. kinds. Qed.
#[global] Hint Resolve e_read_application_composite_element_data_prototype : kinds.
Lemma e_read_application_array_element_group (v : N) (k : list xml) : expected (read_application_array_element_group v k).
Proof. unfold read_application_array_element_group. kinds. Qed.
#[global] Hint Resolve e_read_application_array_element_group : kinds.
Lemma e_read_application_array_element (v : N) (x : xml) : expected (read_application_array_element v x).
Proof. unfold read_application_array_element. kinds. Qed.
#[global] Hint Resolve e_read_application_array_element : kinds.
Lemma e_read_application_record_element_group (v : N) (k : list xml) : expected (read_application_record_element_group v k).
Proof. unfold read_application_record_element_group. kinds. Qed.
#[global] Hint Resolve e_read_application_record_element_group : kinds.
Lemma e_read_application_record_element (v : N) (x : xml) : expected (read_application_record_element v x).
Proof. unfold read_application_record_element. kinds. Qed.
#[global] Hint Resolve e_read_application_record_element : kinds.
Lemma e_read_application_array_data_type_group (v : N) (k : list xml) : expected (read_application_array_data_type_group v k).
Proof. unfold read_application_array_data_type_group. kinds. Qed.
#[global] Hint Resolve e_read_application_array_data_type_group : kinds.
Lemma e_read_application_array_data_type (v : N) (x : xml) : expected (read_application_array_data_type v x).
Proof. unfold read_application_array_data_type. kinds. Qed.
#[global] Hint Resolve e_read_application_array_data_type : kinds.
Lemma e_read_application_record_data_type_group (v : N) (k : list xml) : expected (read_application_record_data_type_group v k).
Proof. unfold read_application_record_data_type_group. kinds. Qed.
#[global] Hint Resolve e_read_application_record_data_type_group : kinds.
Lemma e_read_application_record_data_type (v : N) (x : xml) : expected (read_application_record_data_type v x).
Proof. unfold read_application_record_data_type. kinds. Qed.
#[global] Hint Resolve e_read_application_record_data_type : kinds.
Lemma e_read_autosar_data_prototype (v : N) (k : list xml) : expected (read_autosar_data_prototype v k).
Proof. unfold read_autosar_data_prototype. kinds. Qed.
#[global] Hint Resolve e_read_autosar_data_prototype : kinds.
Lemma e_read_variable_data_prototype_group (v : N) (k : list xml) : expected (read_variable_data_prototype_group v k).
Proof. unfold read_variable_data_prototype_group. kinds. Qed.
#[global] Hint Resolve e_read_variable_data_prototype_group : kinds.
Lemma e_read_variable_data_prototype (v : N) (x : xml) : expected (read_variable_data_prototype v x).
Proof. unfold read_variable_data_prototype. kinds. Qed.
#[global] Hint Resolve e_read_variable_data_prototype : kinds.
Lemma e_read_parameter_data_prototype_group (v : N) (k : list xml) : expected (read_parameter_data_prototype_group v k).
Proof. unfold read_parameter_data_prototype_group. kinds. Qed.
#[global] Hint Resolve e_read_parameter_data_prototype_group : kinds.
Lemma e_read_parameter_data_prototype (v : N) (x : xml) : expected (read_parameter_data_prototype v x).
Proof. unfold read_parameter_data_prototype. kinds. Qed.
#[global] Hint Resolve e_read_parameter_data_prototype : kinds.
Lemma e_read_argument_data_prototype_group (v : N) (k : list xml) : expected (read_argument_data_prototype_group v k).
Proof. unfold read_argument_data_prototype_group. kinds. Qed.
#[global] Hint Resolve e_read_argument_data_prototype_group : kinds.
Lemma e_read_argument_data_prototype (v : N) (x : xml) : expected (read_argument_data_prototype v x).
Proof. unfold read_argument_data_prototype. kinds. Qed.
#[global] Hint Resolve e_read_argument_data_prototype : kinds.
Lemma e_read_constant_specification_group (v : N) (k : list xml) : expected (read_constant_specification_group v k).
Proof. unfold read_constant_specification_group. kinds. Qed.
#[global] Hint Resolve e_read_constant_specification_group : kinds.
Lemma e_read_constant_specification (v : N) (x : xml) : expected (read_constant_specification v x).
Proof. unfold read_constant_specification. kinds. Qed.
#[global] Hint Resolve e_read_constant_specification : kinds.
Lemma e_read_nv_data_interface_group (v : N) (k : list xml) : expected (read_nv_data_interface_group v k).
Proof. unfold read_nv_data_interface_group. kinds. Qed.
#[global] Hint Resolve e_read_nv_data_interface_group : kinds.
Lemma e_read_nv_data_interface (v : N) (x : xml) : expected (read_nv_data_interface v x).
Proof. unfold read_nv_data_interface. kinds. Qed.
#[global] Hint Resolve e_read_nv_data_interface : kinds.
Lemma e_read_parameter_interface_group (v : N) (k : list xml) : expected (read_parameter_interface_group v k).
Proof. unfold read_parameter_interface_group. kinds. Qed.
#[global] Hint Resolve e_read_parameter_interface_group : kinds.
Lemma e_read_parameter_interface (v : N) (x : xml) : expected (read_parameter_interface v x).
Proof. unfold read_parameter_interface. kinds. Qed.
#[global] Hint Resolve e_read_parameter_interface : kinds.
Lemma e_read_sender_receiver_interface_group (v : N) (k : list xml) : expected (read_sender_receiver_interface_group v k).
Proof. unfold read_sender_receiver_interface_group. kinds. Qed.
#[global] Hint Resolve e_read_sender_receiver_interface_group : kinds.
Lemma e_read_sender_receiver_interface (v : N) (x : xml) : expected (read_sender_receiver_interface v x).
Proof. unfold read_sender_receiver_interface. kinds. Qed.
#[global] Hint Resolve e_read_sender_receiver_interface : kinds.
Lemma e_read_client_server_operation_group (v : N) (k : list xml) : expected (read_client_server_operation_group v k).
Proof. unfold read_client_server_operation_group. kinds. Qed.
#[global] Hint Resolve e_read_client_server_operation_group : kinds.
Lemma e_read_client_server_operation (v : N) (x : xml) : expected (read_client_server_operation v x).
Proof. unfold read_client_server_operation. kinds. Qed.
#[global] Hint Resolve e_read_client_server_operation : kinds.
Lemma e_read_client_server_interface_group (v : N) (k : list xml) : expected (read_client_server_interface_group v k).
Proof. unfold read_client_server_interface_group. kinds. Qed.
#[global] Hint Resolve e_read_client_server_interface_group : kinds.
Lemma e_read_client_server_interface (v : N) (x : xml) : expected (read_client_server_interface v x).
Proof. unfold read_client_server_interface. kinds. Qed.
#[global] Hint Resolve e_read_client_server_interface : kinds.
Lemma e_read_sender_com_spec_group (v : N) (k : list xml) : expected (read_sender_com_spec_group v k).
Proof. unfold read_sender_com_spec_group. kinds. Qed.
#[global] Hint Resolve e_read_sender_com_spec_group : kinds.
Lemma e_read_queued_sender_com_spec (v : N) (x : xml) : expected (read_queued_sender_com_spec v x).
Proof. unfold read_queued_sender_com_spec. kinds. Qed.
#[global] Hint Resolve e_read_queued_sender_com_spec : kinds.
Lemma e_read_nonqueued_sender_com_spec_group (v : N) (k : list xml) : expected (read_nonqueued_sender_com_spec_group v k).
Proof. unfold read_nonqueued_sender_com_spec_group. kinds. Qed.
#[global] Hint Resolve e_read_nonqueued_sender_com_spec_group : kinds.
Lemma e_read_nonqueued_sender_com_spec (v : N) (x : xml) : expected (read_nonqueued_sender_com_spec v x).
Proof. unfold read_nonqueued_sender_com_spec. kinds. Qed.
#[global] Hint Resolve e_read_nonqueued_sender_com_spec : kinds.
Lemma e_read_nv_provider_com_spec_group (v : N) (k : list xml) : expected (read_nv_provider_com_spec_group v k).
Proof. unfold read_nv_provider_com_spec_group. kinds. Qed.
#[global] Hint Resolve e_read_nv_provider_com_spec_group : kinds.
Lemma e_read_nv_provider_com_spec (v : N) (x : xml) : expected (read_nv_provider_com_spec v x).
Proof. unfold read_nv_provider_com_spec. kinds. Qed.
#[global] Hint Resolve e_read_nv_provider_com_spec : kinds.
Lemma e_read_parameter_provide_com_spec (v : N) (x : xml) : expected (read_parameter_provide_com_spec v x).
Proof. unfold read_parameter_provide_com_spec. kinds. Qed.
#[global] Hint Resolve e_read_parameter_provide_com_spec : kinds.
Lemma e_read_nv_require_com_spec (v : N) (x : xml) : expected (read_nv_require_com_spec v x).
Proof. unfold read_nv_require_com_spec. kinds. Qed.
#[global] Hint Resolve e_read_nv_require_com_spec : kinds.
Lemma e_read_parameter_require_com_spec (v : N) (x : xml) : expected (read_parameter_require_com_spec v x).
Proof. unfold read_parameter_require_com_spec. kinds. Qed.
#[global] Hint Resolve e_read_parameter_require_com_spec : kinds.
Lemma e_read_autosar_variable_ref_group (v : N) (k : list xml) : expected (read_autosar_variable_ref_group v k).
Proof. unfold read_autosar_variable_ref_group. kinds. Qed.
#[global] Hint Resolve e_read_autosar_variable_ref_group : kinds.
Lemma e_read_autosar_variable_ref (v : N) (x : xml) : expected (read_autosar_variable_ref v x).
Proof. unfold read_autosar_variable_ref. kinds. Qed.
#[global] Hint Resolve e_read_autosar_variable_ref : kinds.
Lemma e_read_variable_access_group (v : N) (k : list xml) : expected (read_variable_access_group v k).
Proof. unfold read_variable_access_group. kinds. Qed.
#[global] Hint Resolve e_read_variable_access_group : kinds.
Lemma e_read_variable_access (v : N) (x : xml) : expected (read_variable_access v x).
Proof. unfold read_variable_access. kinds. Qed.
#[global] Hint Resolve e_read_variable_access : kinds.
Lemma e_read_parameter_access_group (v : N) (k : list xml) : expected (read_parameter_access_group v k).
Proof. unfold read_parameter_access_group. kinds. Qed.
#[global] Hint Resolve e_read_parameter_access_group : kinds.
Lemma e_read_parameter_access (v : N) (x : xml) : expected (read_parameter_access v x).
Proof. unfold read_parameter_access. kinds. Qed.
#[global] Hint Resolve e_read_parameter_access : kinds.
Lemma e_read_port_defined_argument_value (v : N) (x : xml) : expected (read_port_defined_argument_value v x).
Proof. unfold read_port_defined_argument_value. kinds. Qed.
#[global] Hint Resolve e_read_port_defined_argument_value : kinds.
Lemma e_read_port_api_option_group (v : N) (k : list xml) : expected (read_port_api_option_group v k).
Proof. unfold read_port_api_option_group. kinds. Qed.
#[global] Hint Resolve e_read_port_api_option_group : kinds.
Lemma e_read_port_api_option (v : N) (x : xml) : expected (read_port_api_option v x).
Proof. unfold read_port_api_option. kinds. Qed.
#[global] Hint Resolve e_read_port_api_option : kinds.
Lemma e_read_reception_com_spec_props_ (v : N) (self : xml -> result ReceptionComSpecProps) (x : xml) : (forall y, expected (self y)) -> expected (read_reception_com_spec_props_ v self x).
Proof. intros IH. unfold read_reception_com_spec_props_. kinds. Qed.
#[global] Hint Resolve e_read_reception_com_spec_props_ : kinds.
Lemma e_read_reception_com_spec_props (v : N) (x : xml) : expected (read_reception_com_spec_props v x).
Proof. unfold read_reception_com_spec_props. apply e_recursive; [apply read_reception_com_spec_props_local|intros; eauto with kinds]. Qed.
#[global] Hint Resolve e_read_reception_com_spec_props : kinds.
Lemma e_read_receiver_com_spec (v : N) (k : list xml) : expected (read_receiver_com_spec v k).
Proof. unfold read_receiver_com_spec. kinds. Qed.
#[global] Hint Resolve e_read_receiver_com_spec : kinds.
Lemma e_read_queued_receiver_com_spec (v : N) (x : xml) : expected (read_queued_receiver_com_spec v x).
Proof. unfold read_queued_receiver_com_spec. kinds. Qed.
#[global] Hint Resolve e_read_queued_receiver_com_spec : kinds.
Lemma e_read_nonqueued_receiver_com_spec_group (v : N) (k : list xml) : expected (read_nonqueued_receiver_com_spec_group v k).
Proof. unfold read_nonqueued_receiver_com_spec_group. kinds. Qed.
#[global] Hint Resolve e_read_nonqueued_receiver_com_spec_group : kinds.
Lemma e_read_nonqueued_receiver_com_spec (v : N) (x : xml) : expected (read_nonqueued_receiver_com_spec v x).
Proof. unfold read_nonqueued_receiver_com_spec. kinds. Qed.
#[global] Hint Resolve e_read_nonqueued_receiver_com_spec : kinds.
Lemma e_read_provided_com_spec (v : N) (x : xml) : expected (read_provided_com_spec v x).
Proof. unfold read_provided_com_spec. kinds. Qed.
#[global] Hint Resolve e_read_provided_com_spec : kinds.
Lemma e_read_required_com_spec (v : N) (x : xml) : expected (read_required_com_spec v x).
Proof. unfold read_required_com_spec. kinds. Qed.
#[global] Hint Resolve e_read_required_com_spec : kinds.
Lemma e_read_provide_port_prototype_group (v : N) (k : list xml) : expected (read_provide_port_prototype_group v k).
Proof. unfold read_provide_port_prototype_group. kinds. Qed.
#[global] Hint Resolve e_read_provide_port_prototype_group : kinds.
Lemma e_read_provide_port_prototype (v : N) (x : xml) : expected (read_provide_port_prototype v x).
Proof. unfold read_provide_port_prototype. kinds. Qed.
#[global] Hint Resolve e_read_provide_port_prototype : kinds.
Lemma e_read_required_port_prototype_group (v : N) (k : list xml) : expected (read_required_port_prototype_group v k).
Proof. unfold read_required_port_prototype_group. kinds. Qed.
#[global] Hint Resolve e_read_required_port_prototype_group : kinds.
Lemma e_read_require_port_prototype (v : N) (x : xml) : expected (read_require_port_prototype v x).
Proof. unfold read_require_port_prototype. kinds. Qed.
#[global] Hint Resolve e_read_require_port_prototype : kinds.
Lemma e_read_pr_port_prototype (v : N) (x : xml) : expected (read_pr_port_prototype v x).
Proof. unfold read_pr_port_prototype. kinds. Qed.
#[global] Hint Resolve e_read_pr_port_prototype : kinds.
Lemma e_read_sw_component_type (v : N) (k : list xml) : expected (read_sw_component_type v k).
Proof. unfold read_sw_component_type. kinds. Qed.
#[global] Hint Resolve e_read_sw_component_type : kinds.
Lemma e_read_sw_component_prototype (v : N) (x : xml) : expected (read_sw_component_prototype v x).
Proof. unfold read_sw_component_prototype. kinds. Qed.
#[global] Hint Resolve e_read_sw_component_prototype : kinds.
Lemma e_read_composition_sw_component_type (v : N) (x : xml) : expected (read_composition_sw_component_type v x).
Proof. unfold read_composition_sw_component_type. kinds. Qed.
#[global] Hint Resolve e_read_composition_sw_component_type : kinds.
Lemma e_read_mode_irefs (v : N) (x : xml) : expected (read_mode_irefs v x).
Proof. unfold read_mode_irefs. kinds. Qed.
#[global] Hint Resolve e_read_mode_irefs : kinds.
Lemma e_read_swc_mode_switch_event_group (v : N) (k : list xml) : expected (read_swc_mode_switch_event_group v k).
Proof. unfold read_swc_mode_switch_event_group. kinds. Qed.
#[global] Hint Resolve e_read_swc_mode_switch_event_group : kinds.
Lemma e_read_swc_mode_switch_event (v : N) (x : xml) : expected (read_swc_mode_switch_event v x).
Proof. unfold read_swc_mode_switch_event. kinds. Qed.
#[global] Hint Resolve e_read_swc_mode_switch_event : kinds.
Lemma e_read_exclusive_areas (v : N) (old_container old_tag container : string) (k : list xml) : expected (read_exclusive_areas v old_container old_tag container k).
Proof. unfold read_exclusive_areas. kinds. Qed.
#[global] Hint Resolve e_read_exclusive_areas : kinds.
Lemma e_read_runnable_entity (v : N) (x : xml) : expected (read_runnable_entity v x).
Proof. unfold read_runnable_entity. kinds. Qed.
#[global] Hint Resolve e_read_runnable_entity : kinds.
Lemma e_read_rte_event_element (v : N) (x : xml) : expected (read_rte_event_element v x).
Proof. unfold read_rte_event_element. kinds. Qed.
#[global] Hint Resolve e_read_rte_event_element : kinds.
Lemma e_read_mode_declaration_group (v : N) (x : xml) : expected (read_mode_declaration_group v x).
Proof. unfold read_mode_declaration_group. kinds. Qed.
#[global] Hint Resolve e_read_mode_declaration_group : kinds.
Lemma e_read_internal_behavior_group (v : N) (k : list xml) : expected (read_internal_behavior_group v k).
Proof. unfold read_internal_behavior_group. kinds. Qed.
#[global] Hint Resolve e_read_internal_behavior_group : kinds.
Lemma e_read_swc_internal_behavior_group (v : N) (k : list xml) : expected (read_swc_internal_behavior_group v k).
Proof. unfold read_swc_internal_behavior_group. kinds. Qed.
#[global] Hint Resolve e_read_swc_internal_behavior_group : kinds.
Lemma e_read_swc_internal_behavior (v : N) (x : xml) : expected (read_swc_internal_behavior v x).
Proof. unfold read_swc_internal_behavior. kinds. Qed.
#[global] Hint Resolve e_read_swc_internal_behavior : kinds.
Lemma e_read_atomic_sw_component_type (v : N) (k : list xml) : expected (read_atomic_sw_component_type v k).
Proof. unfold read_atomic_sw_component_type. kinds. Qed.
#[global] Hint Resolve e_read_atomic_sw_component_type : kinds.
Lemma e_read_application_sw_component_type (v : N) (x : xml) : expected (read_application_sw_component_type v x).
Proof. unfold read_application_sw_component_type. kinds. Qed.
#[global] Hint Resolve e_read_application_sw_component_type : kinds.

(** ** Packages and documents *)
Lemma e_read_collectable v tag read : read_collectable v tag = Some read -> forall x, expected (read x).
Proof.
  unfold read_collectable. intros E x. repeat match type of E with (if ?b then _ else _) = _ => destruct b; [injection E as <-; kinds|] end. discriminate E.
Qed.
Lemma e_read_package_elements v stop k : forall p, expected (read_package_elements v stop p k).
Proof.
  induction k as [|x k IH]; intros p; cbn [read_package_elements]; [apply e_ok|]. destruct (read_collectable v (x_tag x)) as [read|] eqn:R; [|apply IH].
  assert (H : expected (bind (read x) (fun e => append_element p e))) by (apply e_bind; [eapply e_read_collectable; eauto|]; intro; kinds).
  destruct (bind (read x) _) as [q|e]; [apply IH|]. specialize (H e eq_refl). destruct e; try (apply e_err; exact H); destruct stop; (apply IH || (apply e_err; exact H)).
Qed.
Lemma e_read_sub_packages self l : (forall y, expected (self y)) -> forall p, expected (read_sub_packages self p l).
Proof. intros S. induction l as [|x l IH]; intros p; cbn [read_sub_packages]; [apply e_ok|]. apply e_bind; [apply S|]. intro. apply e_bind; [kinds|]. intro. apply IH. Qed.
#[global] Hint Resolve e_read_package_elements e_read_sub_packages : kinds.
Lemma e_read_package v stop x : expected (read_package v stop x).
Proof. unfold read_package. apply e_recursive; [apply read_package_local|]. intros self y S. unfold read_package_. kinds. Qed.
#[global] Hint Resolve e_read_package : kinds.
Lemma e_read_packages v stop k : forall l, expected (read_packages v stop l k).
Proof. induction k as [|x k IH]; intros l; cbn [read_packages]; [apply e_ok|]. kinds. Qed.
Lemma e_load s : expected (load s).
Proof.
  unfold load, parse_names. assert (P : expected (parse s)) by (unfold parse; kinds). destruct (parse s) as [x|e]; [|exact P]. destruct (resolve [] x); kinds.
Qed.
Lemma e_read_str v s stop : expected (snd (read_str v s stop)).
Proof.
  unfold read_str. pose proof (e_load s) as L. destruct (load s) as [x|e]; [|apply e_err; now apply (L e)]. unfold read_root. cbn [snd]. apply e_bind; [apply e_read_packages|]. kinds.
Qed.
(** ** Single elements *)
Lemma e_made {A} (f : A -> any_object) (read : xml -> result A) x : (forall y, expected (read y)) -> expected (made f read x).
Proof. intros H. unfold made. apply e_bind; [apply H|]. kinds. Qed.
Lemma e_run_reader v m x : expected (run_reader v m x).
Proof.
  destruct m; cbn [run_reader]; try (apply e_made; intro; kinds); kinds.
Qed.
Lemma e_read_str_elem v s t : expected (read_str_elem v s t).
Proof.
  unfold read_str_elem. apply e_bind; [unfold parse_names|].
  - assert (P : expected (parse s)) by (unfold parse; kinds). destruct (parse s) as [x|e]; [|exact P]. destruct (resolve [] x); kinds.
  - intros x. destruct (find_reader t (x_tag x)); [apply e_run_reader|kinds].
Qed.
(** ** Every reading method *)
Lemma all_expected : Forall (fun m => forall v x, expected (m_read m v x)) methods.
Proof. unfold methods. repeat (apply Forall_cons; [intros v x; match goal with |- expected (m_read ?m v x) => unfold m end; cbn [m_read]; kinds|]). apply Forall_nil. Qed.
