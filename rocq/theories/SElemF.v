(** Mode declaration groups, internal behaviors and application software components: what XML can
    carry (good_), and as what it comes back (norm_). *)
From Verif Require Import Base MNum SNum MXml SXml MEnum MRefTab MRef SEnum MCodec SCodec MElem0 MElem1 MElemA MElemB MElemC MElem2 MElemD MElem3 MElem4 MElemE MElem5 MElemF SElem1 SElemA SElemB SElemC SElem2 SElemD SElem3 SElem4 SElemE SElem5.

Definition good_ModeDeclarationGroup (e : ModeDeclarationGroup) : Prop :=
  good_ident (ModeDeclarationGroup_ident e) /\
  opt_ok (good_ref rc_ModeDeclarationRef) (ModeDeclarationGroup_initial_mode_ref e) /\
  all_ok good_ModeDeclaration (ModeDeclarationGroup_mode_declarations e) /\
  opt_ok good_ModeErrorBehavior (ModeDeclarationGroup_mode_manager_error_behavior e) /\
  all_ok good_ModeTransition (ModeDeclarationGroup_mode_transitions e) /\
  opt_ok good_ModeErrorBehavior (ModeDeclarationGroup_mode_user_error_behavior e) /\
  opt_ok (fun z => (0 <= z)%Z) (ModeDeclarationGroup_on_transition_value e).
(** Every option of the dictionary has a port, and its key is the last part of the reference to it. *)
Definition good_options (l : list (string * PortApiOption)) : Prop :=
  all_ok (fun a => good_PortApiOption (snd a)) l /\
  all_ok (fun a => option_map last_part (PortApiOption_port (snd a)) = Some (fst a)) l /\
  NoDup (map fst l).
Definition good_SwcInternalBehavior (v : N) (e : SwcInternalBehavior) : Prop :=
  good_ident_no_uuid (SwcInternalBehavior_ident e) /\
  all_ok (good_ref rc_DataTypeMappingSetRef) (SwcInternalBehavior_data_type_mappings e) /\
  all_ok good_ExclusiveArea (SwcInternalBehavior_exclusive_areas e) /\
  all_ok good_RteEvent (SwcInternalBehavior_events e) /\
  good_options (SwcInternalBehavior_port_api_options e) /\
  all_ok (good_RunnableEntity v) (SwcInternalBehavior_runnables e).
Definition norm_SwcInternalBehavior (e : SwcInternalBehavior) : SwcInternalBehavior :=
  mkSwcInternalBehavior (SwcInternalBehavior_ident e) (SwcInternalBehavior_data_type_mappings e) (SwcInternalBehavior_exclusive_areas e)
    (SwcInternalBehavior_events e) (map (fun a => (fst a, norm_PortApiOption (snd a))) (SwcInternalBehavior_port_api_options e))
    (map norm_RunnableEntity (SwcInternalBehavior_runnables e)).
Definition good_ApplicationSoftwareComponentType (v : N) (e : ApplicationSoftwareComponentType) : Prop :=
  good_ident_no_uuid (ApplicationSoftwareComponentType_ident e) /\
  all_ok good_PortPrototypeElement (ApplicationSoftwareComponentType_ports e) /\
  opt_ok (good_SwcInternalBehavior v) (ApplicationSoftwareComponentType_internal_behavior e) /\
  opt_ok good_SymbolProps (ApplicationSoftwareComponentType_symbol_props e).
Definition norm_ApplicationSoftwareComponentType (e : ApplicationSoftwareComponentType) : ApplicationSoftwareComponentType :=
  mkApplicationSoftwareComponentType (ApplicationSoftwareComponentType_ident e)
    (map norm_PortPrototypeElement (ApplicationSoftwareComponentType_ports e))
    (option_map norm_SwcInternalBehavior (ApplicationSoftwareComponentType_internal_behavior e))
    (ApplicationSoftwareComponentType_symbol_props e).
