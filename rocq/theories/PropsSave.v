(** C64 (when a document can be saved). *)
From Verif Require Import Base PBase MNames MNum SNum MXml SXml PXml MEnum MRefTab MRef MCodec SCodec MElem0 MElem1 MElemA MElemB MElemC MElem2 MElemD MElem3 MElem4 MElemE MElem5 MElemF MArxml SArxml PArxml SSave0 PSave0 SSave PSave PropsArxml.
Open Scope list_scope.

(** ** C64 *)

(** Saving a document, to a string or to a file, succeeds exactly when the document is savable: every number in it has a
    text, inline elements stand where they are allowed, and nothing is missing that the writer insists on. *)
Theorem C64_save_iff d skip_root_attr : (exists text, write_str d skip_root_attr = Ok text) <-> savable_document d.
Proof.
  rewrite <- (We_document skip_root_attr d). unfold write_str. split.
  - intros [text E]. destruct (write_document skip_root_attr d) as [l|] eqn:D; [now exists l|discriminate].
  - intros [l E]. rewrite E. cbn [bind]. unfold write_document, node in E.
    destruct (if_some (doc_packages d) _) as [k|]; [|discriminate]. injection E as <-. rewrite render_doc_layout. eauto.
Qed.
Theorem C64_save_file_iff d : (exists text, write_file d = Ok text) <-> savable_document d.
Proof. exact (C64_save_iff d false). Qed.

(** An object somewhere in the package tree *)
Inductive within : package -> ARElement -> Prop :=
| within_here i es ps e : In e es -> within (mkPackage i es ps) e
| within_below i es ps p e : In p ps -> within p e -> within (mkPackage i es ps) e.
(** One object that cannot be saved, wherever it is, keeps the whole document from being saved. *)
Theorem C64_one_object_blocks d skip_root_attr p e : In p (doc_packages d) -> within p e -> ~ savable_ARElement (doc_schema_version d) e ->
  exists x, write_str d skip_root_attr = Err x.
Proof.
  intros Ip We N. destruct (write_str d skip_root_attr) as [text|x] eqn:E; [|eauto].
  assert (S : savable_document d) by (apply (C64_save_iff d skip_root_attr); eauto).
  exfalso. apply N. clear N E. unfold savable_document in S. apply (proj1 (all_ok_in _ _) S) in Ip. clear S.
  induction We as [i es ps e I|i es ps p e I _ IH].
  - destruct Ip as (_ & H & _). now apply (proj1 (all_ok_in _ _) H).
  - destruct Ip as (_ & _ & H). now apply IH, (proj1 (all_ok_in _ _) H).
Qed.
(** Everything that survives saving and loading (C24) can be saved. *)
Theorem C64_round_trip_savable d : good_document d -> savable_document d.
Proof. intros G. apply C64_save_file_iff. destruct (C24_document_round_trip d G) as (text & E & _). eauto. Qed.

(** ** Examples *)
Definition unit_with (f : pynum) : ARElement := AR_Unit (mkUnit (name_only "U") None None (Some f) None).
Definition doc_with (v : N) (e : ARElement) : document := mkDocument [mkPackage (name_only "P") [] [mkPackage (name_only "Q") [e] []]] v.
Example C64_savable_example : savable_document ex_document.
Proof. apply C64_round_trip_savable, ex_document_good. Qed.
Example C64_boundary_example :
  (exists text, write_file (doc_with 51 (unit_with (NInt (10 ^ 28 - 1)))) = Ok text) /\
  (exists x, write_file (doc_with 51 (unit_with (NInt (10 ^ 28)))) = Err x).
Proof. split; eexists; vm_compute; reflexivity. Qed.
(** A service kind, a limit that is a text, an assembly whose provider is a required port, and an exclusive area without a reference before
    schema version 50: the same area can be saved with version 50. *)
Definition limit_text : ARElement :=
  AR_CompuMethod (mkCompuMethod (name_only "M") (Some (mkComputation (Some [mkCompuScale None (Some (SText "INF")) None None None None None None IntervalType_CLOSED IntervalType_CLOSED]) None)) None None None).
Definition behavior_with (r : RunnableEntity) : ARElement :=
  AR_ApplicationSoftwareComponentType (mkApplicationSoftwareComponentType (name_only "C") []
    (Some (mkSwcInternalBehavior (name_only "B") [] [] [] [] [r])) None).
Definition area_run : RunnableEntity :=
  mkRunnableEntity (name_only "R") [] [mkExclusiveAreaRefConditional None] [] None None [] None [] [] None [] [] [] [] [] [] [] [] [] [] [] [] None [] [].
Definition assembly (d : IdentifiableSubTypes) : ARElement :=
  AR_CompositionSwComponentType (mkCompositionSwComponentType (name_only "C") [] []
    [SwConnectorElement_Assembly (mkAssemblySwConnector (name_only "X") (Some (mkPortInCompositionTypeInstanceRef None (Some (mkRef "/P/C/Port" d)))) None)]).
Example C64_unsavable_examples :
  write_file (doc_with 51 limit_text) = Err TypeError /\
  write_file (doc_with 51 (assembly IdentifiableSubTypes_R_PORT_PROTOTYPE)) = Err AssertionError /\
  write_file (doc_with 49 (behavior_with area_run)) = Err AssertionError /\
  (exists text, write_file (doc_with 50 (behavior_with area_run)) = Ok text) /\
  (exists text, write_file (doc_with 51 (assembly IdentifiableSubTypes_PR_PORT_PROTOTYPE)) = Ok text).
Proof. repeat split; try eexists; vm_compute; reflexivity. Qed.
Example C64_blocks_example : ~ savable_ARElement 51 (unit_with (NInt (10 ^ 28))) /\
  within (mkPackage (name_only "P") [] [mkPackage (name_only "Q") [unit_with (NInt (10 ^ 28))] []]) (unit_with (NInt (10 ^ 28))).
Proof.
  split.
  - intros (_ & _ & F & _). change (float_has_text (NInt (10 ^ 28))) in F.
    assert (X : (Z.abs (10 ^ 28) < 10 ^ 28)%Z) by (apply F; unfold whole_number, meaning; apply QArith_base.Qeq_refl). now apply Z.lt_irrefl in X.
  - eapply within_below; [left; reflexivity|]. apply within_here. now left.
Qed.

(** A document that was just loaded, without any error, need not be savable: the factor 1e30 of a unit is read but has no text, and an empty VT is read
    as a missing value. *)
Theorem C64_loaded_savable_refuted : exists text d, snd (read_str 51 text true) = Ok d /\ exists x, write_file d = Err x.
Proof.
  exists (file_with "<UNIT><SHORT-NAME>B</SHORT-NAME><FACTOR-SI-TO-UNIT>1e30</FACTOR-SI-TO-UNIT></UNIT>"), (mkDocument [mkPackage (name_only "P") [AR_Unit (mkUnit (name_only "B") None None (Some (NFloat (FFin false 1 30))) None)] []] 51).
  split; [vm_compute; reflexivity|]. eexists. vm_compute. reflexivity.
Qed.

Print Assumptions C64_save_iff.
Print Assumptions C64_one_object_blocks.
Print Assumptions C64_round_trip_savable.
Print Assumptions C64_loaded_savable_refuted.
